(** Addresses in Go's standard library, as far as horcrux looks at them: the host part of
    url.Parse (net/url, go 1.17: parse, getScheme, parseAuthority, parseHost, unescape) and
    net.SplitHostPort (net/ipsock.go). Callers: cmd/horcrux/cmd/config.go:95-107, 213, 630;
    leader_election.go:53-74; signer/raft_store.go:88-96, 129-135; remote_cosigner.go:50-57.

    Strings are bytes. Only URL.Host is kept of the result, so scheme, user, path, query and fragment
    matter only for whether parsing fails. *)
From Coq Require Import Strings.String.
From Verif Require Import GoBase Json.
Local Open Scope Z_scope.

(** strings.Cut at the first [c]; the second part is there if [c] occurs *)
Fixpoint cut (c : byte) (l : bytes) : bytes * option bytes :=
  match l with
  | [] => ([], None)
  | x :: r => if bool_decide (x = c) then ([], Some r) else let '(a, b) := cut c r in (x :: a, b)
  end.
(** the parts before and after the last [c] *)
Fixpoint rcut (c : byte) (l : bytes) : option (bytes * bytes) :=
  match l with
  | [] => None
  | x :: r =>
      match rcut c r with
      | Some (a, b) => Some (x :: a, b)
      | None => if bool_decide (x = c) then Some ([], r) else None
      end
  end.
Definition has (c : byte) (l : bytes) : bool := bool_decide (c ∈ l).

(** ** Characters *)

Definition between (lo hi : Z) (c : byte) : bool := (lo <=? bz c) && (bz c <=? hi).
Definition is_alpha (c : byte) : bool := between 97 122 c || between 65 90 c.
Definition is_num (c : byte) : bool := between 48 57 c.
(** net/url ishex, unhex *)
Definition is_hex (c : byte) : bool := is_num c || between 97 102 c || between 65 70 c.
Definition unhex (c : byte) : Z :=
  if is_num c then bz c - 48
  else if between 97 102 c then bz c - 97 + 10
  else if between 65 70 c then bz c - 65 + 10 else 0.
(** net/url stringContainsCTLByte, one byte *)
Definition is_ctl (c : byte) : bool := (bz c <? 32) || (bz c =? 127).
(** net/url shouldEscape for the modes encodeHost and encodeZone, negated *)
Definition host_char (c : byte) : bool :=
  is_alpha c || is_num c || has c (lit "!$&'()*+,;=:[]<>-_.~") || (bz c =? 34).
(** net/url validUserinfo, one byte *)
Definition user_char (c : byte) : bool :=
  is_alpha c || is_num c || has c (lit "-._:~!$&'()*+,;=%@").

(** ** net/url *)

(** unescape; [esc a b] and [ok c] are what the mode allows: an escaped byte written with the digits
    [a] and [b], and a byte as it is. '+' stands for itself outside of queries. *)
Fixpoint unescape (esc : byte -> byte -> bool) (ok : byte -> bool) (s : bytes) : option bytes :=
  match s with
  | [] => Some []
  | c :: r =>
      if bool_decide (c = "%"%byte) then
        match r with
        | a :: b :: r' =>
            if is_hex a && is_hex b && esc a b
            then cons (zb (16 * unhex a + unhex b)) <$> unescape esc ok r' else None
        | _ => None
        end
      else if ok c then cons c <$> unescape esc ok r else None
  end.
(** modes encodePath, encodeFragment, encodeUserPassword: every byte is fine *)
Definition unescape_any : bytes -> option bytes := unescape (fun _ _ => true) (fun _ => true).
Definition is_25 (a b : byte) : bool := bool_decide (a = "2"%byte) && bool_decide (b = "5"%byte).
Definition plain_or_high (c : byte) : bool := (128 <=? bz c) || host_char c.
(** mode encodeHost: only bytes above 127 are escaped, and '%' *)
Definition unescape_host : bytes -> option bytes :=
  unescape (fun a b => negb (unhex a <? 8) || is_25 a b) plain_or_high.
(** mode encodeZone: shouldEscape is asked about the escaped byte as well *)
Definition unescape_zone : bytes -> option bytes :=
  unescape (fun a b => let v := zb (16 * unhex a + unhex b) in
              is_25 a b || (bz v =? 32) || host_char v) plain_or_high.

(** validOptionalPort *)
Definition valid_optional_port (s : bytes) : bool :=
  match s with
  | [] => true
  | c :: r => bool_decide (c = ":"%byte) && forallb is_num r
  end.

(** strings.Index(s, "%25"): the parts before it and from it on *)
Fixpoint zone_cut (s : bytes) : option (bytes * bytes) :=
  match s with
  | [] => None
  | c :: r =>
      match s with
      | "%"%byte :: "2"%byte :: "5"%byte :: _ => Some ([], s)
      | _ => match zone_cut r with Some (a, b) => Some (c :: a, b) | None => None end
      end
  end.

(** parseHost *)
Definition parse_host (h : bytes) : option bytes :=
  match h with
  | "["%byte :: _ =>
      match rcut "]"%byte h with
      | None => None
      | Some (pre, port) =>
          if valid_optional_port port then
            match zone_cut pre with
            | Some (h1, h2) =>
                match unescape_host h1, unescape_zone h2, unescape_host ("]"%byte :: port) with
                | Some a, Some b, Some c => Some (a ++ b ++ c)
                | _, _, _ => None
                end
            | None => unescape_host h
            end
          else None
      end
  | _ =>
      match rcut ":"%byte h with
      | Some (_, port) => if valid_optional_port (":"%byte :: port) then unescape_host h else None
      | None => unescape_host h
      end
  end.

(** parseAuthority. A ':' in the user info separates the password; both parts are unescaped, which
    fails if and only if it fails for the whole, ':' not being a hexadecimal digit. *)
Definition parse_authority (a : bytes) : option bytes :=
  match rcut "@"%byte a with
  | None => parse_host a
  | Some (user, h) =>
      match parse_host h with
      | None => None
      | Some host =>
          if forallb user_char user then
            match unescape_any user with Some _ => Some host | None => None end
          else None
      end
  end.

(** getScheme: [None] is the error, [Some None] no scheme *)
Fixpoint get_scheme (first : bool) (s : bytes) : option (option (bytes * bytes)) :=
  match s with
  | [] => Some None
  | c :: r =>
      let go := match get_scheme false r with
                | Some (Some (a, b)) => Some (Some (c :: a, b))
                | x => x
                end in
      if is_alpha c then go
      else if is_num c || has c (lit "+-.") then if first then Some None else go
      else if bool_decide (c = ":"%byte) then if first then None else Some (Some ([], r))
      else Some None
  end.

(** setPath and the result *)
Definition with_path (host path : bytes) : option bytes :=
  match unescape_any path with Some _ => Some host | None => None end.

(** parse(u, false), the part without fragment. A trailing '?' and a query are both cut off at the
    first '?'. *)
Definition parse (u : bytes) : option bytes :=
  if existsb is_ctl u then None
  else if bool_decide (u = lit "*") then Some []
  else
    match get_scheme true u with
    | None => None
    | Some sch =>
        let '(scheme, rest) := match sch with Some (a, b) => (true, b) | None => (false, u) end in
        let rest := fst (cut "?"%byte rest) in
        match rest with
        | "/"%byte :: "/"%byte :: r =>
            if negb scheme && match r with "/"%byte :: _ => true | _ => false end
            then with_path [] rest
            else
              let '(authority, path) := cut "/"%byte r in
              match parse_authority authority with
              | None => None
              | Some host => with_path host (match path with Some p => "/"%byte :: p | None => [] end)
              end
        | "/"%byte :: _ => with_path [] rest
        | _ =>
            if scheme then Some [] (* opaque *)
            else if has ":"%byte (fst (cut "/"%byte rest)) then None
            else with_path [] rest
        end
    end.

(** url.Parse(raw); the result is URL.Host *)
Definition url_host (raw : bytes) : option bytes :=
  let '(u, frag) := cut "#"%byte raw in
  match parse u with
  | None => None
  | Some h =>
      match frag with
      | None | Some [] => Some h
      | Some f => match unescape_any f with Some _ => Some h | None => None end
      end
  end.

(** ** net.SplitHostPort *)
Definition split_host_port (s : bytes) : option (bytes * bytes) :=
  match rcut ":"%byte s with
  | None => None
  | Some (before, port) =>
      match s with
      | "["%byte :: s' =>
          match cut "]"%byte s' with
          | (_, None) => None
          | (host, Some after) =>
              match after with
              | ":"%byte :: p =>
                  if has ":"%byte p || has "["%byte s' || has "]"%byte after then None
                  else Some (host, p)
              | _ => None
              end
          end
      | _ =>
          if has ":"%byte before || has "["%byte s || has "]"%byte s then None
          else Some (before, port)
      end
  end.
