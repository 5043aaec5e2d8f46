(** JSON texts as written and read by the code.

    /repo anchors: signer/sign_state.go:152 (tmJson.MarshalIndent), 252 (tmJson.Unmarshal);
    signer/raft_store.go:206 (json.Marshal of an event), 296-300 (json.Unmarshal of a command);
    signer/raft_events.go:29-33 (json.Unmarshal of a last-signed-state event). The parser below is
    encoding/json's grammar; base64 and hex are encoding/base64 (StdEncoding) and encoding/hex.
    Standard library and tendermint libs/json are read from memory (DESIGN.md section 4).

    Simplifications: invalid UTF-8 is kept as is here (Go replaces it by U+FFFD when unescaping, see
    [go_string] in Utf8.v); the nesting limit (10000) is not modelled. *)
From Coq Require Import Decimal Strings.String.
From Verif Require Import GoBase.
Local Open Scope Z_scope.

(** the bytes of a literal *)
Definition lit (s : string) : bytes := list_byte_of_string s.
Arguments lit s%string.

(** ** Decimal integers: strconv.AppendInt / strconv.ParseInt(s, 10, 64) *)

Fixpoint digits_of (d : uint) : bytes :=
  match d with
  | Nil => []
  | D0 d => "0"%byte :: digits_of d | D1 d => "1"%byte :: digits_of d
  | D2 d => "2"%byte :: digits_of d | D3 d => "3"%byte :: digits_of d
  | D4 d => "4"%byte :: digits_of d | D5 d => "5"%byte :: digits_of d
  | D6 d => "6"%byte :: digits_of d | D7 d => "7"%byte :: digits_of d
  | D8 d => "8"%byte :: digits_of d | D9 d => "9"%byte :: digits_of d
  end.
Definition print_int (z : Z) : bytes :=
  match Z.to_int z with
  | Pos d => digits_of d
  | Neg d => "-"%byte :: digits_of d
  end.

Definition digit (b : byte) : option (uint -> uint) :=
  match b with
  | "0"%byte => Some D0 | "1"%byte => Some D1 | "2"%byte => Some D2 | "3"%byte => Some D3
  | "4"%byte => Some D4 | "5"%byte => Some D5 | "6"%byte => Some D6 | "7"%byte => Some D7
  | "8"%byte => Some D8 | "9"%byte => Some D9 | _ => None
  end.
Definition is_digit (b : byte) : bool := match digit b with Some _ => true | None => false end.
Fixpoint parse_digits (l : bytes) : option uint :=
  match l with
  | [] => Some Nil
  | b :: l' =>
      match digit b, parse_digits l' with
      | Some c, Some d => Some (c d)
      | _, _ => None
      end
  end.
(** all of [l] is an optionally signed decimal *)
Definition parse_int (l : bytes) : option Z :=
  match l with
  | [] => None
  | ["-"%byte] => None
  | "-"%byte :: l' => match parse_digits l' with Some d => Some (Z.of_int (Neg d)) | None => None end
  | _ => match parse_digits l with Some d => Some (Z.of_int (Pos d)) | None => None end
  end.

(** ** encoding/hex *)

Definition hex_digit (v : Z) : byte :=
  if v <? 10 then zb (48 + v) else zb (55 + v).
(** HexBytes.MarshalJSON: upper case *)
Definition hex_enc (l : bytes) : bytes :=
  flat_map (fun b => [hex_digit (bz b / 16); hex_digit (bz b mod 16)]) l.
Definition hex_val (b : byte) : option Z :=
  let v := bz b in
  if (48 <=? v) && (v <=? 57) then Some (v - 48)
  else if (65 <=? v) && (v <=? 70) then Some (v - 55)
  else if (97 <=? v) && (v <=? 102) then Some (v - 87)
  else None.
(** hex.DecodeString *)
Fixpoint hex_dec (l : bytes) : option bytes :=
  match l with
  | [] => Some []
  | [_] => None
  | a :: b :: l' =>
      match hex_val a, hex_val b, hex_dec l' with
      | Some x, Some y, Some r => Some (zb (16 * x + y) :: r)
      | _, _, _ => None
      end
  end.

(** ** encoding/base64, StdEncoding *)

Definition b64_char (v : Z) : byte :=
  if v <? 26 then zb (65 + v)
  else if v <? 52 then zb (71 + v)
  else if v <? 62 then zb (v - 4)
  else if v =? 62 then "+"%byte else "/"%byte.
Definition b64_val (b : byte) : option Z :=
  let v := bz b in
  if (65 <=? v) && (v <=? 90) then Some (v - 65)
  else if (97 <=? v) && (v <=? 122) then Some (v - 71)
  else if (48 <=? v) && (v <=? 57) then Some (v + 4)
  else if v =? 43 then Some 62
  else if v =? 47 then Some 63
  else None.
Fixpoint b64_enc (l : bytes) : bytes :=
  match l with
  | [] => []
  | [a] => let v := bz a * 65536 in
           [b64_char (v / 262144); b64_char (v / 4096 mod 64); "="%byte; "="%byte]
  | [a; b] => let v := bz a * 65536 + bz b * 256 in
           [b64_char (v / 262144); b64_char (v / 4096 mod 64); b64_char (v / 64 mod 64); "="%byte]
  | a :: b :: c :: l' => let v := bz a * 65536 + bz b * 256 + bz c in
           b64_char (v / 262144) :: b64_char (v / 4096 mod 64) :: b64_char (v / 64 mod 64)
             :: b64_char (v mod 64) :: b64_enc l'
  end.
Fixpoint b64_dec (l : bytes) : option bytes :=
  match l with
  | [] => Some []
  | a :: b :: c :: d :: l' =>
      match b64_val a, b64_val b with
      | Some x, Some y =>
          match b64_val c, b64_val d with
          | Some z, Some w =>
              let v := x * 262144 + y * 4096 + z * 64 + w in
              match b64_dec l' with
              | Some r => Some (zb (v / 65536) :: zb (v / 256 mod 256) :: zb (v mod 256) :: r)
              | None => None
              end
          | Some z, None =>
              if bool_decide (d = "="%byte /\ l' = []) then
                let v := x * 262144 + y * 4096 + z * 64 in Some [zb (v / 65536); zb (v / 256 mod 256)]
              else None
          | None, _ =>
              if bool_decide (c = "="%byte /\ d = "="%byte /\ l' = []) then
                let v := x * 262144 + y * 4096 in Some [zb (v / 65536)]
              else None
          end
      | _, _ => None
      end
  | _ => None
  end.

(** ** The grammar *)

(** A parsed text. Strings (and member names) are kept as the raw bytes between the quotes, since
    libs/json looks at raw text; numbers are kept as literals. *)
Inductive json :=
| JNull | JBool (b : bool) | JNum (l : bytes) | JStr (raw : bytes)
| JArr (l : list json) | JObj (m : list (bytes * json)).

Fixpoint skip_ws (l : bytes) : bytes :=
  match l with
  | " "%byte :: l' | x09 :: l' | x0a :: l' | x0d :: l' => skip_ws l'
  | _ => l
  end.

(** characters allowed after a backslash, other than [u] *)
Definition escape_char (b : byte) : option byte :=
  match b with
  | x22 => Some x22 | x5c => Some x5c | "/"%byte => Some "/"%byte | "b"%byte => Some x08
  | "f"%byte => Some x0c | "n"%byte => Some x0a | "r"%byte => Some x0d | "t"%byte => Some x09
  | _ => None
  end.

(** after the opening quote: raw contents and what follows the closing quote *)
Fixpoint scan_string (l : bytes) : option (bytes * bytes) :=
  match l with
  | [] => None
  | x22 :: l' => Some ([], l')
  | x5c :: l' =>
      match l' with
      | "u"%byte :: a :: b :: c :: d :: l'' =>
          match hex_val a, hex_val b, hex_val c, hex_val d, scan_string l'' with
          | Some _, Some _, Some _, Some _, Some (r, k) =>
              Some (x5c :: "u"%byte :: a :: b :: c :: d :: r, k)
          | _, _, _, _, _ => None
          end
      | e :: l'' =>
          match escape_char e, scan_string l'' with
          | Some _, Some (r, k) => Some (x5c :: e :: r, k)
          | _, _ => None
          end
      | [] => None
      end
  | b :: l' =>
      if bz b <? 32 then None
      else match scan_string l' with Some (r, k) => Some (b :: r, k) | None => None end
  end.

(** UTF-8 encoding of a code point; surrogates become U+FFFD (utf8.EncodeRune) *)
Definition utf8 (v : Z) : bytes :=
  if v <? 128 then [zb v]
  else if v <? 2048 then [zb (192 + v / 64); zb (128 + v mod 64)]
  else if (55296 <=? v) && (v <? 57344) then [xef; xbf; xbd]
  else if v <? 65536 then [zb (224 + v / 4096); zb (128 + v / 64 mod 64); zb (128 + v mod 64)]
  else [zb (240 + v / 262144); zb (128 + v / 4096 mod 64); zb (128 + v / 64 mod 64); zb (128 + v mod 64)].
(** four hexadecimal digits (getu4 of encoding/json/decode.go) *)
Definition hex4 (a b c d : byte) : option Z :=
  match hex_val a, hex_val b, hex_val c, hex_val d with
  | Some w, Some x, Some y, Some z => Some (4096 * w + 256 * x + 16 * y + z)
  | _, _, _, _ => None
  end.
(** the code point of a surrogate pair: [v] followed by an escape at the head of [l] (utf16.DecodeRune) *)
Definition pair_rune (v : Z) (l : bytes) : option Z :=
  match l with
  | x5c :: "u"%byte :: a :: b :: c :: d :: _ =>
      match hex4 a b c d with
      | Some w => if (55296 <=? v) && (v <? 56320) && (56320 <=? w) && (w <? 57344)
                  then Some (65536 + (v - 55296) * 1024 + (w - 56320)) else None
      | None => None
      end
  | _ => None
  end.
Fixpoint unescape (l : bytes) : option bytes :=
  match l with
  | [] => Some []
  | x5c :: l' =>
      match l' with
      | "u"%byte :: a :: b :: c :: d :: l'' =>
          match hex4 a b c d with
          | None => None
          | Some v =>
              match pair_rune v l'', l'' with
              | Some v', _ :: _ :: _ :: _ :: _ :: _ :: l3 =>
                  match unescape l3 with Some r => Some (utf8 v' ++ r) | None => None end
              | _, _ => match unescape l'' with Some r => Some (utf8 v ++ r) | None => None end
              end
          end
      | e :: l'' =>
          match escape_char e, unescape l'' with Some c, Some r => Some (c :: r) | _, _ => None end
      | [] => None
      end
  | b :: l' => match unescape l' with Some r => Some (b :: r) | None => None end
  end.

Fixpoint take_digits (l : bytes) : bytes * bytes :=
  match l with
  | b :: l' => if is_digit b then let '(d, r) := take_digits l' in (b :: d, r) else ([], l)
  | [] => ([], [])
  end.
(** integer part: 0, or a digit 1-9 followed by digits *)
Definition scan_nat (l : bytes) : option (bytes * bytes) :=
  match l with
  | "0"%byte :: l' => Some (["0"%byte], l')
  | _ => match take_digits l with ([], _) => None | (d, r) => Some (d, r) end
  end.
Definition scan_frac (l : bytes) : option (bytes * bytes) :=
  match l with
  | "."%byte :: l' => match take_digits l' with ([], _) => None | (d, r) => Some ("."%byte :: d, r) end
  | _ => Some ([], l)
  end.
Definition scan_exp (l : bytes) : option (bytes * bytes) :=
  match l with
  | ("e"%byte as e) :: l' | ("E"%byte as e) :: l' =>
      let '(s, l1) := match l' with
                      | ("+"%byte as s) :: l1 | ("-"%byte as s) :: l1 => ([s], l1)
                      | _ => ([], l')
                      end in
      match take_digits l1 with ([], _) => None | (d, r) => Some (e :: s ++ d, r) end
  | _ => Some ([], l)
  end.
Definition scan_number (l : bytes) : option (bytes * bytes) :=
  let '(s, l0) := match l with "-"%byte :: l' => (["-"%byte], l') | _ => ([], l) end in
  match scan_nat l0 with
  | None => None
  | Some (n, l1) =>
      match scan_frac l1 with
      | None => None
      | Some (f, l2) =>
          match scan_exp l2 with
          | None => None
          | Some (e, l3) => Some (s ++ n ++ f ++ e, l3)
          end
      end
  end.

(** a value starting at the first byte, given the parsers of the contents of objects and arrays *)
Definition value_body (members : bytes -> option (list (bytes * json) * bytes))
    (elements : bytes -> option (list json * bytes)) (l : bytes) : option (json * bytes) :=
  match l with
  | [] => None
  | "{"%byte :: l1 =>
      match skip_ws l1 with
      | "}"%byte :: l2 => Some (JObj [], l2)
      | l2 => match members l2 with Some (m, l3) => Some (JObj m, l3) | None => None end
      end
  | "["%byte :: l1 =>
      match skip_ws l1 with
      | "]"%byte :: l2 => Some (JArr [], l2)
      | l2 => match elements l2 with Some (m, l3) => Some (JArr m, l3) | None => None end
      end
  | x22 :: l1 => match scan_string l1 with Some (s, l2) => Some (JStr s, l2) | None => None end
  | "t"%byte :: "r"%byte :: "u"%byte :: "e"%byte :: l1 => Some (JBool true, l1)
  | "f"%byte :: "a"%byte :: "l"%byte :: "s"%byte :: "e"%byte :: l1 => Some (JBool false, l1)
  | "n"%byte :: "u"%byte :: "l"%byte :: "l"%byte :: l1 => Some (JNull, l1)
  | l0 => match scan_number l0 with Some (d, l1) => Some (JNum d, l1) | None => None end
  end.

(** members of an object, starting at the quote of the first name, given the parsers of a value
    and of further members *)
Definition members_body (value : bytes -> option (json * bytes))
    (members : bytes -> option (list (bytes * json) * bytes)) (l : bytes)
  : option (list (bytes * json) * bytes) :=
  match l with
  | x22 :: l1 =>
      match scan_string l1 with
      | None => None
      | Some (k, l2) =>
          match skip_ws l2 with
          | ":"%byte :: l3 =>
              match value l3 with
              | None => None
              | Some (v, l4) =>
                  match skip_ws l4 with
                  | ","%byte :: l5 =>
                      match members l5 with
                      | Some (m, l6) => Some ((k, v) :: m, l6)
                      | None => None
                      end
                  | "}"%byte :: l5 => Some ([(k, v)], l5)
                  | _ => None
                  end
              end
          | _ => None
          end
      end
  | _ => None
  end.

(** values, members and elements after optional white space, and the remaining text. The first
    argument bounds the recursion; the length of the text suffices. *)
Fixpoint parse_value (n : nat) (l : bytes) : option (json * bytes) :=
  match n with
  | O => None
  | S n => value_body (parse_members n) (parse_elements n) (skip_ws l)
  end
with parse_members (n : nat) (l : bytes) : option (list (bytes * json) * bytes) :=
  match n with
  | O => None
  | S n => members_body (parse_value n) (parse_members n) (skip_ws l)
  end
with parse_elements (n : nat) (l : bytes) : option (list json * bytes) :=
  match n with
  | O => None
  | S n =>
      match parse_value n l with
      | None => None
      | Some (v, l1) =>
          match skip_ws l1 with
          | ","%byte :: l2 =>
              match parse_elements n l2 with
              | Some (m, l3) => Some (v :: m, l3)
              | None => None
              end
          | "]"%byte :: l2 => Some ([v], l2)
          | _ => None
          end
      end
  end.

(** a whole text *)
Definition parse_json (l : bytes) : option json :=
  match parse_value (S (length l)) l with
  | Some (v, r) => match skip_ws r with [] => Some v | _ => None end
  | None => None
  end.

(** lookup in map[string]json.RawMessage: the last member with that (unescaped) name *)
Fixpoint member (name : bytes) (m : list (bytes * json)) : option json :=
  match m with
  | [] => None
  | (k, v) :: m' =>
      match member name m' with
      | Some r => Some r
      | None => if bool_decide (unescape k = Some name) then Some v else None
      end
  end.

(** ** Scalars *)

(** json.Unmarshal of a text into a signed integer of [bits] bits whose current value is 0 *)
Definition int_of_json (bits : Z) (j : json) : option Z :=
  match j with
  | JNull => Some 0
  | JNum l => match parse_int l with
              | Some z => if (- 2 ^ (bits - 1) <=? z) && (z <? 2 ^ (bits - 1)) then Some z else None
              | None => None
              end
  | _ => None
  end.
(** encoding/base64 skips CR and LF wherever they are *)
Definition no_breaks (s : bytes) : bytes :=
  List.filter (fun b => negb (bool_decide (b = x0a) || bool_decide (b = x0d))) s.
(** an element of an array read into []byte: strconv.ParseUint and a range check; null leaves the zero
    of a fresh slice *)
Definition byte_of_json (j : json) : option byte :=
  match j with
  | JNull => Some x00
  | JNum (b :: l) => match parse_digits (b :: l) with
                     | Some d => if Z.of_uint d <? 256 then Some (zb (Z.of_uint d)) else None
                     | None => None
                     end
  | _ => None
  end.
Fixpoint array_of_json (l : list json) : option bytes :=
  match l with
  | [] => Some []
  | j :: l' => match byte_of_json j, array_of_json l' with
               | Some b, Some r => Some (b :: r)
               | _, _ => None
               end
  end.
(** json.Unmarshal into a nil []byte: a base64 string or an array of numbers. Simplified for a member
    that occurs twice in an object: Go decodes an array into the slice left by the earlier member, so
    that a null in it keeps the earlier byte. *)
Definition bytes_of_json (j : json) : option (option bytes) :=
  match j with
  | JNull => Some None
  | JStr raw => match unescape raw with
                | Some s => match b64_dec (no_breaks s) with Some b => Some (Some b) | None => None end
                | None => None
                end
  | JArr l => match array_of_json l with Some b => Some (Some b) | None => None end
  | _ => None
  end.
(** HexBytes.UnmarshalJSON (tendermint libs/bytes) *)
Definition hex_of_json (j : json) : option bytes :=
  match j with JStr raw => hex_dec raw | _ => None end.

(** texts of these scalars *)
Definition quote (l : bytes) : bytes := x22 :: l ++ [x22].
Definition b64_text (o : option bytes) : bytes :=
  match o with None => lit "null" | Some b => quote (b64_enc b) end.
Definition hex_text (o : option bytes) : bytes := quote (hex_enc (slice_of o)).

(** ** Objects *)

(** one member per line, as json.Indent(_, _, "", "  ") lays out a flat object *)
Fixpoint members_indent (ms : list (bytes * bytes)) : bytes :=
  match ms with
  | [] => []
  | [(k, v)] => lit "  " ++ quote k ++ lit ": " ++ v ++ [x0a]
  | (k, v) :: ms' => lit "  " ++ quote k ++ lit ": " ++ v ++ [","%byte; x0a] ++ members_indent ms'
  end.
Definition object_indent (ms : list (bytes * bytes)) : bytes :=
  ["{"%byte; x0a] ++ members_indent ms ++ ["}"%byte].

(** encoding/json's compact form *)
Fixpoint members_compact (ms : list (bytes * bytes)) : bytes :=
  match ms with
  | [] => []
  | [(k, v)] => quote k ++ [":"%byte] ++ v
  | (k, v) :: ms' => quote k ++ [":"%byte] ++ v ++ [","%byte] ++ members_compact ms'
  end.
Definition object_compact (ms : list (bytes * bytes)) : bytes :=
  ["{"%byte] ++ members_compact ms ++ ["}"%byte].
