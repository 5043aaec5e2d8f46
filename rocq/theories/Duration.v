(** The time-out of the configuration: time.ParseDuration, which config.go:209 and cosigner.go:210 call
    (Go standard library, from memory, DESIGN.md section 4; Go 1.18 and later, before that -2^63 ns was
    refused), and the wait of raft.Apply (raft_store.go:229, 248; hashicorp/raft v1.3.3 api.go). *)
From Coq Require Import Strings.String Floats.SpecFloat.
From Verif Require Import GoBase Json.
Local Open Scope Z_scope.

(** ** float64 *)
Definition f_prec : Z := 53.
Definition f_emax : Z := 1024.
Definition f_of_Z (z : Z) : spec_float := binary_normalize f_prec f_emax z 0 false.
Definition f_mul : spec_float -> spec_float -> spec_float := SFmul f_prec f_emax.
Definition f_div : spec_float -> spec_float -> spec_float := SFdiv f_prec f_emax.
(** uint64(x) of a float64 in range: towards zero *)
Definition f_to_Z (x : spec_float) : Z :=
  match x with
  | S754_finite false m e => if 0 <=? e then Zpos m * 2 ^ e else Zpos m / 2 ^ (- e)
  | _ => 0
  end.

(** ** time.ParseDuration *)
Definition is_digit (c : byte) : bool := (48 <=? bz c) && (bz c <=? 57).

(** leadingInt: [None] is an overflow *)
Fixpoint leading_int (x : Z) (s : bytes) : option (Z * bytes) :=
  match s with
  | [] => Some (x, [])
  | c :: s' =>
      if is_digit c then
        if 2 ^ 63 / 10 <? x then None
        else let x' := x * 10 + (bz c - 48) in
             if 2 ^ 63 <? x' then None else leading_int x' s'
      else Some (x, s)
  end.
(** leadingFraction *)
Fixpoint leading_fraction (x : Z) (scale : spec_float) (over : bool) (s : bytes) : Z * spec_float * bytes :=
  match s with
  | [] => (x, scale, [])
  | c :: s' =>
      if is_digit c then
        if over then leading_fraction x scale true s'
        else if (2 ^ 63 - 1) / 10 <? x then leading_fraction x scale true s'
        else let y := x * 10 + (bz c - 48) in
             if 2 ^ 63 <? y then leading_fraction x scale true s'
             else leading_fraction y (f_mul scale (f_of_Z 10)) false s'
      else (x, scale, s)
  end.
(** the unit goes up to the next digit or dot *)
Fixpoint unit_text (s : bytes) : bytes * bytes :=
  match s with
  | [] => ([], [])
  | c :: s' => if (bz c =? 46) || is_digit c then ([], s) else let '(u, r) := unit_text s' in (c :: u, r)
  end.
(** unitMap *)
Definition unit_ns (u : bytes) : option Z :=
  if bytes_equal u (lit "ns") then Some 1
  else if bytes_equal u (lit "us") then Some 1000
  else if bytes_equal u [xc2; xb5; x73] then Some 1000
  else if bytes_equal u [xce; xbc; x73] then Some 1000
  else if bytes_equal u (lit "ms") then Some 1000000
  else if bytes_equal u (lit "s") then Some 1000000000
  else if bytes_equal u (lit "m") then Some 60000000000
  else if bytes_equal u (lit "h") then Some 3600000000000
  else None.

(** one number with its unit, and the rest of the text *)
Definition dur_part (s : bytes) : option (Z * bytes) :=
  match s with
  | [] => None
  | c :: _ =>
      if (bz c =? 46) || is_digit c then
        match leading_int 0 s with
        | None => None
        | Some (v, s1) =>
            let pre := negb (Nat.eqb (length s1) (length s)) in
            let '(f, scale, s2, post) :=
              match s1 with
              | d :: s1' =>
                  if bz d =? 46 then
                    let '(f, scale, s2) := leading_fraction 0 (f_of_Z 1) false s1' in
                    (f, scale, s2, negb (Nat.eqb (length s2) (length s1')))
                  else (0, f_of_Z 1, s1, false)
              | [] => (0, f_of_Z 1, s1, false)
              end in
            if negb pre && negb post then None
            else
              let '(u, s3) := unit_text s2 in
              match u, unit_ns u with
              | [], _ | _, None => None
              | _, Some unit =>
                  if 2 ^ 63 / unit <? v then None
                  else
                    let v1 := v * unit in
                    if 0 <? f then
                      let v2 := v1 + f_to_Z (f_mul (f_of_Z f) (f_div (f_of_Z unit) scale)) in
                      if 2 ^ 63 <? v2 then None else Some (v2, s3)
                    else Some (v1, s3)
              end
        end
      else None
  end.
(** the loop; each part has at least two bytes *)
Fixpoint dur_parts (fuel : nat) (d : Z) (s : bytes) : option Z :=
  match s with
  | [] => Some d
  | _ =>
      match fuel with
      | O => None
      | S fuel' =>
          match dur_part s with
          | None => None
          | Some (v, s') => if 2 ^ 63 <? d + v then None else dur_parts fuel' (d + v) s'
          end
      end
  end.
Definition parse_duration (s : bytes) : option Z :=
  let '(neg, s) :=
    match s with
    | c :: s' => if bz c =? 45 then (true, s') else if bz c =? 43 then (false, s') else (false, s)
    | [] => (false, s)
    end in
  if bytes_equal s (lit "0") then Some 0
  else match s with
       | [] => None
       | _ =>
           match dur_parts (length s) 0 s with
           | None => None
           | Some d => if neg : bool then Some (- d) else if 2 ^ 63 - 1 <? d then None else Some d
           end
       end.
(** config.go:209 *)
Definition duration_ok (s : bytes) : bool := match parse_duration s with Some _ => true | None => false end.
(** cosigner.go:210: the error is dropped *)
Definition raft_timeout (s : bytes) : Z := match parse_duration s with Some d => d | None => 0 end.

(** ** raft.Apply *)
(** [taken]: nanoseconds after the call at which raft takes the entry, if it ever does. The result is
    the time at which the call goes on and whether the entry was taken; [None]: it never goes on. With
    both at one instant select may do either; the model lets the entry through. *)
Definition apply_wait (timeout : Z) (taken : option Z) : option (Z * bool) :=
  if 0 <? timeout then
    match taken with
    | Some t => if t <=? timeout then Some (t, true) else Some (timeout, false)
    | None => Some (timeout, false)
    end
  else match taken with Some t => Some (t, true) | None => None end.
