(** Bech32 texts as the code of /repo prints them: cmd/horcrux/cmd/cosigner.go:79 and
    signer/Config.go:49 call cosmos-sdk/types/bech32.ConvertAndEncode, which is btcutil/bech32's
    ConvertBits and Encode. Decode (and the SDK's DecodeAndConvert) is how other programs read the
    texts. Libraries read from memory (DESIGN.md section 4); ConvertBits is written on lists of bits
    instead of shifting bytes. *)
From Coq Require Import Strings.String.
From Verif Require Import GoBase Json.
Local Open Scope Z_scope.

(** ** ConvertBits *)

(** the [n] low bits, most significant first *)
Fixpoint bits (n : nat) (z : Z) : list bool :=
  match n with O => [] | S k => Z.testbit z (Z.of_nat k) :: bits k z end.
Definition of_bits (l : list bool) : Z := fold_left (fun a b => 2 * a + Z.b2z b) l 0.

(** complete groups of [n] bits and the rest; [fuel] at least the number of groups *)
Fixpoint groups (fuel n : nat) (l : list bool) : list (list bool) * list bool :=
  match fuel with
  | O => ([], l)
  | S f => if (length l <? n)%nat then ([], l)
           else let '(g, r) := groups f n (drop n l) in (take n l :: g, r)
  end.

(** bech32.go ConvertBits(data, from, to, pad); [None] is ErrInvalidIncompleteGroup *)
Definition convert_bits (from to : nat) (pad : bool) (data : list Z) : option (list Z) :=
  let l := flat_map (bits from) data in
  let '(g, r) := groups (length l) to l in
  match r with
  | [] => Some (map of_bits g)
  | _ => if pad then Some (map of_bits g ++ [of_bits (r ++ replicate (to - length r) false)])
         else if (4 <? length r)%nat || negb (of_bits r =? 0) then None
         else Some (map of_bits g)
  end.

(** ** Checksum *)

Definition gens : list Z := [0x3b6a57b2; 0x26508e6d; 0x1ea119fa; 0x3d4233dd; 0x2a1462b3].

(** bech32.go bech32Polymod, one round: the inner loop over the bits of chk >> 25 *)
Fixpoint feedback (gs : list Z) (b chk : Z) : Z :=
  match gs with
  | [] => chk
  | g :: gs' => feedback gs' (Z.shiftr b 1) (if Z.testbit b 0 then Z.lxor chk g else chk)
  end.
Definition poly_step (chk v : Z) : Z :=
  feedback gens (Z.shiftr chk 25) (Z.lxor (Z.shiftl (Z.land chk 0x1ffffff) 5) v).
Definition polymod (values : list Z) : Z := fold_left poly_step values 1.

(** bech32.go bech32HrpExpand *)
Definition hrp_expand (hrp : bytes) : list Z :=
  map (fun b => Z.shiftr (bz b) 5) hrp ++ [0] ++ map (fun b => Z.land (bz b) 31) hrp.

(** bech32.go bech32Checksum *)
Definition checksum (hrp : bytes) (data : list Z) : list Z :=
  let p := Z.lxor (polymod (hrp_expand hrp ++ data ++ [0; 0; 0; 0; 0; 0])) 1 in
  map (fun i => Z.land (Z.shiftr p (5 * (5 - i))) 31) [0; 1; 2; 3; 4; 5].

(** ** Texts *)

Definition charset : bytes := lit "qpzry9x8gf2tvdw0s3jn54khce6mua7l".
(** bech32.go toChars and toBytes, one character *)
Definition char_of (v : Z) : option byte := if v <? 0 then None else charset !! Z.to_nat v.
Fixpoint index_of (l : bytes) (b : byte) : option Z :=
  match l with
  | [] => None
  | x :: l' => if bool_decide (x = b) then Some 0 else Z.succ <$> index_of l' b
  end.

(** bech32.go Encode *)
Definition encode (hrp : bytes) (data : list Z) : option bytes :=
  match mapM char_of (data ++ checksum hrp data) with
  | None => None
  | Some cs => Some (hrp ++ ["1"%byte] ++ cs)
  end.

Definition lower (b : byte) : byte := if (65 <=? bz b) && (bz b <=? 90) then zb (bz b + 32) else b.
Definition upper (b : byte) : byte := if (97 <=? bz b) && (bz b <=? 122) then zb (bz b - 32) else b.

(** before and after the last '1' *)
Fixpoint split_last (l : bytes) : option (bytes * bytes) :=
  match l with
  | [] => None
  | b :: l' => match split_last l' with
               | Some (p, q) => Some (b :: p, q)
               | None => if bool_decide (b = "1"%byte) then Some ([], l') else None
               end
  end.

(** bech32.go Decode; the SDK's limit is 1023 *)
Definition decode (limit : nat) (t : bytes) : option (bytes * list Z) :=
  if (length t <? 8)%nat || (limit <? length t)%nat then None
  else if negb (forallb (fun b => (33 <=? bz b) && (bz b <=? 126)) t) then None
  else if negb (bool_decide (t = map lower t)) && negb (bool_decide (t = map upper t)) then None
  else match split_last (map lower t) with
       | None => None
       | Some (hrp, d) =>
           if bool_decide (hrp = []) || (length d <? 6)%nat then None
           else match mapM (index_of charset) d with
                | None => None
                | Some vs => if polymod (hrp_expand hrp ++ vs) =? 1
                             then Some (hrp, take (length vs - 6) vs) else None
                end
       end.

(** ** The SDK's functions: types/bech32/bech32.go *)

Definition convert_and_encode (hrp data : bytes) : option bytes :=
  match convert_bits 8 5 true (map bz data) with
  | None => None
  | Some vs => encode hrp vs
  end.
Definition decode_and_convert (t : bytes) : option (bytes * bytes) :=
  match decode 1023 t with
  | None => None
  | Some (hrp, vs) => match convert_bits 5 8 false vs with
                      | None => None
                      | Some l => Some (hrp, map zb l)
                      end
  end.
