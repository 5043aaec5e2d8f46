(** RSA keys as text: crypto/x509 MarshalPKCS1PrivateKey, ParsePKCS1PrivateKey, MarshalPKCS1PublicKey and
    ParsePKCS1PublicKey, which cosigner_key.go:29-34, 73, 107-113 call, with the part of encoding/asn1
    they need (Go 1.17 standard library, from memory, DESIGN.md section 4).

    Simplifications: only numbers that are not negative are written (all numbers of a usable key are);
    keys of more than two primes are read but not written (create-shares makes keys of two primes). *)
From Verif Require Import GoBase KeyFile.
Local Open Scope Z_scope.

(** ** numbers *)
(** the last [k] bytes of a number, most significant first *)
Fixpoint be (k : nat) (z : Z) : bytes := match k with O => [] | S k' => be k' (z / 256) ++ [zb z] end.
Definition unbe (b : bytes) : Z := fold_left (fun n c => n * 256 + bz c) b 0.
(** asn1/marshal.go makeBigInt, int64Encoder: as few bytes as possible with the first bit 0 *)
Definition int_content (z : Z) : bytes := be (Z.to_nat ((Z.log2 z + 1) / 8 + 1)) z.
(** asn1.go checkInteger *)
Definition check_integer (b : bytes) : bool :=
  match b with
  | [] => false
  | [_] => true
  | b0 :: b1 :: _ => negb (((bz b0 =? 0) && (bz b1 <? 128)) || ((bz b0 =? 255) && (128 <=? bz b1)))
  end.
(** asn1.go parseBigInt, parseInt64 *)
Definition parse_big (b : bytes) : option Z :=
  if check_integer b then
    Some (match b with
          | b0 :: _ => if 128 <=? bz b0 then unbe b - 256 ^ Z.of_nat (length b) else unbe b
          | [] => 0
          end)
  else None.
Definition parse_int (b : bytes) : option Z := if (length b <=? 8)%nat then parse_big b else None.

(** ** elements *)
(** marshal.go appendTagAndLength, appendLength *)
Definition der_length (n : Z) : bytes :=
  if n <? 128 then [zb n] else let k := Z.log2 n / 8 + 1 in zb (128 + k) :: be (Z.to_nat k) n.
Definition tlv (tag : Z) (content : bytes) : bytes := zb tag :: der_length (Z.of_nat (length content)) ++ content.

(** asn1.go parseTagAndLength, the length in the long form *)
Fixpoint long_length (k : nat) (n : Z) (b : bytes) : option (Z * bytes) :=
  match k with
  | O => Some (n, b)
  | S k' =>
      match b with
      | [] => None
      | c :: b' =>
          if 2 ^ 23 <=? n then None
          else let n' := n * 256 + bz c in if n' =? 0 then None else long_length k' n' b'
      end
  end.
Definition parse_length (b : bytes) : option (Z * bytes) :=
  match b with
  | [] => None
  | c :: b' =>
      if bz c <? 128 then Some (bz c, b')
      else if bz c =? 128 then None
      else match long_length (Z.to_nat (bz c - 128)) 0 b' with
           | Some (n, r) => if n <? 128 then None else Some (n, r)
           | None => None
           end
  end.
(** parseBase128Int; at most five bytes *)
Fixpoint base128 (k : nat) (first : bool) (n : Z) (b : bytes) : option (Z * bytes) :=
  match k, b with
  | S k', c :: b' =>
      if first && (bz c =? 128) then None
      else
        let n' := n * 128 + bz c mod 128 in
        if bz c <? 128 then (if 2 ^ 31 - 1 <? n' then None else Some (n', b')) else base128 k' false n' b'
  | _, _ => None
  end.
(** class, constructed, tag, length *)
Definition parse_header (b : bytes) : option (Z * bool * Z * Z * bytes) :=
  match b with
  | [] => None
  | c :: b' =>
      let class := bz c / 64 in
      let compound := Z.odd (bz c / 32) in
      match (if bz c mod 32 =? 31 then
               match base128 5 true 0 b' with Some (t, r) => if t <? 31 then None else Some (t, r) | None => None end
             else Some (bz c mod 32, b')) with
      | None => None
      | Some (tag, r) =>
          match parse_length r with Some (n, r') => Some (class, compound, tag, n, r') | None => None end
      end
  end.
(** asn1.go parseField up to the content: nothing left, another element than the one expected, the element *)
Inductive field := FEnd | FOther | FVal (content rest : bytes).
Definition take_field (tag : Z) (compound : bool) (b : bytes) : option field :=
  match b with
  | [] => Some FEnd
  | _ =>
      match parse_header b with
      | None => None
      | Some (cl, co, t, n, r) =>
          if (cl =? 0) && (t =? tag) && Bool.eqb co compound
          then if Z.of_nat (length r) <? n then None
               else Some (FVal (take (Z.to_nat n) r) (drop (Z.to_nat n) r))
          else Some FOther
      end
  end.
(** a required number: *big.Int, int; an optional one *)
Definition req_big (b : bytes) : option (Z * bytes) :=
  match take_field 2 false b with
  | Some (FVal c r) => match parse_big c with Some z => Some (z, r) | None => None end
  | _ => None
  end.
Definition req_int (b : bytes) : option (Z * bytes) :=
  match take_field 2 false b with
  | Some (FVal c r) => match parse_int c with Some z => Some (z, r) | None => None end
  | _ => None
  end.
Definition opt_big (b : bytes) : option bytes :=
  match take_field 2 false b with
  | Some (FVal c r) => match parse_big c with Some _ => Some r | None => None end
  | Some _ => Some b
  | None => None
  end.
(** parseSequenceOf for pkcs1AdditionalRSAPrime; what follows the three numbers of an element is ignored *)
Fixpoint more_primes (fuel : nat) (b : bytes) : option (list Z) :=
  match fuel, b with
  | _, [] => Some []
  | O, _ => None
  | S fuel', _ =>
      match take_field 16 true b with
      | Some (FVal c r) =>
          match req_big c with
          | Some (p, c1) =>
              match req_big c1 with
              | Some (_, c2) =>
                  match req_big c2, more_primes fuel' r with
                  | Some _, Some l => Some (p :: l)
                  | _, _ => None
                  end
              | None => None
              end
          | None => None
          end
      | _ => None
      end
  end.
Definition opt_primes (b : bytes) : option (list Z) :=
  match take_field 16 true b with
  | Some (FVal c _) => more_primes (length c) c
  | Some _ => Some []
  | None => None
  end.

(** ** keys *)
(** rsa.PrivateKey; Precomputed is a function of these *)
Record rsa_key := RsaKey { rk_n : Z; rk_e : Z; rk_d : Z; rk_primes : list Z }.
(** rsa.PublicKey *)
Record rsa_pub := RsaPub { rp_n : Z; rp_e : Z }.

(** rsa.go Validate, checkPub *)
Definition rsa_validate (k : rsa_key) : bool :=
  (2 <=? rk_e k) && (rk_e k <=? 2 ^ 31 - 1) &&
  forallb (fun p => 1 <? p) (rk_primes k) &&
  (fold_right Z.mul 1 (rk_primes k) =? rk_n k) &&
  forallb (fun p => (rk_e k * rk_d k) mod (p - 1) =? 1) (rk_primes k).

(** big.Int ModInverse by the extended Euclidean algorithm *)
Fixpoint egcd (fuel : nat) (r0 s0 r1 s1 : Z) : Z * Z :=
  match fuel with
  | O => (r0, s0)
  | S fuel' => if r1 =? 0 then (r0, s0) else egcd fuel' r1 s1 (r0 mod r1) (s0 - r0 / r1 * s1)
  end.
Definition mod_inverse (a m : Z) : option Z :=
  let '(g, x) := egcd (Z.to_nat (2 * Z.log2 m + 4)) m 0 (a mod m) 1 in
  if g =? 1 then Some (x mod m) else None.

Definition int_tlv (z : Z) : bytes := tlv 2 (int_content z).
(** x509/pkcs1.go MarshalPKCS1PrivateKey; a nil Qinv is left out (optional) *)
Definition sk_content (k : rsa_key) (p q : Z) : bytes :=
  int_tlv 0 ++ int_tlv (rk_n k) ++ int_tlv (rk_e k) ++ int_tlv (rk_d k) ++ int_tlv p ++ int_tlv q ++
  int_tlv (rk_d k mod (p - 1)) ++ int_tlv (rk_d k mod (q - 1)) ++
  match mod_inverse q p with Some i => int_tlv i | None => [] end.
Definition sk_text (k : rsa_key) : bytes :=
  match rk_primes k with [p; q] => tlv 48 (sk_content k p q) | _ => [] end.
(** ParsePKCS1PrivateKey; what follows the last member inside the sequence is ignored *)
Definition sk_parse (b : bytes) : option rsa_key :=
  match take_field 16 true b with
  | Some (FVal c []) =>
      match req_int c with
      | None => None
      | Some (version, c) =>
          match req_big c with
          | None => None
          | Some (n, c) =>
              match req_int c with
              | None => None
              | Some (e, c) =>
                  match req_big c with
                  | None => None
                  | Some (d, c) =>
                      match req_big c with
                      | None => None
                      | Some (p, c) =>
                          match req_big c with
                          | None => None
                          | Some (q, c) =>
                              match opt_big c with
                              | None => None
                              | Some c =>
                                  match opt_big c with
                                  | None => None
                                  | Some c =>
                                      match opt_big c with
                                      | None => None
                                      | Some c =>
                                          match opt_primes c with
                                          | None => None
                                          | Some l =>
                                              if (1 <? version) || negb (forallb (fun z => 0 <? z) (n :: d :: p :: q :: l)) then None
                                              else let k := RsaKey n e d (p :: q :: l) in
                                                   if rsa_validate k then Some k else None
                                          end
                                      end
                                  end
                              end
                          end
                      end
                  end
              end
          end
      end
  | _ => None
  end.
(** MarshalPKCS1PublicKey, ParsePKCS1PublicKey *)
Definition pk_text (k : rsa_pub) : bytes := tlv 48 (int_tlv (rp_n k) ++ int_tlv (rp_e k)).
Definition pk_parse (b : bytes) : option rsa_pub :=
  match take_field 16 true b with
  | Some (FVal c []) =>
      match req_big c with
      | None => None
      | Some (n, c) =>
          match req_int c with
          | None => None
          | Some (e, _) =>
              if (n <=? 0) || (e <=? 0) || (2 ^ 31 - 1 <? e) then None else Some (RsaPub n e)
          end
      end
  | _ => None
  end.
(** the codecs of cosigner_key.go; amino stays a parameter *)
Definition rsa_lib (amino : bytes -> option bytes) : KeyLib rsa_key rsa_pub := KLib sk_parse sk_text pk_parse pk_text amino.
