(** Vocabulary for statements about configuration. *)
From Verif Require Import GoBase Canonical SignState Spec Crypto LocalCosigner Json Disk Validator Config.

(** ** Numbers and peer strings, by their grammar *)

(** a (possibly empty) string of decimal digits and the number it denotes *)
Inductive digits_denote : bytes -> Z -> Prop :=
| dd_nil : digits_denote [] 0
| dd_snoc s z d : digits_denote s z -> 0 <= d < 10 ->
    digits_denote (s ++ [zb (48 + d)]) (10 * z + d).
(** optional sign and at least one digit *)
Inductive decimal : bytes -> Z -> Prop :=
| dec_plain s z : s <> [] -> digits_denote s z -> decimal s z
| dec_plus s z : s <> [] -> digits_denote s z -> decimal ("+"%byte :: s) z
| dec_minus s z : s <> [] -> digits_denote s z -> decimal ("-"%byte :: s) (- z).

(** no separator of the peer list syntax *)
Definition plain (s : bytes) : Prop := "," %byte ∉ s /\ "|"%byte ∉ s.

(** addr|id *)
Inductive entry_of : bytes -> cpeer -> Prop :=
| entry_intro addr n id : plain addr -> decimal n id -> in_int64 id ->
    entry_of (addr ++ "|"%byte :: n) (CPeer id addr).
(** entry,entry,... *)
Inductive flag_of : bytes -> list cpeer -> Prop :=
| flag_one e p : entry_of e p -> flag_of e [p]
| flag_more e p s l : entry_of e p -> flag_of s l -> flag_of (e ++ ","%byte :: s) (p :: l).

(** the way peers are written in the documentation: addr|id,addr|id *)
Fixpoint render (l : list cpeer) : bytes :=
  match l with
  | [] => []
  | [p] => pe_addr p ++ "|"%byte :: print_int (pe_id p)
  | p :: l' => pe_addr p ++ "|"%byte :: print_int (pe_id p) ++ ","%byte :: render l'
  end.

(** ** Good configurations *)

Definition peers_ok (l : list cpeer) (shares : Z) : Prop :=
  NoDup (map pe_id l) /\ (forall p, p ∈ l -> 1 <= pe_id p <= shares) /\ Z.of_nat (length l) < shares.

Section L.
Context (L : Lib).

(** validation accepts the configuration of a cosigner, of a single signer *)
Definition accepted (c : config) : Prop := validate_cosigner L c = None.
Definition accepted_single (c : config) : Prop := validate_single L c = None.

(** the address most recently listed is well formed (or there is none) *)
Definition last_ok (l : list bytes) : Prop := forall n, list.last l = Some n -> lib_url L n = true.

(** everything validation asks of a cosigner configuration except the threshold *)
Definition ok_but_threshold (c : config) : Prop :=
  cf_chain c <> [] /\ last_ok (cf_nodes c) /\
  exists s, cf_cosigner c = Some s /\ lib_duration L (co_timeout s) = true /\
    lib_url L (co_listen s) = true /\ NoDup (map pe_id (co_peers s)) /\
    (forall p, p ∈ co_peers s -> 1 <= pe_id p <= co_shares s) /\
    Z.of_nat (length (co_peers s)) <> co_shares s.
Definition threshold_ok (c : config) : Prop :=
  exists s, cf_cosigner c = Some s /\ co_threshold s <= Z.of_nat (length (co_peers s)) + 1.
End L.

Definition is_remove (cmd : config_cmd) : Prop :=
  match cmd with PeersRemove _ => True | _ => False end.

(** ** Indices *)

(** DealShares returns one share per cosigner *)
Definition deals (C : Crypto) : Prop :=
  forall s r t n, length (cr_deal C s r t n) = Z.to_nat n.

(** this host's index and those of all peers exist in slices with one entry per cosigner, as in
    a configuration written by `config init` *)
Definition one_per_share (c : config) (k : cosigner_key) : Prop :=
  exists s, cf_cosigner c = Some s /\ co_shares s = Z.of_nat (length (co_peers s)) + 1 /\
    co_shares s < 256 /\ 1 <= ck_id k <= co_shares s.

(** ** State files *)

(** height/round/step in a state file *)
Definition watermark (f : file) : option hrs := option_map ss_hrs (load f).
(** the file holds (h, 0, 0) after the write, or it was not below it and is unchanged *)
Definition raised_to (h : Z) (f f' : file) : Prop :=
  exists k, watermark f = Some k /\
    (hrs_lt k (HRS h 0 0) /\ watermark f' = Some (HRS h 0 0) \/ hrs_le (HRS h 0 0) k /\ f' = f).
