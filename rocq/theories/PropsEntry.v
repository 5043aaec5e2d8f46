(** C95: log entries, last-signed-state events and key files mean what their texts say, whatever their bytes. *)
From Coq Require Import Strings.String.
From Verif Require Import GoBase Wire Canonical SignState Spec Json Raft Privval KeyFile JsonSpec EntrySpec EntryProofs PropsKeyFile.
Local Open Scope Z_scope.

(** the replicated map: the last entry whose text sets or deletes a key decides *)
Theorem C95_store : forall l f k, k <> lit "LSS" ->
  (forall l1 e l2 v, l = l1 ++ e :: l2 -> entry_text e (lit "set") k v ->
     (forall e' v', e' ∈ l2 -> ~ entry_text e' (lit "set") k v' /\ ~ entry_text e' (lit "delete") k v') -> get (apply_all l f) k = v) /\
  (forall l1 e l2 v, l = l1 ++ e :: l2 -> entry_text e (lit "delete") k v ->
     (forall e' v', e' ∈ l2 -> ~ entry_text e' (lit "set") k v' /\ ~ entry_text e' (lit "delete") k v') -> get (apply_all l f) k = []) /\
  ((forall e' v', e' ∈ l -> ~ entry_text e' (lit "set") k v' /\ ~ entry_text e' (lit "delete") k v') -> get (apply_all l f) k = get f k).
Proof. exact store_text. Qed.
(** all other entries change nothing *)
Theorem C95_other : forall f e, (forall k v, ~ entry_text e (lit "set") k v) -> (forall k v, ~ entry_text e (lit "delete") k v) -> apply_entry f e = f.
Proof. exact other_text. Qed.
(** the sign states of validator and cosigner end at the highest of where they were and of all events in the log *)
Theorem C95_watermark : forall l f g, g = f_val \/ g = f_cos ->
  hrs_le (ss_hrs (g f)) (ss_hrs (g (apply_all l f))) /\
  (forall e h r s sig sb, e ∈ l -> event_entry e h r s sig sb -> hrs_le (HRS h r s) (ss_hrs (g (apply_all l f)))) /\
  (ss_hrs (g (apply_all l f)) = ss_hrs (g f) \/
   exists e h r s sig sb, e ∈ l /\ event_entry e h r s sig sb /\ ss_hrs (g (apply_all l f)) = HRS h r s).
Proof. exact watermark_text. Qed.
(** the values that entries and events are decoded to *)
Theorem C95_entry : forall e op key val, decode_command e = Some (Cmd op key val) <-> entry_text e op key val.
Proof. exact entry_exact. Qed.
Theorem C95_event : forall t h r s sig sb, decode_lss t = Some (SSC (HRS h r s) sig sb) <-> event_text t h r s sig sb.
Proof. exact event_exact. Qed.
(** the keys that key files are loaded as; all other files are refused or, if they say null, stop the process (C68) *)
Theorem C95_key_file : forall SK PK (L : KeyLib SK PK) t k, load_key L (Some t) = Val k <->
  exists rsa pub rsas, key_text t rsa pub rsas (ck_share k) (ck_id k) /\
    kl_parse_sk L (slice_of rsa) = Some (ck_rsa k) /\ parse_pubkey L (slice_of pub) = Some (ck_pub k) /\
    Forall2 (fun b p => kl_parse_pk L (slice_of b) = Some p) rsas (ck_rsas k).
Proof. exact @key_exact. Qed.
(** the map a snapshot is restored to; the sign states stay *)
Theorem C95_snapshot : forall f t g, restore f t = Some g <->
  f_val g = f_val f /\ f_cos g = f_cos f /\ snapshot_text t (fun k v => f_map g !! k = Some v).
Proof. exact restore_exact. Qed.
Print Assumptions C95_snapshot.
Print Assumptions C95_store.
Print Assumptions C95_other.
Print Assumptions C95_watermark.
Print Assumptions C95_entry.
Print Assumptions C95_event.
Print Assumptions C95_key_file.

(** an entry with a Kelvin sign in a name, a repeated member, null and a byte that is no UTF-8 *)
Definition odd_entry : bytes := lit " {""OP"":""get"", """ ++ [xe2; x84; xaa] ++ lit "ey"":""LSS"",""op"":""set"",""op"":null,""x"":{},
  ""value"":""{\""height\"":7,\""STEP\"":2,\""signbytes\"":\""ff\"",\""x" ++ [xff] ++ lit "\"":[]}""} ".
Example C95_odd : exists t, entry_text odd_entry (lit "set") (lit "LSS") t /\ event_text t 7 0 2 None (Some [xff]).
Proof.
  destruct (decode_command odd_entry) as [[o k v]|] eqn:E; [|discriminate E].
  assert (Eo : o = lit "set" /\ k = lit "LSS" /\ decode_lss v = Some (SSC (HRS 7 0 2) None (Some [xff]))).
  { vm_compute in E. injection E as <- <- <-. vm_compute. auto. }
  destruct Eo as (-> & -> & Ev). exists v. split; [by apply C95_entry|by apply C95_event].
Qed.
(** a type error in any of the members refuses the entry, and a number in quotes is not a number *)
Example C95_refused : (forall op k v, ~ entry_text (lit "{""op"":""set"",""key"":""a"",""value"":1,""value"":""b""}") op k v) /\
  (forall h r s sig sb, ~ event_text (lit "{""Height"":""7""}") h r s sig sb).
Proof. split; intros; intros H; [apply C95_entry in H|apply C95_event in H]; discriminate H. Qed.
(** a key file *)
Example C95_key_example : exists t k, load_key toy_lib (Some t) = Val k /\ ck_id k = 2 /\ ck_share k = Some [x01; x02].
Proof.
  exists (lit "{""id"":2, ""RSA_KEY"":""MAI="",""secret_share"":""AQI="",""pub_key"":""" ++ b64_enc (m_pubkey (PkEd25519 (repeat xab 32))) ++ lit """}").
  eexists. split; [vm_compute; reflexivity|]. split; reflexivity.
Qed.
(** a snapshot with a repeated name, null, and bytes after it *)
Example C95_snapshot_example : exists g, restore (Fsm ∅ zero_state zero_state) (lit "{""a"":""x"", ""b"":null,""a"":""y""}{""c""") = Some g /\
  f_map g !! lit "a" = Some (lit "y") /\ f_map g !! lit "b" = Some [] /\ f_map g !! lit "c" = None.
Proof. eexists. split; [vm_compute; reflexivity|]. split; [|split]; reflexivity. Qed.
