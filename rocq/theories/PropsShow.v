(** C101: what `horcrux state show` prints *)
From Coq Require Import Strings.String.
From Verif Require Import GoBase Canonical SignState Crypto LocalCosigner Json Disk Validator Config System Machine MachineSpec ConfigWitness MachineWitness JsonSpec Show ShowSpec ShowProofs.
Local Open Scope list_scope.
Local Open Scope Z_scope.

(** the output is a report on what the two state files say; without both files nothing is printed *)
Theorem C101_output : forall dflt m flag t, show_output dflt m flag = Val t ->
  exists y tp ts pv sh ls, config_at dflt m flag = Some y /\
    ma_state m !! (home_of dflt flag, pv_path (cf_chain (ya_cfg y))) = Some tp /\
    ma_state m !! (home_of dflt flag, share_path (cf_chain (ya_cfg y))) = Some ts /\
    file_says tp pv /\ file_says ts sh /\ lines t ls /\ report pv sh ls.
Proof.
  intros dflt m flag t H. destruct (shown_present dflt m flag t H) as (_ & y & tp & ts & Hy & Hp & Hs). exists y, tp, ts.
  destruct (shown_files dflt m flag y tp ts Hy Hp Hs t H) as (pv & sh & ls & H'). by exists pv, sh, ls.
Qed.
(** a report can be read in one way only: it gives away height, round, step, and whether there are keys,
    signatures and sign bytes, and which *)
Theorem C101_read : forall t ls ls' pv sh pv' sh', lines t ls -> report pv sh ls -> lines t ls' -> report pv' sh' ls' ->
  same_record pv pv' /\ same_record sh sh'.
Proof. exact report_one. Qed.
(** when it is printed *)
Theorem C101_when : forall dflt m flag, (exists t, show_output dflt m flag = Val t) <->
  no_such_home m flag /\ exists y tp ts pv sh, config_at dflt m flag = Some y /\
    ma_state m !! (home_of dflt flag, pv_path (cf_chain (ya_cfg y))) = Some tp /\
    ma_state m !! (home_of dflt flag, share_path (cf_chain (ya_cfg y))) = Some ts /\ file_says tp pv /\ file_says ts sh.
Proof.
  intros dflt m flag. split.
  - intros [t H]. split; [exact (proj1 (shown_present _ _ _ _ H))|].
    destruct (C101_output _ _ _ _ H) as (y & tp & ts & pv & sh & ls & H1 & H2 & H3 & H4 & H5 & _). by exists y, tp, ts, pv, sh.
  - intros (Hn & y & tp & ts & pv & sh & H1 & H2 & H3 & H4 & H5). exact (shown_if dflt m flag y tp ts H1 H2 H3 pv sh Hn H4 H5).
Qed.
(** it is a report on the states that the next start continues from *)
Theorem C101_start : forall L KL dflt m flag t r h m', at_home dflt m flag ->
  show_output dflt m flag = Val t -> start_cmd L KL dflt m flag = Val (r, h, m') ->
  exists ls, lines t ls /\ report (vs_lss (ho_val h)) (cs_lss (cn_cos (ho_cos h))) ls.
Proof. exact show_start. Qed.

(** ** Outputs *)
(** after `state set 100` on host 1 of the plan of C83 *)
Example C101_after_set : exists m', state_set_cmd wdflt (wmachine 1) [] false (lit "100") true true = Val m' /\
  show_output wdflt m' [] = Val (lit "Private Validator State:
  Height:    100
  Round:     0
  Step:      0
Share Sign State:
  Height:    100
  Round:     0
  Step:      0
").
Proof.
  assert (H : match state_set_cmd wdflt (wmachine 1) [] false (lit "100") true true with
     | Val m' => show_output wdflt m' [] = Val (lit "Private Validator State:
  Height:    100
  Round:     0
  Step:      0
Share Sign State:
  Height:    100
  Round:     0
  Step:      0
") | _ => False end) by (vm_compute; reflexivity).
  destruct (state_set_cmd wdflt (wmachine 1) [] false (lit "100") true true) as [m'| |]; [|destruct H|destruct H]. by exists m'.
Qed.
Example C101_starts : exists m' t r h m'', state_set_cmd wdflt (wmachine 1) [] false (lit "100") true true = Val m' /\
  at_home wdflt m' [] /\ show_output wdflt m' [] = Val t /\ start_cmd wlib wkl wdflt m' [] = Val (r, h, m'').
Proof.
  assert (H : match state_set_cmd wdflt (wmachine 1) [] false (lit "100") true true with
     | Val m' => match show_output wdflt m' [], start_cmd wlib wkl wdflt m' [], config_at wdflt m' [] with
        | Val _, Val _, Some y => ya_home y = home_of wdflt [] | _, _, _ => False end | _ => False end) by (vm_compute; reflexivity).
  destruct (state_set_cmd wdflt (wmachine 1) [] false (lit "100") true true) as [m'| |]; [|destruct H|destruct H].
  destruct (show_output wdflt m' []) as [t| |] eqn:E1; [|destruct H|destruct H].
  destruct (start_cmd wlib wkl wdflt m' []) as [[[r h] m'']| |] eqn:E2; [|destruct H|destruct H].
  exists m', t, r, h, m''. split; [done|]. split; [|done]. intros y E. by rewrite E in H.
Qed.
(** all members, one of them empty *)
Example C101_members : print_sign_state (SS (HRS 7 (-1) 3) (Some []) (Some [x01; x02; x03; x04]) (Some [x0a; xff]) ∅) =
  lit "  Height:    7
  Round:     -1
  Step:      3
  Ephemeral Public Key: 
  Signature: AQIDBA==
  SignBytes: 0AFF
".
Proof. vm_compute. reflexivity. Qed.

Print Assumptions C101_output.
Print Assumptions C101_read.
Print Assumptions C101_when.
Print Assumptions C101_start.
