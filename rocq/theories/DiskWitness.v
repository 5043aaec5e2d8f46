(** Concrete schedules of the asynchronous save and crash points. *)
From Coq Require Import Strings.String.
From Verif Require Import GoBase Wire Canonical SignState Spec CanonicalApi Crypto LocalCosigner
  CosignerSpec CosignerProofs Toy CosignerWitness Json Disk DiskSpec DiskProofs DiskProofs2.

Fixpoint drun_ops (p : proc) (l : list dop) : option proc :=
  match l with
  | [] => Some p
  | op :: l' => match dstep p op with Some p1 => drun_ops p1 l' | None => None end
  end.
Lemma drun_ops_drun p l p' : drun_ops p l = Some p' -> drun p l p'.
Proof.
  revert p. induction l as [|op l IH]; simpl; intros p H; [injection H as <-; constructor|].
  destruct (dstep p op) as [p1|] eqn:E; [|discriminate]. econstructor; eauto.
Qed.
Fixpoint cnrun_ops (C : Crypto) (cfg : cos_config) (n : cnode) (ops : list cnop)
  : option (cnode * list (cop * cobs)) :=
  match ops with
  | [] => Some (n, [])
  | op :: ops' =>
      match cnstep C cfg n op with
      | None => None
      | Some (n1, l1) =>
          match cnrun_ops C cfg n1 ops' with
          | None => None
          | Some (n2, l) => Some (n2, l1 ++ l)
          end
      end
  end.
Lemma cnrun_ops_run C cfg n ops n' l : cnrun_ops C cfg n ops = Some (n', l) -> cnrun C cfg n ops l n'.
Proof.
  revert n n' l. induction ops as [|op ops IH]; simpl; intros n n' l H.
  - injection H as <- <-. constructor.
  - destruct (cnstep C cfg n op) as [[n1 l1]|] eqn:E; [|discriminate].
    destruct (cnrun_ops C cfg n1 ops) as [[n2 l2]|] eqn:E2; [|discriminate].
    injection H as <- <-. econstructor; eauto.
Qed.

Lemma drun_fun p l p1 p2 : drun p l p1 -> drun p l p2 -> p1 = p2.
Proof.
  intros H. revert p2. induction H as [p|p op p1 l p2 Hs Hr IH]; intros q Hq; inversion Hq; subst; [done|].
  apply IH. congruence.
Qed.
Lemma drun_ops_fun p l p' : drun p l p' -> drun_ops p l = Some p'.
Proof. induction 1 as [|p op p1 l p2 Hs Hr IH]; simpl; [done|]. rewrite Hs. exact IH. Qed.
Lemma cnrun_ops_fun C cfg n ops l n' : cnrun C cfg n ops l n' -> cnrun_ops C cfg n ops = Some (n', l).
Proof. induction 1 as [|n op n1 l1 ops l n2 Hs Hr IH]; simpl; [done|]. rewrite Hs, IH. done. Qed.

(** ** State processes *)
Definition dstart (k : hrs) : proc :=
  let s := loaded_state k None None None in
  Proc s [] (Some (marshal_state (rec_of s))) [].
Lemma dstart_settled k : hrs_in_range k -> settled (dstart k).
Proof.
  intros H. split; [done|]. split; [done|].
  destruct (load_after_save (loaded_state k None None None)) as (s & Hs & E1 & _ & E3 & E4 & _);
    [exact H|]. exists s. split; [exact Hs|]. split; [|split]; done.
Qed.

Definition dsave (k : hrs) : list dop :=
  DSave (SSC k (Some [x01]) (Some [x02])) :: replicate 6 DStore.
Definition dwrite (i : nat) : list dop := replicate 6 (DRead i) ++ [DRename i].
Definition k5 : hrs := HRS 5 3 3.
Definition k6 : hrs := HRS 6 0 1.
Definition k7 : hrs := HRS 7 0 1.

Definition file_hrs (p : proc) : option hrs := option_map ss_hrs (load (pr_file p)).
Definition dafter (k : hrs) (l : list dop) : proc := default (dstart k) (drun_ops (dstart k) l).
Lemma dafter_run k l : drun_ops (dstart k) l <> None -> drun (dstart k) l (dafter k l).
Proof.
  intros H. unfold dafter. destruct (drun_ops (dstart k) l) eqn:E; [|done].
  apply drun_ops_drun, E.
Qed.

Lemma in_range_small h r s : 0 <= h < 100 -> 0 <= r < 100 -> 0 <= s < 100 -> hrs_in_range (HRS h r s).
Proof. unfold hrs_in_range, in_int64, in_int8. simpl. lia. Qed.

Definition range_b (l : list dop) : bool :=
  forallb (fun op => match op with
    | DSave c => let k := c_hrs c in
        (0 <=? h_height k) && (h_height k <? 100) && (0 <=? h_round k) && (h_round k <? 100) &&
        (0 <=? h_step k) && (h_step k <? 100)
    | _ => true end) l.
Lemma range_b_ok l : range_b l = true -> ops_in_range l.
Proof.
  intros H c Hc. apply elem_of_list_In in Hc. unfold range_b in H. rewrite forallb_forall in H.
  apply H in Hc. destruct c as [[h r s] sg sb]. simpl in *. apply in_range_small; lia.
Qed.

(** C37: the goroutine of the earlier Save renames last *)
Definition back_ops1 : list dop :=
  dsave k6 ++ replicate 6 (DRead 0) ++ dsave k7 ++ replicate 6 (DRead 0) ++ [DRename 0].
Lemma file_backwards : exists p l1 p1 l2 p2 s1 s2,
  settled p /\ ops_in_range (l1 ++ l2) /\ drun p l1 p1 /\ drun p1 l2 p2 /\
  load (pr_file p1) = Some s1 /\ load (pr_file p2) = Some s2 /\
  hrs_lt (ss_hrs s2) (ss_hrs s1) /\
  pr_todo p2 = [] /\ pr_ws p2 = [] /\ hrs_lt (ss_hrs s2) (ss_hrs (pr_mem p2)).
Proof.
  set (p1 := dafter k5 back_ops1).
  set (p2 := default p1 (drun_ops p1 [DRename 0])).
  exists (dstart k5), back_ops1, p1, [DRename 0], p2.
  exists (default zero_state (load (pr_file p1))), (default zero_state (load (pr_file p2))).
  split. { apply dstart_settled, in_range_small; lia. }
  split. { apply range_b_ok. vm_compute. reflexivity. }
  split. { apply dafter_run. vm_compute. discriminate. }
  split. { apply drun_ops_drun. vm_compute. reflexivity. }
  split. { vm_compute. reflexivity. }
  split. { vm_compute. reflexivity. }
  split. { left. vm_compute. reflexivity. }
  split. { vm_compute. reflexivity. }
  split. { vm_compute. reflexivity. }
  left. vm_compute. reflexivity.
Qed.

(** C38: fields of two different states in one file *)
Definition above_ops : list dop :=
  dsave (HRS 5 3 3) ++
  [DSave (SSC k6 (Some [x01]) (Some [x02])); DStore; DRead 0; DRead 0; DRead 0] ++
  replicate 5 DStore ++ replicate 3 (DRead 1) ++ [DRename 1].
Lemma file_above_memory : exists p l p1 s1,
  settled p /\ ops_in_range l /\ drun p l p1 /\ pr_todo p1 = [] /\
  load (pr_file p1) = Some s1 /\ hrs_lt (ss_hrs (pr_mem p1)) (ss_hrs s1).
Proof.
  exists (dstart (HRS 5 3 2)), above_ops, (dafter (HRS 5 3 2) above_ops).
  exists (default zero_state (load (pr_file (dafter (HRS 5 3 2) above_ops)))).
  split. { apply dstart_settled, in_range_small; lia. }
  split. { apply range_b_ok. vm_compute. reflexivity. }
  split. { apply dafter_run. vm_compute. discriminate. }
  split. { vm_compute. reflexivity. }
  split. { vm_compute. reflexivity. }
  right. split; [vm_compute; reflexivity|]. left. vm_compute. reflexivity.
Qed.

Definition below_ops : list dop :=
  dsave (HRS 5 3 3) ++ [DRead 0] ++ dsave k6 ++ replicate 5 (DRead 1) ++ [DRename 1].
Lemma file_below_start : exists p s0 l p1 s1,
  settled p /\ load (pr_file p) = Some s0 /\ ops_in_range l /\ drun p l p1 /\
  load (pr_file p1) = Some s1 /\ hrs_lt (ss_hrs s1) (ss_hrs s0).
Proof.
  exists (dstart (HRS 5 3 2)), (default zero_state (load (pr_file (dstart (HRS 5 3 2))))).
  exists below_ops, (dafter (HRS 5 3 2) below_ops).
  exists (default zero_state (load (pr_file (dafter (HRS 5 3 2) below_ops)))).
  split. { apply dstart_settled, in_range_small; lia. }
  split. { vm_compute. reflexivity. }
  split. { apply range_b_ok. vm_compute. reflexivity. }
  split. { apply dafter_run. vm_compute. discriminate. }
  split. { vm_compute. reflexivity. }
  right. split; [vm_compute; reflexivity|]. left. vm_compute. reflexivity.
Qed.

(** a run that meets the hypotheses of the guarded theorems, with a crash *)
Definition good_ops : list dop := dsave k6 ++ dwrite 0 ++ dsave k7 ++ dwrite 0 ++ [DRestart].

Fixpoint untorn_b (p : proc) (l : list dop) : bool :=
  match l with
  | [] => true
  | op :: l' =>
      match op with
      | DSave _ | DStore => forallb (fun w => (w_pc w =? 0)%nat || (w_pc w =? 6)%nat) (pr_ws p)
      | DRead _ => match pr_todo p with [] => true | _ => false end
      | _ => true
      end && match dstep p op with Some p1 => untorn_b p1 l' | None => true end
  end.
Lemma untorn_b_ok p l : untorn_b p l = true -> untorn p l.
Proof.
  revert p. induction l as [|op l IH]; intros p H l1 o l2 p1 E Hr.
  - destruct l1; discriminate.
  - simpl in H. apply andb_prop in H as [H1 H2]. destruct l1 as [|o1 l1].
    + injection E as <- <-. inversion Hr; subst. destruct op; try done.
      * apply List.Forall_forall. intros w Hw. rewrite forallb_forall in H1. apply H1 in Hw. lia.
      * apply List.Forall_forall. intros w Hw. rewrite forallb_forall in H1. apply H1 in Hw. lia.
      * destruct (pr_todo p1); done.
    + injection E as <- ->. inversion Hr as [|? ? q ? ? Hs Hr']; subst. rewrite Hs in H2.
      eapply IH; eauto.
Qed.
Fixpoint sequential_b (p : proc) (l : list dop) : bool :=
  match l with
  | [] => true
  | op :: l' =>
      match op with DSave _ => match pr_ws p with [] => true | _ => false end | _ => true end &&
      match dstep p op with Some p1 => sequential_b p1 l' | None => true end
  end.
Lemma sequential_b_ok p l : sequential_b p l = true -> sequential p l.
Proof.
  revert p. induction l as [|op l IH]; intros p H l1 c l2 p1 E Hr.
  - destruct l1; discriminate.
  - simpl in H. apply andb_prop in H as [H1 H2]. destruct l1 as [|o1 l1].
    + injection E as -> <-. inversion Hr; subst. destruct (pr_ws p1); done.
    + injection E as <- ->. inversion Hr as [|? ? q ? ? Hs Hr']; subst. rewrite Hs in H2.
      eapply IH; eauto.
Qed.

Lemma good_run :
  settled (dstart k5) /\ ops_in_range good_ops /\
  drun (dstart k5) good_ops (dafter k5 good_ops) /\
  sequential (dstart k5) good_ops /\ untorn (dstart k5) good_ops /\
  file_hrs (dafter k5 good_ops) = Some k7.
Proof.
  split. { apply dstart_settled, in_range_small; lia. }
  split. { apply range_b_ok. vm_compute. reflexivity. }
  split. { apply dafter_run. vm_compute. discriminate. }
  split. { apply sequential_b_ok. vm_compute. reflexivity. }
  split. { apply untorn_b_ok. vm_compute. reflexivity. }
  vm_compute. reflexivity.
Qed.

(** ** Cosigners that crash *)
Definition cn0 : cnode :=
  let s := loaded_state (HRS 10 0 0) None None None in
  CNode (new_cosigner s) (Some (marshal_state (rec_of s))) [].
Lemma cn0_settled : cn_settled cn0.
Proof.
  split; [done|].
  destruct (load_after_save (loaded_state (HRS 10 0 0) None None None)) as (s & Hs & E1 & _ & E3 & E4 & _).
  { apply in_range_small; lia. }
  exists s. split; [exact Hs|]. split; [|split]; done.
Qed.

(** C36: the process dies after the share was released and before the goroutine's rename *)
Definition crash_ops : list cnop :=
  [COp (OpGet (wkey 11 1) 2 (wrnd x21)); COp (OpSign (wsb 11 x0a 1)); CRestart;
   COp (OpGet (wkey 11 1) 2 (wrnd x22)); COp (OpSign (wsb 11 x0b 1))].
Definition cntrace (ops : list cnop) : list (cop * cobs) :=
  match cnrun_ops toy wcfg1 cn0 ops with Some (_, l) => l | None => [] end.
Definition cnafter (ops : list cnop) : cnode :=
  match cnrun_ops toy wcfg1 cn0 ops with Some (n, _) => n | None => cn0 end.
Lemma cn_run ops : cnrun_ops toy wcfg1 cn0 ops <> None -> cnrun toy wcfg1 cn0 ops (cntrace ops) (cnafter ops).
Proof.
  intros H. unfold cntrace, cnafter. destruct (cnrun_ops toy wcfg1 cn0 ops) as [[n l]|] eqn:E; [|done].
  eapply cnrun_ops_run, E.
Qed.

Definition resp_at (l : list (cop * cobs)) (i : nat) : sign_resp :=
  match l !! i with Some (_, ObsShare _ r) => r | _ => SignResp None None false end.

Lemma wsb_not_same : ~ same_message_but_time (wsb 11 x0a 1) (wsb 11 x0b 1).
Proof.
  intros [(p & q & Hp & _)|(_ & _ & v & w & Hv & Hw & Hs)].
  - vm_compute in Hp. discriminate.
  - destruct Hs as (_ & _ & _ & Hs & _).
    assert (Hneq : option_map cv_bid (decode_vote (wsb 11 x0a 1)) <>
                   option_map cv_bid (decode_vote (wsb 11 x0b 1))) by (vm_compute; discriminate).
    apply Hneq. rewrite Hv, Hw. simpl. congruence.
Qed.

Lemma crash_conflict : exists n ops l n' a b k,
  cn_settled n /\ cnrun toy wcfg1 n ops l n' /\ released l a /\ released l b /\
  bytes_for a k /\ bytes_for b k /\ ~ same_message_but_time a b.
Proof.
  exists cn0, crash_ops, (cntrace crash_ops), (cnafter crash_ops), (wsb 11 x0a 1), (wsb 11 x0b 1), (HRS 11 0 3).
  split; [apply cn0_settled|].
  split. { apply cn_run. vm_compute. discriminate. }
  split. { exists (OpSign (wsb 11 x0a 1)), (resp_at (cntrace crash_ops) 1).
           apply elem_of_list_lookup. exists 1%nat. vm_compute. reflexivity. }
  split. { exists (OpSign (wsb 11 x0b 1)), (resp_at (cntrace crash_ops) 3).
           apply elem_of_list_lookup. exists 3%nat. vm_compute. reflexivity. }
  split. { exists 1600000000000000001. vm_compute. reflexivity. }
  split. { exists 1600000000000000001. vm_compute. reflexivity. }
  exact wsb_not_same.
Qed.

(** the same run with the write finished before the crash: the conflicting vote is refused *)
Definition safe_ops : list cnop :=
  [COp (OpGet (wkey 11 1) 2 (wrnd x21)); COp (OpSign (wsb 11 x0a 1))] ++
  replicate 6 (CRead 0) ++ [CRename 0; CRestart;
   COp (OpGet (wkey 11 1) 2 (wrnd x22)); COp (OpSign (wsb 11 x0b 1)); COp (OpSign (wsb 11 x0a 1))].
Fixpoint awaited_b (n : cnode) (l : list cnop) : bool :=
  match l with
  | [] => true
  | op :: l' =>
      match op with COp _ | CRestart => match cn_ws n with [] => true | _ => false end | _ => true end &&
      match cnstep toy wcfg1 n op with Some (n1, _) => awaited_b n1 l' | None => true end
  end.
Lemma awaited_b_ok n l : awaited_b n l = true -> saves_awaited toy wcfg1 n l.
Proof.
  revert n. induction l as [|op l IH]; intros n H o1 o o2 l1 n1 E Hr.
  - destruct o1; discriminate.
  - cbn [awaited_b] in H. apply andb_prop in H as [H1 H2]. destruct o1 as [|x o1].
    + injection E as <- <-. inversion Hr; subst. destruct op; try done; destruct (cn_ws n1); done.
    + injection E as <- ->. inversion Hr as [|? ? q l1' ? l' ? Hs Hr']; subst. rewrite Hs in H2.
      eapply IH; eauto.
Qed.
Lemma safe_run :
  cn_settled cn0 /\ cnrun toy wcfg1 cn0 safe_ops (cntrace safe_ops) (cnafter safe_ops) /\
  saves_awaited toy wcfg1 cn0 safe_ops /\ events_in_range safe_ops /\
  map (fun x => is_share (snd x)) (cntrace safe_ops) = [false; true; false; false; true] /\
  map (fun x => is_diff (snd x)) (cntrace safe_ops) = [false; false; false; true; false].
Proof.
  split; [apply cn0_settled|].
  split. { apply cn_run. vm_compute. discriminate. }
  split. { apply awaited_b_ok. vm_compute. reflexivity. }
  split. { intros c H. unfold safe_ops in H. simpl in H.
           repeat (apply elem_of_cons in H as [H|H]; [discriminate|]). inversion H. }
  split; vm_compute; reflexivity.
Qed.

(** ** Files that do not describe the last state (C62) *)
Lemma empty_object_loads : exists s, load (Some (lit "{}")) = Some s /\ ss_hrs s = HRS 0 0 0 /\ ss_sb s = None.
Proof. eexists. split; [vm_compute; reflexivity|]. split; vm_compute; reflexivity. Qed.
Lemma null_loads : exists s, load (Some (lit "null")) = Some s /\ ss_hrs s = HRS 0 0 0 /\ ss_sb s = None.
Proof. eexists. split; [vm_compute; reflexivity|]. split; vm_compute; reflexivity. Qed.

(** any file that does not load is replaced by the zero state *)
Lemma unreadable_resets f : load f = None ->
  load_or_create f = (zero_state, Some (marshal_state (rec_of zero_state))).
Proof. unfold load_or_create. intros ->. done. Qed.

Lemma truncated_resets r n : (n < length (marshal_state r))%nat ->
  (load_or_create (Some (take n (marshal_state r)))).1 = zero_state.
Proof. intros H. rewrite unreadable_resets; [done|]. apply load_cut, H. Qed.
