(** The 2-of-3 plan of MachineWitness.v and the address command. *)
From Coq Require Import Strings.String.
From Verif Require Import GoBase Crypto Json Utf8 Toy ToyScheme Config ConfigSpec ConfigWitness KeyFile KeyFileSpec KeyShares KeySharesSpec
  ThresholdWitness Privval Machine MachineSpec MachineProofs MachineWitness Bech32 Address AddressSpec AddressProofs.
Local Open Scope list_scope.
Local Open Scope Z_scope.

(** in place of SHA-256 *)
Definition wsha (b : bytes) : bytes := take 32 (b ++ replicate 32 x00).
Lemma wsha_len b : length (wsha b) = 32%nat.
Proof. unfold wsha. rewrite take_length, app_length, replicate_length. lia. Qed.

Definition wline (p : bytes) : bytes :=
  match address_cmd wsha id wlib wkl wdflt (wmachine 1) [] [p] with Val l => l | _ => [] end.
Definition wmember (name : string) (line : bytes) : list (bytes * json) * (bytes * bytes) :=
  match parse_json line with
  | Some (JObj m) => match member (lit name) m with
                     | Some (JStr r) => match go_string r with Some v => (m, (r, v)) | None => ([], ([], [])) end
                     | _ => ([], ([], []))
                     end
  | _ => ([], ([], []))
  end.
Definition wshown (name : string) (line : bytes) : bytes := snd (snd (wmember name line)).
Lemma wshown_ok name line : wshown name line <> [] -> shown line name (wshown name line).
Proof.
  unfold wshown, shown, wmember. destruct (parse_json line) as [j|]; [|done]. destruct j as [| | | | |m]; try done.
  destruct (member (lit name) m) as [j|] eqn:E; [|done]. destruct j as [| | |raw| |]; try done.
  destruct (go_string raw) as [v|] eqn:Ev; [|done]. intros _. cbn. eauto.
Qed.

Lemma prefix_witness :
  (forall b, length (wsha b) = 32%nat) /\
  (exists line t, address_cmd wsha id wlib wkl wdflt (wmachine 1) [] [[]] = Val line /\ shown line "ValConsPubAddress" t /\
     decode_and_convert t = None) /\
  exists line t1 t2, address_cmd wsha id wlib wkl wdflt (wmachine 1) [] [lit "Cosmos"] = Val line /\
     shown line "ValConsAddress" t1 /\ shown line "ValConsPubAddress" t2 /\
     decode_and_convert t1 = None /\ decode_and_convert t2 = None.
Proof.
  split; [exact wsha_len|]. split.
  - exists (wline []), (wshown "ValConsPubAddress" (wline [])). split; [vm_compute; reflexivity|].
    split; [apply wshown_ok; vm_compute; discriminate|vm_compute; reflexivity].
  - exists (wline (lit "Cosmos")), (wshown "ValConsAddress" (wline (lit "Cosmos"))), (wshown "ValConsPubAddress" (wline (lit "Cosmos"))).
    split; [vm_compute; reflexivity|]. split; [apply wshown_ok; vm_compute; discriminate|].
    split; [apply wshown_ok; vm_compute; discriminate|]. split; vm_compute; reflexivity.
Qed.
Lemma address_example :
  (exists line, address_cmd wsha id wlib wkl wdflt (wmachine 1) [] [lit "cosmos"] = Val line) /\
  Forall prefix_byte (lit "cosmos") /\ (forall b, length (wsha b) = 32%nat) /\
  (exists m, installs wlib wdflt wplan 1 (wtext 1) wempty m) /\ share_text wkl wfiles 1 (wtext 1) /\ fresh wdflt wplan 1 wempty.
Proof.
  split; [exists (wline (lit "cosmos")); vm_compute; reflexivity|].
  split; [apply list.Forall_forall; intros b Hb; repeat (apply elem_of_cons in Hb as [-> |Hb]; [split; vm_compute; intuition discriminate|]); by apply elem_of_nil in Hb|].
  split; [exact wsha_len|].
  split; [|split; [by apply wtext_ok|apply wfresh]].
  destruct (init_fresh wlib wdflt wplan wplan_ok 1 wempty) as (m1 & Hm1 & _); [cbn; lia|apply wfresh|].
  eexists. exists m1. split; [exact Hm1|reflexivity].
Qed.
