(** C91: messages between cosigners of different versions, or from any other peer
    (signer/proto/cosigner_grpc_server.proto, signer/grpc_server.go, remote_cosigner.go,
    raft_events.go, Cosigner.go). *)
From Verif Require Import GoBase Wire Canonical Utf8Proofs LocalCosigner Validator Privval Rpc RpcSpec RpcFieldsSpec RpcFieldsProofs.
Local Open Scope Z_scope.

(** C91: whatever fields a message has, in whatever order, it means what the protocol definition says:
    fields of other numbers or wire types are ignored, the last value counts, a message given in
    pieces is merged, missing fields are zero. Keys, *)
Theorem C91_get_request : forall fs keys, Forall field_ok fs -> submessages 1 fs keys ->
  get_received (enc fs) = Some (key_meant (concat keys)).
Proof. exact get_any. Qed.
Print Assumptions C91_get_request.
(** parts, *)
Theorem C91_get_response : forall fs parts, Forall field_ok fs -> submessages 1 fs parts ->
  get_answer (enc fs) = Some (map part_meant parts).
Proof. exact get_answer_any. Qed.
Print Assumptions C91_get_response.
(** requests to sign, *)
Theorem C91_sign_request : forall fs parts keys, Forall field_ok fs -> submessages 1 fs parts -> submessages 2 fs keys ->
  sign_received (enc fs) = Some (map part_meant parts, key_meant (concat keys), last_bytes 3 fs).
Proof. exact sign_any. Qed.
Print Assumptions C91_sign_request.
(** their answers, *)
Theorem C91_sign_response : forall fs, Forall field_ok fs ->
  sign_answer (enc fs) = Some (last_bytes 1 fs, instant (signed 64 (last_int 2 fs)), last_bytes 3 fs).
Proof. exact answer_any. Qed.
Print Assumptions C91_sign_response.
(** blocks for the leader, where every chain ID given must be UTF-8, *)
Theorem C91_block_request : forall fs blocks, Forall field_ok fs -> submessages 2 fs blocks ->
  (Forall utf8_text (byte_vals 1 fs) -> block_received (enc fs) = Some (last_bytes 1 fs, block_meant (concat blocks))) /\
  (~ Forall utf8_text (byte_vals 1 fs) -> block_received (enc fs) = None).
Proof. intros fs blocks H Hb. split; [by apply block_any|by apply (block_bad fs blocks)]. Qed.
Print Assumptions C91_block_request.
(** and signatures *)
Theorem C91_block_response : forall fs, Forall field_ok fs -> block_answer (enc fs) = Some (list.last (byte_vals 1 fs)).
Proof. exact response_any. Qed.
Print Assumptions C91_block_response.

(** a request with the key in two pieces, an unknown field, a sign byte field of the wrong type, and a
    height of -1 *)
Definition ex_key1 : list field := [(1, FInt (2 ^ 64 - 1)); (9, FFixed32 7); (3, FInt 257)].
Definition ex_key2 : list field := [(2, FInt 5); (1, FBytes [x01]); (3, FInt 2)].
Definition ex_part : list field := [(5, FBytes []); (2, FInt 3); (1, FInt 2); (1, FInt 1); (3, FBytes [x07])].
Definition ex_fields : list field :=
  [(2, FBytes (enc ex_key1)); (3, FBytes [x0a]); (200, FFixed64 12); (1, FBytes (enc ex_part)); (3, FInt 5); (2, FBytes (enc ex_key2))].
Example C91_example : Forall field_ok ex_fields /\ submessages 1 ex_fields [ex_part] /\ submessages 2 ex_fields [ex_key1; ex_key2] /\
  sign_received (enc ex_fields) = Some ([Part 1 3 [x07] [] (Some [])], HRST (HRS (-1) 5 2) 0, [x0a]).
Proof.
  assert (O : forall l, forallb (fun f : field => (1 <=? fst f) && (fst f <? 2 ^ 29) && match snd f with
     | FInt v | FFixed64 v => (0 <=? v) && (v <? 2 ^ 64) | FBytes b => Z.of_nat (length b) <? 2 ^ 63 | FFixed32 v => (0 <=? v) && (v <? 2 ^ 32) end) l = true
     -> Forall field_ok l).
  { intros l H. apply list.Forall_forall. intros f Hf. rewrite forallb_forall in H. apply elem_of_list_In in Hf. apply H in Hf.
    unfold field_ok. destruct f as [n [v|v|b|v]]; cbn [fst snd] in *; lia. }
  split; [apply O; reflexivity|]. split; [|split].
  - split; [reflexivity|]. constructor; [apply O; reflexivity|constructor].
  - split; [reflexivity|]. constructor; [apply O; reflexivity|]. constructor; [apply O; reflexivity|constructor].
  - vm_compute. reflexivity.
Qed.
(** an empty message is a request for height 0, round 0, step 0 *)
Example C91_empty : get_received [] = Some (HRST (HRS 0 0 0) 0) /\ block_received [] = Some ([], Block (HRS 0 0 0) [] (Time 0 0)).
Proof. split; reflexivity. Qed.
Example C91_chain : ~ Forall utf8_text (byte_vals 1 [(1, FBytes [xff])]).
Proof. intros H. apply list.Forall_cons in H as [H _]. apply RpcProofs.valid_utf8_spec in H. vm_compute in H. discriminate H. Qed.
