(** C92: sign bytes from a leader and requests from a chain node, whatever fields they have
    (signer/Serialization.go, signer/sign_state.go, signer/remote_signer.go; messages of tendermint). *)
From Verif Require Import GoBase Wire Canonical Privval RpcFieldsSpec GoFieldsSpec GoFieldsProofs.
Local Open Scope Z_scope.

(** C92: sign bytes that can be read as a proposal are one, whatever type they state; height and round
    are the last ones given, the time is the last one given, other fields and bytes after the message
    do not matter *)
Theorem C92_key_proposal : forall fs p rest, proposal_reads fs p -> Z.of_nat (length (enc fs)) < 2 ^ 63 - 1 ->
  unpack_hrst (delimited (enc fs) ++ rest) = Val (HRST (HRS (cp_height p) (cp_round p) 1) (nanos (cp_ts p))).
Proof. exact key_proposal. Qed.
Print Assumptions C92_key_proposal.
(** otherwise they may be a vote: the step is that of the type, of any other type the signer panics *)
Theorem C92_key_vote : forall fs v rest, refused proposal_decl 5 6 fs -> vote_reads fs v -> Z.of_nat (length (enc fs)) < 2 ^ 63 - 1 ->
  unpack_hrst (delimited (enc fs) ++ rest) =
    (if cv_type v =? 1 then Val (HRST (HRS (cv_height v) (cv_round v) 2) (nanos (cv_ts v)))
     else if cv_type v =? 2 then Val (HRST (HRS (cv_height v) (cv_round v) 3) (nanos (cv_ts v))) else Panic).
Proof. exact key_vote. Qed.
Print Assumptions C92_key_vote.
(** bytes that are neither are refused *)
Theorem C92_key_none : forall fs rest, refused proposal_decl 5 6 fs -> refused vote_decl 4 5 fs -> Z.of_nat (length (enc fs)) < 2 ^ 63 - 1 ->
  unpack_hrst (delimited (enc fs) ++ rest) = Fail tt.
Proof. exact key_none. Qed.
Print Assumptions C92_key_none.

(** C92: what the check of two votes or proposals for the same step compares: two votes pass exactly if
    they mean the same but for the time, *)
Theorem C92_same_vote : forall fs v fs' v' rest rest', vote_reads fs v -> vote_reads fs' v' ->
  Z.of_nat (length (enc fs)) < 2 ^ 63 - 1 -> Z.of_nat (length (enc fs')) < 2 ^ 63 - 1 ->
  (check_vote_ts (delimited (enc fs) ++ rest) (delimited (enc fs') ++ rest') = None <->
   cv_type v = cv_type v' /\ cv_height v = cv_height v' /\ cv_round v = cv_round v' /\ cv_bid v = cv_bid v' /\ cv_chain v = cv_chain v').
Proof. exact same_vote. Qed.
Print Assumptions C92_same_vote.
(** and so do two proposals *)
Theorem C92_same_proposal : forall fs p fs' p' rest rest', proposal_reads fs p -> proposal_reads fs' p' ->
  Z.of_nat (length (enc fs)) < 2 ^ 63 - 1 -> Z.of_nat (length (enc fs')) < 2 ^ 63 - 1 ->
  (check_proposal_ts (delimited (enc fs) ++ rest) (delimited (enc fs') ++ rest') = None <->
   cp_type p = cp_type p' /\ cp_height p = cp_height p' /\ cp_round p = cp_round p' /\ cp_pol p = cp_pol p' /\ cp_bid p = cp_bid p' /\
   cp_chain p = cp_chain p').
Proof. exact same_proposal. Qed.
Print Assumptions C92_same_proposal.

(** C92: requests of a chain node with fields in any order, repeated, unknown or missing: votes, *)
Theorem C92_vote_request : forall fs v chain pre post rest, request_reads pvote_reads fs v chain -> foreign pre -> foreign post ->
  Z.of_nat (length (enc (pre ++ (3, FBytes (enc fs)) :: post))) <= 10240 ->
  read_msg (delimited (enc (pre ++ (3, FBytes (enc fs)) :: post)) ++ rest) = Some (SignVoteRequest v chain, rest).
Proof. exact vote_request. Qed.
Print Assumptions C92_vote_request.
(** proposals, *)
Theorem C92_proposal_request : forall fs p chain pre post rest, request_reads pprop_reads fs p chain -> foreign pre -> foreign post ->
  Z.of_nat (length (enc (pre ++ (5, FBytes (enc fs)) :: post))) <= 10240 ->
  read_msg (delimited (enc (pre ++ (5, FBytes (enc fs)) :: post)) ++ rest) = Some (SignProposalRequest p chain, rest).
Proof. exact prop_request. Qed.
Print Assumptions C92_proposal_request.
(** for the key, *)
Theorem C92_key_request : forall fs pre post rest, Forall field_ok fs -> typed [(1, 2)] fs -> foreign pre -> foreign post ->
  Z.of_nat (length (enc (pre ++ (1, FBytes (enc fs)) :: post))) <= 10240 ->
  read_msg (delimited (enc (pre ++ (1, FBytes (enc fs)) :: post)) ++ rest) = Some (PubKeyRequest (last_bytes 1 fs), rest).
Proof. exact key_request. Qed.
Print Assumptions C92_key_request.
(** and pings *)
Theorem C92_ping_request : forall fs pre post rest, Forall field_ok fs -> foreign pre -> foreign post ->
  Z.of_nat (length (enc (pre ++ (7, FBytes (enc fs)) :: post))) <= 10240 ->
  read_msg (delimited (enc (pre ++ (7, FBytes (enc fs)) :: post)) ++ rest) = Some (PingRequest, rest).
Proof. exact ping_request. Qed.
Print Assumptions C92_ping_request.

(** a vote whose height is given twice, with the block ID in two pieces and an unknown field *)
Definition ex_hash : list field := [(1, FBytes [x01; x02])].
Definition ex_parts : list field := [(2, FBytes [x03]); (1, FInt (2 ^ 32 + 4))].
Definition ex_psh : list field := [(2, FBytes (enc ex_parts))].
Definition ex_time : list field := [(1, FInt 7); (2, FInt 9)].
Definition ex_vote : list field :=
  [(6, FBytes [x63]); (4, FBytes (enc ex_hash)); (2, FFixed64 5); (100, FFixed32 1); (4, FBytes (enc ex_psh)); (1, FInt 2);
   (3, FFixed64 (2 ^ 64 - 1)); (2, FFixed64 9); (5, FBytes (enc ex_time))].
Ltac ok := apply fields_ok_dec; reflexivity.
Ltac ty := apply typed_dec; reflexivity.
Example C92_vote_example : vote_reads ex_vote (CVote 2 9 (-1) (Some (BID [x01; x02] (PSH 4 [x03]))) (Time 7 9) [x63]) /\
  refused proposal_decl 5 6 ex_vote /\
  unpack_hrst (delimited (enc ex_vote) ++ [x00]) = Val (HRST (HRS 9 (-1) 3) 7000000009).
Proof.
  split; [|split].
  - split; [ok|]. split; [ty|]. exists [ex_hash; ex_psh], [ex_parts], [ex_time]. split; [|split; [|reflexivity]].
    + repeat split; [|repeat constructor; ty| |repeat constructor; ty]; repeat (constructor; [ok|]); constructor.
    + repeat split; [constructor; [ok|constructor]|]. constructor; [|constructor]. split; [ty|]. repeat split; vm_compute; discriminate.
  - split; [ok|]. left. exists (4, FBytes (enc ex_hash)), 0. split; [|split; [|discriminate]]; cbn [fst]; unfold ex_vote, proposal_decl; el.
  - vm_compute. reflexivity.
Qed.
(** a proposal by its fields, though the type says prevote *)
Definition ex_proposal : list field := [(1, FInt 1); (2, FFixed64 5); (4, FInt (2 ^ 64 - 1)); (6, FBytes []); (6, FBytes (enc ex_time)); (7, FBytes [x63])].
Example C92_proposal_example : proposal_reads ex_proposal (CProp 1 5 0 (-1) None (Time 7 9) [x63]) /\
  unpack_hrst (delimited (enc ex_proposal)) = Val (HRST (HRS 5 0 1) 7000000009).
Proof.
  split; [|vm_compute; reflexivity]. split; [ok|]. split; [ty|]. exists [], [], [[]; ex_time]. split; [|split; [|reflexivity]].
  - repeat split; constructor.
  - split; [split; [reflexivity|constructor; [ok|constructor; [ok|constructor]]]|].
    constructor; [|constructor; [|constructor]]; (split; [ty|]); repeat split; vm_compute; discriminate.
Qed.
(** neither: the height is a varint *)
Example C92_none_example : refused proposal_decl 5 6 [(2, FInt 5)] /\ refused vote_decl 4 5 [(2, FInt 5)].
Proof.
  split; (split; [ok|]; left; exists (2, FInt 5), 1; split; [|split; [|discriminate]]); cbn [fst]; unfold proposal_decl, vote_decl; el.
Qed.
(** a time out of range is also a reason *)
Example C92_time_example : refused vote_decl 4 5 [(5, FBytes (enc [(2, FInt 1000000000)]))].
Proof.
  split; [ok|]. right. exists [(2, FInt 1000000000)]. split; [ok|]. right. split; [el|]. right. split; [ty|].
  intros [_ [_ H]]. by vm_compute in H.
Qed.
(** a request whose vote is given in two pieces *)
Definition ex_piece1 : list field := [(1, FInt 1); (2, FInt 5); (4, FBytes (enc ex_hash))].
Definition ex_piece2 : list field := [(5, FBytes (enc ex_time)); (2, FInt 6); (4, FBytes (enc ex_psh)); (30, FBytes [])].
Definition ex_request : list field := [(1, FBytes (enc ex_piece1)); (2, FBytes [x63]); (1, FBytes (enc ex_piece2))].
Definition ex_pvote : pvote := PVote (Vote 1 6 0 (BID [x01; x02] (PSH 4 [x03])) (Time 7 9)) [] 0 [].
Example C92_request_example : request_reads pvote_reads ex_request (Some ex_pvote) [x63] /\ foreign [(9, FInt 1)] /\
  read_msg (delimited (enc ([(9, FInt 1)] ++ (3, FBytes (enc ex_request)) :: [])) ++ [x05]) = Some (SignVoteRequest (Some ex_pvote) [x63], [x05]).
Proof.
  split; [|split; [constructor; [split; [split; cbn; lia|cbn; lia]|constructor]|vm_compute; reflexivity]].
  split; [ok|]. split; [ty|]. exists [ex_piece1; ex_piece2]. split; [split; [reflexivity|constructor; [ok|constructor; [ok|constructor]]]|].
  split; [reflexivity|]. split; [done|]. split; [ok|]. split; [ty|].
  exists [ex_hash; ex_psh], [ex_parts], [ex_time]. split; [|split; [|reflexivity]].
  + repeat split; [|repeat constructor; ty| |repeat constructor; ty]; repeat (constructor; [ok|]); constructor.
  + repeat split; [constructor; [ok|constructor]|]. constructor; [|constructor]. split; [ty|]. repeat split; vm_compute; discriminate.
Qed.
