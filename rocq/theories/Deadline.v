(** What LeaderSignBlock gives a follower (raft_events.go:58-77, remote_cosigner.go:29-35,
    grpc_server.go:19-35). Times are milliseconds. gRPC itself is not modelled: a call ends with the
    answer of the handler or, when its context expires first, with an error; the handler does not look
    at its context and goes on. *)
From Verif Require Import GoBase Canonical SignState Crypto Validator Rpc.
Local Open Scope Z_scope.

(** remote_cosigner.go:29-31 *)
Definition rpc_timeout : Z := 4000.

Section Call.
(** the text of an error; the text of a call given up at its deadline *)
Context (txt : verr -> bytes) (expired : bytes).

(** grpc_server.go:29-34, raft_events.go:70-76: an error arrives as an error of gRPC (never an RPCError),
    a signature as the field of the response *)
Definition handler_answer (r : vresult) : go_error + option bytes :=
  match r_err r with
  | Some e => inl (OtherErr (txt e))
  | None => match block_answer (block_response (r_sig r)) with Some s => inr s | None => inl (OtherErr []) end
  end.

(** raft_events.go:64-76: [dial] is the time of getContext, [reply] when the answer of the handler is
    back, if ever. The result and the time before which it is not there. *)
Definition leader_sign_block (dial : Z) (reply : option (Z * vresult)) : Z * (go_error + option bytes) :=
  match reply with
  | Some (back, r) =>
      if back <? dial + rpc_timeout then (back, handler_answer r) else (dial + rpc_timeout, inl (OtherErr expired))
  | None => (dial + rpc_timeout, inl (OtherErr expired))
  end.
End Call.
