(** The replicated store: signer/raft_store.go:195-390, signer/raft_events.go:12-37, and leadership
    transfer, signer/grpc_server.go:69-88.

    hashicorp/raft itself is not modelled: a node is the list of log entries it has applied, in
    order. Restore and Snapshot are called by it. The loggers are dropped. *)
From Coq Require Import Strings.String.
From stdpp Require Import sorting.
From Verif Require Import GoBase Canonical SignState Json Utf8.
Local Open Scope Z_scope.

(** ** encoding/json into structs *)

(** names are compared without case; U+212A folds to k, U+017F to s (encoding/json fold.go) *)
Definition lower (b : byte) : byte := if between 65 (bz b) 90 then zb (bz b + 32) else b.
Fixpoint fold_name (l : bytes) : bytes :=
  match l with
  | [] => []
  | b :: l1 =>
      match l1 with
      | [] => [lower b]
      | c :: l2 =>
          if Byte.eqb b xc5 && Byte.eqb c xbf then "s"%byte :: fold_name l2
          else match l2 with
               | d :: l3 => if Byte.eqb b xe2 && Byte.eqb c x84 && Byte.eqb d xaa then "k"%byte :: fold_name l3
                            else lower b :: fold_name l1
               | [] => lower b :: fold_name l1
               end
      end
  end.
Definition names (field : bytes) (raw : bytes) : bool :=
  match go_string raw with
  | Some n => bool_decide (fold_name n = fold_name field)
  | None => false
  end.

(** members in order; null leaves strings and integers as they are; a value of the wrong type makes
    the whole call fail *)
Fixpoint decode_members {A} (step : A -> bytes -> json -> option A) (a : A) (m : list (bytes * json))
  : option A :=
  match m with
  | [] => Some a
  | (k, j) :: m' => match step a k j with Some a' => decode_members step a' m' | None => None end
  end.
(** json.Unmarshal into a struct *)
Definition decode_struct {A} (step : A -> bytes -> json -> option A) (zero : A) (text : bytes) : option A :=
  match parse_json text with
  | Some JNull => Some zero
  | Some (JObj m) => decode_members step zero m
  | _ => None
  end.
Definition string_field (old : bytes) (j : json) : option bytes :=
  match j with JNull => Some old | JStr raw => go_string raw | _ => None end.
Definition int_field (bits : Z) (old : Z) (j : json) : option Z :=
  match j with JNull => Some old | _ => int_of_json bits j end.

(** ** Commands, raft_store.go:38-42 *)

Record command := Cmd { cm_op : bytes; cm_key : bytes; cm_val : bytes }.

(** raft_store.go:224, 244 json.Marshal(command): omitempty *)
Definition command_text (c : command) : bytes :=
  let m := (match cm_op c with [] => [] | s => [(lit "op", json_string s)] end ++
            match cm_key c with [] => [] | s => [(lit "key", json_string s)] end ++
            match cm_val c with [] => [] | s => [(lit "value", json_string s)] end) in
  object_compact m.
(** raft_store.go:295-299 *)
Definition command_member (c : command) (k : bytes) (j : json) : option command :=
  if names (lit "op") k then
    match string_field (cm_op c) j with Some s => Some (Cmd s (cm_key c) (cm_val c)) | None => None end
  else if names (lit "key") k then
    match string_field (cm_key c) j with Some s => Some (Cmd (cm_op c) s (cm_val c)) | None => None end
  else if names (lit "value") k then
    match string_field (cm_val c) j with Some s => Some (Cmd (cm_op c) (cm_key c) s) | None => None end
  else Some c.
Definition decode_command (data : bytes) : option command :=
  decode_struct command_member (Cmd [] [] []) data.

(** raft_store.go:214-231 Set and 234-250 Delete: the log entry *)
Definition set_entry (key value : bytes) : bytes := command_text (Cmd (lit "set") key value).
Definition delete_entry (key : bytes) : bytes := command_text (Cmd (lit "delete") key []).

(** ** Last-signed-state events *)

(** raft_events.go:13 *)
Definition lss_key : bytes := lit "LSS".

(** raft_store.go:206 json.Marshal(SignStateConsensus), sign_state.go:65-71 *)
Definition lss_text (c : consensus) : bytes :=
  object_compact
    [(lit "Height", print_int (h_height (c_hrs c)));
     (lit "Round", print_int (h_round (c_hrs c)));
     (lit "Step", print_int (h_step (c_hrs c)));
     (lit "Signature", b64_text (c_sig c));
     (lit "SignBytes", hex_text (c_sb c))].
(** raft_store.go:205-211 Emit: the log entry *)
Definition emit_entry (c : consensus) : bytes := set_entry lss_key (lss_text c).

(** raft_events.go:29-33. HexBytes.UnmarshalJSON refuses null. *)
Definition lss_member (c : consensus) (k : bytes) (j : json) : option consensus :=
  let h := c_hrs c in
  if names (lit "Height") k then
    match int_field 64 (h_height h) j with
    | Some z => Some (SSC (HRS z (h_round h) (h_step h)) (c_sig c) (c_sb c)) | None => None end
  else if names (lit "Round") k then
    match int_field 64 (h_round h) j with
    | Some z => Some (SSC (HRS (h_height h) z (h_step h)) (c_sig c) (c_sb c)) | None => None end
  else if names (lit "Step") k then
    match int_field 8 (h_step h) j with
    | Some z => Some (SSC (HRS (h_height h) (h_round h) z) (c_sig c) (c_sb c)) | None => None end
  else if names (lit "Signature") k then
    match bytes_of_json j with Some b => Some (SSC h b (c_sb c)) | None => None end
  else if names (lit "SignBytes") k then
    match hex_of_json j with Some b => Some (SSC h (c_sig c) (Some b)) | None => None end
  else Some c.
Definition decode_lss (value : bytes) : option consensus :=
  decode_struct lss_member (SSC (HRS 0 0 0) None None) value.

(** ** The state machine *)

(** raft_store.go:45-62: the map, and the sign states of the threshold validator and the cosigner *)
Record fsm := Fsm { f_map : gmap bytes bytes; f_val : sign_state; f_cos : sign_state }.

(** raft_store.go:199-203 *)
Definition get (f : fsm) (k : bytes) : bytes := match f_map f !! k with Some v => v | None => [] end.

(** raft_events.go:28-37: errors of both saves are ignored *)
Definition handle_lss (f : fsm) (value : bytes) : fsm :=
  match decode_lss value with
  | None => f
  | Some c => Fsm (f_map f) (fst (save (f_val f) c)) (fst (save (f_cos f) c))
  end.
(** raft_store.go:338-350 applySet, raft_events.go:17-26 *)
Definition apply_set (f : fsm) (key value : bytes) : fsm :=
  let f1 := if bool_decide (key = lss_key) then handle_lss f value else f in
  if bool_decide (key = lss_key) then f1
  else Fsm (<[key := value]> (f_map f1)) (f_val f1) (f_cos f1).
(** raft_store.go:352-357 *)
Definition apply_delete (f : fsm) (key : bytes) : fsm :=
  Fsm (delete key (f_map f)) (f_val f) (f_cos f).
(** raft_store.go:294-310 Apply *)
Definition apply_entry (f : fsm) (data : bytes) : fsm :=
  match decode_command data with
  | None => f
  | Some c =>
      if bool_decide (cm_op c = lit "set") then apply_set f (cm_key c) (cm_val c)
      else if bool_decide (cm_op c = lit "delete") then apply_delete f (cm_key c)
      else f
  end.
(** a node after the entries [l] *)
Definition apply_all (l : list bytes) (f : fsm) : fsm := fold_left apply_entry l f.

(** ** Snapshots *)

(** keys in order of their bytes *)
Fixpoint bytes_leb (a b : bytes) : bool :=
  match a, b with
  | [], _ => true
  | _ :: _, [] => false
  | x :: a', y :: b' => (bz x <? bz y) || ((bz x =? bz y) && bytes_leb a' b')
  end.
Definition entry_le (x y : bytes * bytes) : Prop := bytes_leb (fst x) (fst y) = true.
Global Instance entry_le_dec x y : Decision (entry_le x y).
Proof. unfold entry_le. apply _. Defined.
(** raft_store.go:313-323 Snapshot and 364-390 Persist: json.Marshal of the map sorts the keys *)
Definition snapshot (f : fsm) : bytes :=
  object_compact (map (fun kv => (esc 0 (fst kv), json_string (snd kv)))
                    (merge_sort entry_le (map_to_list (f_map f)))).

(** raft_store.go:326-336 Restore: json.Decoder reads one value and ignores what follows; a null
    element is the empty string. (A text "null" would install a nil map; Persist never writes it and
    it is refused here.) *)
Fixpoint restore_members (m : gmap bytes bytes) (l : list (bytes * json)) : option (gmap bytes bytes) :=
  match l with
  | [] => Some m
  | (k, j) :: l' =>
      match go_string k, string_field [] j with
      | Some k', Some v => restore_members (<[k' := v]> m) l'
      | _, _ => None
      end
  end.
Definition restore (f : fsm) (text : bytes) : option fsm :=
  match parse_value (S (length text)) text with
  | Some (JObj l, _) =>
      match restore_members ∅ l with
      | Some m => Some (Fsm m (f_val f) (f_cos f))
      | None => None
      end
  | _ => None
  end.

(** ** Membership *)

(** a server of a raft configuration: ID and address (all are voters here) *)
Definition server := (bytes * bytes)%type.

(** hashicorp/raft configuration.go nextConfiguration and checkConfiguration *)
Definition remove_server (id : bytes) (c : list server) : list server :=
  filter (fun s => fst s <> id) c.
Fixpoint add_voter (id addr : bytes) (c : list server) : list server :=
  match c with
  | [] => [(id, addr)]
  | s :: c' => if bool_decide (fst s = id) then (id, addr) :: c' else s :: add_voter id addr c'
  end.
Definition valid_config (c : list server) : bool :=
  bool_decide (NoDup (map fst c)) && bool_decide (NoDup (map snd c)) &&
  forallb (fun s => bool_decide (fst s <> []) && bool_decide (snd s <> [])) c &&
  bool_decide (c <> []).
(** one change: refused if the result is not valid; [ok]: whether raft commits it (leadership) *)
Definition change (ok : bool) (new old : list server) : list server * bool :=
  if ok && valid_config new then (new, true) else (old, false).

(** raft_store.go:254-285 Join. The servers are those of the configuration read at the start; [oks]
    tells for each change whether raft commits it. Result: configuration, and whether Join returned
    without error. *)
Fixpoint join_loop (id addr : bytes) (l : list server) (cfg : list server) (oks : list bool)
  : list server * list bool * option bool :=
  match l with
  | [] => (cfg, oks, None)
  | s :: l' =>
      if bool_decide (fst s = id \/ snd s = addr) then
        if bool_decide (snd s = addr /\ fst s = id) then (cfg, oks, Some true)
        else
          let '(cfg', ok) := change (hd false oks) (remove_server (fst s) cfg) cfg in
          if ok then join_loop id addr l' cfg' (tl oks) else (cfg', tl oks, Some false)
      else join_loop id addr l' cfg oks
  end.
Definition join (id addr : bytes) (cfg : list server) (oks : list bool) : list server * bool :=
  let '(cfg', oks', r) := join_loop id addr cfg cfg oks in
  match r with
  | Some ok => (cfg', ok)
  | None => change (hd false oks') (add_voter id addr cfg') cfg'
  end.

(** ** Leadership transfer *)

(** what raft is asked to do (the returned futures are ignored), and the answer *)
Inductive transfer := TransferTo (id addr : bytes) | TransferAny.
Record transfer_answer := TA { ta_id : bytes; ta_addr : bytes }.

(** grpc_server.go:69-88; [host] is p2pURLToRaftAddress (raft_store.go:129-135), peers are ID and
    address *)
Fixpoint transfer_to (host : bytes -> bytes) (leader : bytes) (peers : list (Z * bytes))
  : option (bytes * bytes) :=
  match peers with
  | [] => None
  | (i, a) :: l =>
      if bool_decide (print_int i = leader) then Some (print_int i, host a) else transfer_to host leader l
  end.
Definition transfer_leadership (host : bytes -> bytes) (peers : list (Z * bytes)) (leader : bytes)
  : transfer * transfer_answer :=
  match leader, transfer_to host leader peers with
  | _ :: _, Some (i, a) => (TransferTo i a, TA i a)
  | _, _ => (TransferAny, TA [] [])
  end.
