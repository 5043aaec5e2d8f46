(** Configuration and command line: cmd/horcrux/cmd/config.go, and the parts of cosigner.go and
    state.go that turn configuration and files into a running cosigner.

    Library functions that are only asked whether they fail are a record of booleans: url.Parse
    and time.ParseDuration; net.SplitHostPort(url.Host) after a successful parse gives a host or
    fails. strings.Split and strconv.ParseInt/Atoi are modelled. ',' and '|' are ASCII, so
    splitting a string is splitting its bytes.

    Not modelled: YAML encoding, write errors of config.yaml, flag parsing by cobra, home
    directory lookup. *)
From Verif Require Import GoBase Wire Canonical SignState Crypto LocalCosigner Json Utf8 Disk Validator.

(** url.Parse(s) succeeds; time.ParseDuration(s) succeeds; host of url.Parse(s) *)
Record Lib := { lib_url : bytes -> bool; lib_duration : bytes -> bool; lib_host : bytes -> option bytes }.

(** ** Strings *)

(** strings.Split(s, sep) for a one-byte separator *)
Fixpoint split (sep : byte) (s : bytes) : list bytes :=
  match s with
  | [] => [[]]
  | c :: s' =>
      if bool_decide (c = sep) then [] :: split sep s'
      else match split sep s' with
           | [] => [[c]]
           | x :: l => (c :: x) :: l
           end
  end.

(** strconv.ParseInt(s, 10, 64) and strconv.Atoi(s) on a 64-bit platform: an optional sign, at
    least one digit, and the value fits; [None] is an error *)
Definition go_num (neg : bool) (ds : bytes) : option Z :=
  match ds, parse_digits ds with
  | _ :: _, Some d =>
      let z := Z.of_int (if neg then Decimal.Neg d else Decimal.Pos d) in
      if (- 2 ^ 63 <=? z) && (z <? 2 ^ 63) then Some z else None
  | _, _ => None
  end.
Definition go_atoi (s : bytes) : option Z :=
  match s with
  | "+"%byte :: ds => go_num false ds
  | "-"%byte :: ds => go_num true ds
  | _ => go_num false s
  end.

(** ** Configuration *)

(** config.go:558-561 CosignerPeer *)
Record cpeer := CPeer { pe_id : Z; pe_addr : bytes }.
Global Instance cpeer_eq_dec : EqDecision cpeer.
Proof. solve_decision. Defined.

(** config.go:543-549 CosignerConfig *)
Record cosigner_section := CosSection {
  co_threshold : Z; co_shares : Z; co_listen : bytes; co_peers : list cpeer; co_timeout : bytes }.

(** config.go:520-526 Config (HomeDir and PrivValKeyFile are not looked at by what follows) *)
Record config := Config {
  cf_chain : bytes; cf_cosigner : option cosigner_section; cf_nodes : list bytes }.

Inductive cfg_error :=
| CeChainEmpty | CeNoCosigner | CeThreshold | CeDuration | CeListen
| CeDuplicate | CeRange | CeTooMany | CeNode | CeNoNodes
| CePeerString | CeNumber | CeNothingNew | CeLeaveOne | CeNoListen | CeHost.

(** config.go:598-611 peersFromFlag *)
Definition peer_from (s : bytes) : cfg_error + cpeer :=
  match split "|"%byte s with
  | [addr; n] => match go_atoi n with Some id => inr (CPeer id addr) | None => inl CeNumber end
  | _ => inl CePeerString
  end.
Fixpoint peers_from (l : list bytes) : cfg_error + list cpeer :=
  match l with
  | [] => inr []
  | s :: l' =>
      match peer_from s with
      | inl e => inl e
      | inr p => match peers_from l' with inl e => inl e | inr ps => inr (p :: ps) end
      end
  end.
Definition peers_from_flag (s : bytes) : cfg_error + list cpeer := peers_from (split ","%byte s).

(** config.go:586-596 duplicatePeers; [seen] is the map of encountered IDs *)
Fixpoint duplicate_peers (seen : list Z) (l : list cpeer) : list cpeer :=
  match l with
  | [] => []
  | p :: l' => if existsb (Z.eqb (pe_id p)) seen then p :: duplicate_peers seen l'
               else duplicate_peers (pe_id p :: seen) l'
  end.

(** config.go:563-584 validateCosignerPeers; [None] is success *)
Definition validate_peers (l : list cpeer) (shares : Z) : option cfg_error :=
  match duplicate_peers [] l with
  | _ :: _ => Some CeDuplicate
  | [] =>
      if existsb (fun p => (pe_id p <? 1) || (shares <? pe_id p)) l then Some CeRange
      else if Z.of_nat (length l) =? shares then Some CeTooMany
      else None
  end.

Section Commands.
Context (L : Lib).

(** config.go:629-634 validateChainNodes: the variable err is overwritten in each iteration *)
Definition validate_nodes (l : list bytes) : option cfg_error :=
  fold_left (fun _ n => if lib_url L n then None else Some CeNode) l None.

(** config.go:617-627 chainNodesFromArg, parseChainNodes *)
Definition nodes_from_arg (s : bytes) : cfg_error + list bytes :=
  let cn := split ","%byte s in
  match validate_nodes cn with Some e => inl e | None => inr cn end.

(** config.go:184-195 validateSingleSignerConfig *)
Definition validate_single (c : config) : option cfg_error :=
  match cf_chain c with
  | [] => Some CeChainEmpty
  | _ => match cf_nodes c with [] => Some CeNoNodes | l => validate_nodes l end
  end.

(** config.go:197-223 validateCosignerConfig *)
Definition validate_cosigner (c : config) : option cfg_error :=
  match cf_chain c with
  | [] => Some CeChainEmpty
  | _ =>
      match cf_cosigner c with
      | None => Some CeNoCosigner
      | Some s =>
          if Z.of_nat (length (co_peers s)) + 1 <? co_threshold s then Some CeThreshold
          else if negb (lib_duration L (co_timeout s)) then Some CeDuration
          else if negb (lib_url L (co_listen s)) then Some CeListen
          else match validate_peers (co_peers s) (co_shares s) with
               | Some e => Some e
               | None => validate_nodes (cf_nodes c)
               end
      end
  end.

(** ** config init: config.go:43-177, up to writing the configuration *)

(** the flags --peers, --threshold, --listen, --timeout *)
Record init_flags := InitFlags {
  if_peers : bytes; if_threshold : Z; if_listen : bytes; if_timeout : bytes }.

(** config.go:54-61: the chain nodes argument is optional *)
Definition init_nodes (arg : option bytes) : cfg_error + list bytes :=
  match arg with None => inr [] | Some s => nodes_from_arg s end.

Definition localhost_any : bytes := ["0"; "."; "0"; "."; "0"; "."; "0"]%byte.

(** [cosigner = None]: the flag --cosigner is absent *)
Definition config_init (chain : bytes) (nodes : option bytes) (cosigner : option init_flags)
  : cfg_error + config :=
  match init_nodes nodes with
  | inl e => inl e
  | inr cn =>
      match cosigner with
      | Some f =>
          match peers_from_flag (if_peers f) with
          | inl e => inl e
          | inr peers =>
              match if_listen f with
              | [] => inl CeNoListen
              | _ =>
                  if negb (lib_url L (if_listen f)) then inl CeListen
                  else match lib_host L (if_listen f) with
                       | None => inl CeListen
                       | Some host =>
                           if bytes_equal host localhost_any then inl CeHost
                           else
                             let c := Config chain
                                        (Some (CosSection (if_threshold f)
                                                 (Z.of_nat (length peers) + 1)
                                                 (if_listen f) peers (if_timeout f))) cn in
                             match validate_cosigner c with Some e => inl e | None => inr c end
                       end
              end
          end
      | None =>
          match cn with
          | [] => inl CeNoNodes
          | _ => let c := Config chain None cn in
                 match validate_single c with Some e => inl e | None => inr c end
          end
      end
  end.

(** ** Commands that edit the configuration *)

(** config.go:313-326, 460-473: difference of lists as sets, in the order of the first *)
Definition diff_set {A} `{EqDecision A} (a b : list A) : list A :=
  filter (fun x => x ∉ b) a.

Definition with_nodes (c : config) (l : list bytes) : config :=
  Config (cf_chain c) (cf_cosigner c) l.
Definition with_section (c : config) (s : cosigner_section) : config :=
  Config (cf_chain c) (Some s) (cf_nodes c).
Definition with_peers (s : cosigner_section) (l : list cpeer) : cosigner_section :=
  CosSection (co_threshold s) (co_shares s) (co_listen s) l (co_timeout s).

Inductive config_cmd :=
| NodesAdd (arg : bytes) | NodesRemove (arg : bytes)
| PeersAdd (arg : bytes) | PeersRemove (arg : bytes) | SetShares (arg : bytes).

(** config.go:248-265 *)
Definition nodes_add (c : config) (arg : bytes) : outcome cfg_error config :=
  match nodes_from_arg arg with
  | inl e => Fail e
  | inr l =>
      match diff_set l (cf_nodes c) with
      | [] => Fail CeNothingNew
      | d => let n := cf_nodes c ++ d in
             match validate_nodes n with Some e => Fail e | None => Val (with_nodes c n) end
      end
  end.

(** config.go:288-306 *)
Definition nodes_remove (c : config) (arg : bytes) : outcome cfg_error config :=
  match nodes_from_arg arg with
  | inl e => Fail e
  | inr l =>
      match diff_set (cf_nodes c) l with
      | [] => Fail CeLeaveOne
      | d => match validate_nodes d with Some e => Fail e | None => Val (with_nodes c d) end
      end
  end.

(** config.go:351-368; a nil CosignerConfig is dereferenced *)
Definition peers_add (c : config) (arg : bytes) : outcome cfg_error config :=
  match peers_from_flag arg with
  | inl e => Fail e
  | inr l =>
      match cf_cosigner c with
      | None => Panic
      | Some s =>
          match diff_set l (co_peers s) with
          | [] => Fail CeNothingNew
          | d => let n := co_peers s ++ d in
                 match validate_peers n (co_shares s) with
                 | Some e => Fail e
                 | None => Val (with_section c (with_peers s n))
                 end
          end
      end
  end.

(** config.go:391-402: for every configured peer the list of IDs is parsed again; the result is
    the peers with a listed ID, or an error *)
Fixpoint listed_ids (p : cpeer) (ids : list bytes) : cfg_error + list cpeer :=
  match ids with
  | [] => inr []
  | s :: ids' =>
      match go_atoi s with
      | None => inl CeNumber
      | Some id =>
          match listed_ids p ids' with
          | inl e => inl e
          | inr l => inr (if pe_id p =? id then p :: l else l)
          end
      end
  end.
Fixpoint listed_peers (ps : list cpeer) (ids : list bytes) : cfg_error + list cpeer :=
  match ps with
  | [] => inr []
  | p :: ps' =>
      match listed_ids p ids with
      | inl e => inl e
      | inr l => match listed_peers ps' ids with inl e => inl e | inr l' => inr (l ++ l') end
      end
  end.

(** config.go:391-418 *)
Definition peers_remove (c : config) (arg : bytes) : outcome cfg_error config :=
  match cf_cosigner c with
  | None => Panic
  | Some s =>
      match listed_peers (co_peers s) (split ","%byte arg) with
      | inl e => Fail e
      | inr l =>
          match diff_set (co_peers s) l with
          | [] => Fail CeLeaveOne
          | d => match validate_peers d (co_shares s) with
                 | Some e => Fail e
                 | None => Val (with_section c (with_peers s d))
                 end
          end
      end
  end.

(** config.go:441-453 *)
Definition set_shares (c : config) (arg : bytes) : outcome cfg_error config :=
  match go_atoi arg with
  | None => Fail CeNumber
  | Some n =>
      match cf_cosigner c with
      | None => Panic
      | Some s =>
          match validate_peers (co_peers s) n with
          | Some e => Fail e
          | None => Val (with_section c (CosSection (co_threshold s) n (co_listen s) (co_peers s)
                                           (co_timeout s)))
          end
      end
  end.

Definition run_cmd (c : config) (cmd : config_cmd) : outcome cfg_error config :=
  match cmd with
  | NodesAdd a => nodes_add c a
  | NodesRemove a => nodes_remove c a
  | PeersAdd a => peers_add c a
  | PeersRemove a => peers_remove c a
  | SetShares a => set_shares c a
  end.

(** contents of config.yaml after a command: it is written only on success *)
Definition after_cmd (c : config) (cmd : config_cmd) : config :=
  match run_cmd c cmd with Val c' => c' | _ => c end.
Definition after_cmds (c : config) (l : list config_cmd) : config := fold_left after_cmd l c.

(** ** Starting a cosigner: cosigner.go:111-240 *)

(** signer/cosigner_key.go CosignerKey: ID, share, validator public key, RSA key pair, RSA public
    keys of all cosigners *)
Record cosigner_key := CKey {
  ck_id : Z; ck_share : bytes; ck_pub : bytes; ck_rsa : bytes; ck_rsa_pub : bytes;
  ck_keys : list bytes }.

(** cosigner.go:177-195 and local_cosigner.go:135-138: the peers map, the configured peers added
    one by one after ourselves; [None] is log.Fatalf (186-188) *)
Fixpoint peer_keys (keys : list bytes) (l : list cpeer) (m : gmap Z bytes) : option (gmap Z bytes) :=
  match l with
  | [] => Some m
  | p :: l' =>
      if (pe_id p <? 1) || (Z.of_nat (length keys) <? pe_id p) then None
      else match idx keys (pe_id p - 1) with
           | None => None
           | Some pk => peer_keys keys l' (<[pe_id p := pk]> m)
           end
  end.

(** what a cosigner runs with *)
Record running := Running { ru_cos : cos_config; ru_val : vconf }.
Definition running_of (s : cosigner_section) (k : cosigner_key) : option running :=
  match peer_keys (ck_keys k) (co_peers s) {[ck_id k := ck_rsa_pub k]} with
  | None => None
  | Some m =>
      Some (Running
              (CosConfig (ck_id k) (ck_share k) (ck_pub k) (ck_rsa k)
                 (u8 (Z.of_nat (length (co_peers s)) + 1)) (u8 (co_threshold s)) m)
              (VConf (co_threshold s) (ck_pub k) (ck_id k) (map pe_id (co_peers s))))
  end.
Definition start_cosigner (c : config) (k : cosigner_key) : option running :=
  match validate_cosigner c, cf_cosigner c with
  | None, Some s => running_of s k
  | _, _ => None
  end.

(** ** State files by name *)

Definition pv_suffix : bytes :=
  ["_"; "p"; "r"; "i"; "v"; "_"; "v"; "a"; "l"; "i"; "d"; "a"; "t"; "o"; "r"; "_"; "s"; "t"; "a";
   "t"; "e"; "."; "j"; "s"; "o"; "n"]%byte.
Definition share_suffix : bytes :=
  ["_"; "s"; "h"; "a"; "r"; "e"; "_"; "s"; "i"; "g"; "n"; "_"; "s"; "t"; "a"; "t"; "e"; "."; "j";
   "s"; "o"; "n"]%byte.
(** cosigner.go:160, 168; config.go:499-502; the directory is left out, and so are chain IDs
    containing path separators *)
Definition pv_path (chain : bytes) : bytes := chain ++ pv_suffix.
Definition share_path (chain : bytes) : bytes := chain ++ share_suffix.

(** the home directory: config.yaml (absent or unreadable: None) and the state files *)
Record home := Home { hm_config : option config; hm_files : gmap bytes bytes }.

(** os.Rename; [None] is an error and nothing changed. Renaming a file to itself changes nothing *)
Definition rename (old new : bytes) (h : home) : option home :=
  match hm_files h !! old with
  | None => None
  | Some b => Some (Home (hm_config h) (<[new := b]> (delete old (hm_files h))))
  end.

(** What is left in config.yaml when WriteFile is interrupted (truncate, then write): nothing
    usable, or a configuration cut short. The file starts with home-dir, key-file and chain-id,
    then the cosigner section, then the nodes (config.go:520-526), so a cut configuration that
    still has a cosigner section has the whole chain ID. *)
Definition torn_write (c : config) (o : option config) : Prop :=
  match o with
  | None => True
  | Some c' => cf_cosigner c' = None \/ cf_chain c' = cf_chain c
  end.

(** config.go:489-516 setChainIDCmd: [set_chain c new h h'] relates the home directory to every
    home directory left by a complete or interrupted execution *)
Inductive set_chain (c : config) (new : bytes) (h : home) : home -> Prop :=
| sc_before : set_chain c new h h                       (* nothing done, or first rename failed *)
| sc_one h1 :                                           (* 504 done; or 507 failed *)
    rename (pv_path (cf_chain c)) (pv_path new) h = Some h1 -> set_chain c new h h1
| sc_two h1 h2 :                                        (* 507 done *)
    rename (pv_path (cf_chain c)) (pv_path new) h = Some h1 ->
    rename (share_path (cf_chain c)) (share_path new) h1 = Some h2 -> set_chain c new h h2
| sc_torn h1 h2 o :                                     (* interrupted in 512 *)
    rename (pv_path (cf_chain c)) (pv_path new) h = Some h1 ->
    rename (share_path (cf_chain c)) (share_path new) h1 = Some h2 ->
    torn_write (Config new (cf_cosigner c) (cf_nodes c)) o ->
    set_chain c new h (Home o (hm_files h2))
| sc_done h1 h2 :                                       (* complete *)
    rename (pv_path (cf_chain c)) (pv_path new) h = Some h1 ->
    rename (share_path (cf_chain c)) (share_path new) h1 = Some h2 ->
    set_chain c new h (Home (Some (Config new (cf_cosigner c) (cf_nodes c))) (hm_files h2)).

(** cosigner.go:111-172: the state of the share a starting cosigner uses; [None] is a refusal
    (no configuration, validation error, or panic because the file does not load) *)
Definition start_share (h : home) : option sign_state :=
  match hm_config h with
  | None => None
  | Some c => match validate_cosigner c with
              | Some _ => None
              | None => load (hm_files h !! share_path (cf_chain c))
              end
  end.

(** ** state set: state.go:68-122 *)

(** the --home flag: absent, or present with a directory that exists or not *)
Inductive home_flag := HomeDefault | HomeGiven (exists_dir : bool).
Inductive set_error := SeRunning | SeNotEmpty | SeLoad | SeNumber.

(** the write started by Save: new contents of the file, if Save accepted *)
Definition save_job (s : sign_state) (h : Z) : option bytes :=
  let s1 := SS (ss_hrs s) None (ss_sig s) (ss_sb s) (ss_cache s) in
  let '(s2, err) := save s1 (SSC (HRS h 0 0) None None) in
  match err with None => Some (marshal_state (rec_of s2)) | Some _ => None end.

(** result: the two writes that were started (goroutines, sign_state.go:136) *)
Definition state_set (is_running : bool) (hf : home_flag) (pv share : file) (arg : bytes)
  : set_error + (option bytes * option bytes) :=
  if is_running then inl SeRunning
  else match hf with
       | HomeGiven true => inl SeNotEmpty
       | _ =>
           match load pv with
           | None => inl SeLoad
           | Some spv =>
               match load share with
               | None => inl SeLoad
               | Some ssh =>
                   match go_atoi arg with
                   | None => inl SeNumber
                   | Some h => inr (save_job spv h, save_job ssh h)
                   end
               end
           end
       end.

(** a file after the process has ended, with its write carried out or not *)
Definition after_write (f : file) (job : option bytes) (done : bool) : file :=
  match job with
  | Some b => if done then Some b else f
  | None => f
  end.

End Commands.
