(** The commands on a machine with several directories: cmd/horcrux/cmd/root.go, config.go, state.go,
    cosigner.go. Composes Config.v (what the commands compute), Disk.v (state files), KeyFile.v (key
    files) and KeyShares.v into what a user types.

    Simplifications: directories are given by their absolute clean path, so that path.Join is
    injective; a file is read and written at once (C51 is about interrupted commands); config.yaml
    that cannot be parsed counts as absent for reading (viper.ReadInConfig fails in both cases,
    root.go:50-54; a file of valid syntax with values of wrong types would end the process at
    root.go:55-58 instead and is left out); only config.yaml is looked for (viper would prefer a config.json in the default
    directory); YAML text is not modelled. *)
From Coq Require Import Strings.String.
From Verif Require Import GoBase Canonical SignState Crypto LocalCosigner Json Utf8 Disk Validator Config Privval
  KeyFile KeyShares System.
Local Open Scope Z_scope.

(** config.go:520-526: all of config.yaml *)
Record yaml := Yaml { ya_home : bytes; ya_key : bytes; ya_cfg : config }.

(** [ma_dirs]: the directories that exist; [ma_yaml]: config.yaml in a directory (None: cannot be
    parsed); [ma_state]: the file <dir>/state/<name>; [ma_key]: key files by their path *)
Record machine := Machine {
  ma_dirs : gset bytes; ma_yaml : gmap bytes (option yaml);
  ma_state : gmap (bytes * bytes) bytes; ma_key : gmap bytes bytes }.

Definition put_yaml (m : machine) (d : bytes) (y : yaml) : machine :=
  Machine (ma_dirs m) (<[d := Some y]> (ma_yaml m)) (ma_state m) (ma_key m).
Definition put_state (m : machine) (p : bytes * bytes) (f : file) : machine :=
  Machine (ma_dirs m) (ma_yaml m) (match f with Some b => <[p := b]> (ma_state m) | None => delete p (ma_state m) end)
    (ma_key m).
(** the user copies a key file to a path *)
Definition put_key (m : machine) (p : bytes) (b : bytes) : machine :=
  Machine (ma_dirs m) (ma_yaml m) (ma_state m) (<[p := b]> (ma_key m)).

(** the --home flag ("" if absent) and the default directory ~/.horcrux: config.go:63-69 and the
    same lines in every command *)
Definition home_of (dflt flag : bytes) : bytes := match flag with [] => dflt | _ => flag end.

(** root.go:37-60 initConfig: [None] is the nil pointer *)
Definition config_at (dflt : bytes) (m : machine) (flag : bytes) : option yaml :=
  match ma_yaml m !! home_of dflt flag with Some (Some y) => Some y | _ => None end.

(** cosigner.go:126-131 *)
Definition share_name : bytes := lit "/share.json".
Definition key_path (y : yaml) : bytes :=
  match ya_key y with [] => ya_home y ++ share_name | p => p end.

(** cosigner.go:160, 168 *)
Definition pv_file (y : yaml) : bytes * bytes := (ya_home y, pv_path (cf_chain (ya_cfg y))).
Definition share_file (y : yaml) : bytes * bytes := (ya_home y, share_path (cf_chain (ya_cfg y))).

(** the key written by create-shares and the one read by start are two views of CosignerKey
    (cosigner_key.go:17-23); the RSA public key of a cosigner is part of its private key *)
Definition file_key (k : Config.cosigner_key) : KeyFile.cosigner_key (bytes * bytes) bytes :=
  KeyFile.CKey (PkEd25519 (Config.ck_pub k)) (Some (Config.ck_share k)) (Config.ck_rsa k, Config.ck_rsa_pub k)
    (Config.ck_id k) (Config.ck_keys k).
Definition pub_bytes (p : pubkey) : bytes :=
  match p with PkNone => [] | PkEd25519 b => b | PkSecp256k1 b => b end.
Definition key_of_file (k : KeyFile.cosigner_key (bytes * bytes) bytes) : Config.cosigner_key :=
  Config.CKey (KeyFile.ck_id k) (slice_of (KeyFile.ck_share k)) (pub_bytes (KeyFile.ck_pub k))
    (fst (KeyFile.ck_rsa k)) (snd (KeyFile.ck_rsa k)) (KeyFile.ck_rsas k).

(** errors *)
Inductive cmd_error :=
| EConfig (e : cfg_error) | EExists | ERename | EState (e : set_error) | EKey (e : key_error) | EFatal.

Section Commands.
Context (L : Lib) (KL : KeyLib (bytes * bytes) bytes) (dflt : bytes).

(** ** config init: config.go:43-172. [cos]: the flags of a cosigner; [keyfile]: --keyfile *)
Definition init_cmd (m : machine) (flag : bytes) (overwrite : bool) (chain : bytes) (nodes : option bytes)
    (cos : option init_flags) (keyfile : bytes) : outcome cmd_error machine :=
  let d := home_of dflt flag in
  match init_nodes L nodes with
  | inl e => Fail (EConfig e)
  | inr _ =>
      if bool_decide (is_Some (ma_yaml m !! d)) && negb overwrite then Fail EExists
      else match config_init L chain nodes cos with
           | inl e => Fail (EConfig e)
           | inr c =>
               let y := Yaml d keyfile c in
               let m1 := put_yaml (Machine ({[d]} ∪ ma_dirs m) (ma_yaml m) (ma_state m) (ma_key m)) d y in
               let m2 := put_state m1 (pv_file y) (snd (load_or_create (ma_state m1 !! pv_file y))) in
               Val (match cos with
                    | Some _ => put_state m2 (share_file y) (snd (load_or_create (ma_state m2 !! share_file y)))
                    | None => m2
                    end)
           end
  end.

(** ** nodes add/remove, peers add/remove, set-shares: config.go:230-470. The configuration is
    written to the directory of --home; home-dir in it stays as it is. With a nil configuration the
    arguments are looked at first, except by peers remove *)
Definition nil_edit (cmd : config_cmd) : outcome cmd_error machine :=
  match cmd with
  | NodesAdd a | NodesRemove a => match nodes_from_arg L a with inl e => Fail (EConfig e) | inr _ => Panic end
  | PeersAdd a => match peers_from_flag a with inl e => Fail (EConfig e) | inr _ => Panic end
  | PeersRemove _ => Panic
  | SetShares a => match go_atoi a with None => Fail (EConfig CeNumber) | Some _ => Panic end
  end.
Definition edit_cmd (m : machine) (flag : bytes) (cmd : config_cmd) : outcome cmd_error machine :=
  match config_at dflt m flag with
  | None => nil_edit cmd
  | Some y =>
      match run_cmd L (ya_cfg y) cmd with
      | Val c => Val (put_yaml m (home_of dflt flag) (Yaml (ya_home y) (ya_key y) c))
      | Fail e => Fail (EConfig e)
      | Panic => Panic
      end
  end.

(** os.Rename *)
Definition move (m : machine) (old new : bytes * bytes) : option machine :=
  match ma_state m !! old with
  | None => None
  | Some b => Some (put_state (put_state m old None) new (Some b))
  end.

(** ** chain-id set: config.go:480-518; what has been done when an error occurs stays done *)
Definition chain_cmd (m : machine) (flag new : bytes) : machine * outcome cmd_error unit :=
  match config_at dflt m flag with
  | None => (m, Panic)
  | Some y =>
      let d := home_of dflt flag in
      let c := ya_cfg y in
      match move m (d, pv_path (cf_chain c)) (d, pv_path new) with
      | None => (m, Fail ERename)
      | Some m1 =>
          match move m1 (d, share_path (cf_chain c)) (d, share_path new) with
          | None => (m1, Fail ERename)
          | Some m2 =>
              (put_yaml m2 d (Yaml (ya_home y) (ya_key y) (Config new (cf_cosigner c) (cf_nodes c))), Val tt)
          end
      end
  end.

(** ** state set and state show: state.go:30-122. os.Stat("") fails with "does not exist".
    [d1], [d2]: whether the two writing goroutines finish before the process ends (C63) *)
Definition flag_kind (m : machine) (flag : bytes) : home_flag :=
  match flag with [] => HomeDefault | _ => HomeGiven (bool_decide (flag ∈ ma_dirs m)) end.
Definition state_set_cmd (m : machine) (flag : bytes) (is_running : bool) (arg : bytes) (d1 d2 : bool)
  : outcome cmd_error machine :=
  let d := home_of dflt flag in
  if is_running then Fail (EState SeRunning)
  else match flag_kind m flag with
       | HomeGiven true => Fail (EState SeNotEmpty)
       | _ =>
           match config_at dflt m flag with
           | None => Panic
           | Some y =>
               let pv := (d, pv_path (cf_chain (ya_cfg y))) in
               let sh := (d, share_path (cf_chain (ya_cfg y))) in
               match state_set false (flag_kind m flag) (ma_state m !! pv) (ma_state m !! sh) arg with
               | inl e => Fail (EState e)
               | inr (j1, j2) =>
                   let m1 := put_state m pv (after_write (ma_state m !! pv) j1 d1) in
                   Val (put_state m1 sh (after_write (ma_state m1 !! sh) j2 d2))
               end
           end
       end.
Definition state_show_cmd (m : machine) (flag : bytes) : outcome cmd_error (sign_state * sign_state) :=
  let d := home_of dflt flag in
  match flag_kind m flag with
  | HomeGiven true => Fail (EState SeNotEmpty)
  | _ =>
      match config_at dflt m flag with
      | None => Panic
      | Some y =>
          match load (ma_state m !! (d, pv_path (cf_chain (ya_cfg y)))),
                load (ma_state m !! (d, share_path (cf_chain (ya_cfg y)))) with
          | Some pv, Some sh => Val (pv, sh)
          | _, _ => Fail (EState SeLoad)
          end
      end
  end.

(** ** cosigner start: cosigner.go:111-243 up to the remote signers. The result is what the process
    runs with, the process and the machine: the directories are those of home-dir in config.yaml.
    validateCosignerConfig dereferences the nil pointer; a share state that does not load panics
    (171-173) *)
Definition start_cmd (m : machine) (flag : bytes) : outcome cmd_error (running * host * machine) :=
  match config_at dflt m flag with
  | None => Panic
  | Some y =>
      match validate_cosigner L (ya_cfg y), cf_cosigner (ya_cfg y) with
      | Some e, _ => Fail (EConfig e)
      | None, None => Panic
      | None, Some s =>
          match load_key KL (ma_key m !! key_path y) with
          | Fail e => Fail (EKey e)
          | Panic => Panic
          | Val fk =>
              let '(pv, pvf) := load_or_create (ma_state m !! pv_file y) in
              match load (ma_state m !! share_file y) with
              | None => Panic
              | Some sh =>
                  match running_of s (key_of_file fk) with
                  | None => Fail EFatal
                  | Some r =>
                      Val (r, Host (new_validator pv) pvf [] (CNode (new_cosigner sh) (ma_state m !! share_file y) []) 0,
                           put_state m (pv_file y) pvf)
                  end
              end
          end
      end
  end.

(** ** Any command but start *)
Inductive command :=
| CInit (overwrite : bool) (chain : bytes) (nodes : option bytes) (cos : option init_flags) (keyfile : bytes)
| CEdit (cmd : config_cmd)
| CChain (new : bytes)
| CStateSet (is_running : bool) (arg : bytes) (d1 d2 : bool)
| CStateShow.

(** the machine afterwards; a command that fails before its first write leaves it as it was *)
Definition after_command (m : machine) (flag : bytes) (c : command) : machine :=
  match c with
  | CInit o chain nodes cos key => match init_cmd m flag o chain nodes cos key with Val m' => m' | _ => m end
  | CEdit cmd => match edit_cmd m flag cmd with Val m' => m' | _ => m end
  | CChain new => fst (chain_cmd m flag new)
  | CStateSet r a d1 d2 => match state_set_cmd m flag r a d1 d2 with Val m' => m' | _ => m end
  | CStateShow => m
  end.
(** the process ends with a nil pointer dereference *)
Definition crashes (m : machine) (flag : bytes) (c : command) : bool :=
  match c with
  | CInit o chain nodes cos key => match init_cmd m flag o chain nodes cos key with Panic => true | _ => false end
  | CEdit cmd => match edit_cmd m flag cmd with Panic => true | _ => false end
  | CChain new => match snd (chain_cmd m flag new) with Panic => true | _ => false end
  | CStateSet r a d1 d2 => match state_set_cmd m flag r a d1 d2 with Panic => true | _ => false end
  | CStateShow => match state_show_cmd m flag with Panic => true | _ => false end
  end.
End Commands.
