(** Vocabulary for C15 and C61: what a cosigner was asked for, and its own randomness. *)
From Verif Require Import GoBase Canonical SignState Spec Crypto LocalCosigner CosignerSpec.

(** the keys a request may leave metadata for: the key itself and, for a stored part, the same
    height/round/step at the zero time *)
Definition keys_asked (op : cop) : list hrst :=
  match op with
  | OpGet k _ _ => [k]
  | OpSet k _ _ => [k; HRST (ht_hrs k) (unix_nano zero_time)]
  | OpSign _ | OpLSS _ => []
  end.

(** no new share above [k] was released *)
Definition no_fresh_above (k : hrs) (l : list (cop * cobs)) : Prop :=
  forall op sb r k', (op, ObsShare sb r) ∈ l -> sr_fresh r = true -> bytes_for sb k' -> ~ hrs_lt k k'.

(** the secret and the dealing randomness were read from the cosigner's random source in the run *)
Definition drawn (l : list (cop * cobs)) (secret r : bytes) : Prop :=
  exists op o, (op, o) ∈ l /\
    match op with
    | OpGet _ _ rnd => gr_deal rnd = Some (secret, r)
    | OpSet _ _ rnd => rnd = Some (secret, r)
    | _ => False
    end.

(** in the run, no part claiming to come from this cosigner itself was stored *)
Definition no_own_parts (cfg : cos_config) (l : list (cop * cobs)) : Prop :=
  forall k p rnd, (OpSet k p rnd, ObsSetOk) ∈ l -> pt_source p <> cc_id cfg.
