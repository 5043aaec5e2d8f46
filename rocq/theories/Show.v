(** What `horcrux state show` prints.

    /repo anchors: cmd/horcrux/cmd/state.go:29-66 (showStateCmd), 130-145 (printSignState). *)
From Coq Require Import Strings.String.
From Verif Require Import GoBase Canonical SignState Json Disk Machine.
Local Open Scope list_scope.

Definition nl : bytes := [x0a].

(** fmt.Println(label, text): a blank between the operands (state.go:137,140,143) *)
Definition print_member (label text : bytes) : bytes := label ++ lit " " ++ text ++ nl.

(** printSignState (state.go:130-145). Height, Round and Step are int64, int64 and int8 under %v; SignBytes
    is tendermint's HexBytes, which formats itself in upper-case hexadecimal; a nil slice has no line, an
    empty one has a line without text *)
Definition print_sign_state (s : sign_state) : bytes :=
  (lit "  Height:    " ++ print_int (h_height (ss_hrs s)) ++ nl ++
   lit "  Round:     " ++ print_int (h_round (ss_hrs s)) ++ nl ++
   lit "  Step:      " ++ print_int (h_step (ss_hrs s)) ++ nl) ++
  match ss_eph s with Some b => print_member (lit "  Ephemeral Public Key:") (b64_enc b) | None => [] end ++
  match ss_sig s with Some b => print_member (lit "  Signature:") (b64_enc b) | None => [] end ++
  match ss_sb s with Some b => print_member (lit "  SignBytes:") (hex_enc b) | None => [] end.

(** the standard output of the command if it does not fail (state.go:59-62) *)
Definition show_output (dflt : bytes) (m : machine) (flag : bytes) : outcome cmd_error bytes :=
  match state_show_cmd dflt m flag with
  | Val (pv, sh) => Val (lit "Private Validator State:" ++ nl ++ print_sign_state pv ++
                         lit "Share Sign State:" ++ nl ++ print_sign_state sh)
  | Fail e => Fail e
  | Panic => Panic
  end.
