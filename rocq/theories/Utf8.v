(** Go strings in JSON: UTF-8 validation (unicode/utf8.DecodeRune), encoding/json's quoting
    (encode.go, encodeState.string with escapeHTML) and unquoting (decode.go, unquoteBytes).

    /repo anchors: signer/raft_store.go:224 (json.Marshal of a command), 296 (json.Unmarshal), 328
    (Decode of a snapshot), 368 (json.Marshal of a snapshot). Standard library read from memory. *)
From Verif Require Import GoBase Json.
Local Open Scope Z_scope.

(** strings are map keys *)
Global Instance byte_countable : Countable byte := inj_countable' bz zb zb_bz.

Definition between (a x b : Z) : bool := (a <=? x) && (x <=? b).

(** unicode/utf8.DecodeRune: length of the encoding at the head of [l]; 0 if there is none (Go then
    yields RuneError with width 1) *)
Definition rune_len (l : bytes) : nat :=
  match l with
  | [] => 0%nat
  | a :: l1 =>
      let x := bz a in
      if x <? 128 then 1%nat
      else match l1 with
      | [] => 0%nat
      | b :: l2 =>
          let y := bz b in
          if between 194 x 223 then if between 128 y 191 then 2%nat else 0%nat
          else match l2 with
          | [] => 0%nat
          | c :: l3 =>
              let lo := if x =? 224 then 160 else if x =? 240 then 144 else 128 in
              let hi := if x =? 237 then 159 else if x =? 244 then 143 else 191 in
              if between 224 x 239
              then if between lo y hi && between 128 (bz c) 191 then 3%nat else 0%nat
              else match l3 with
              | [] => 0%nat
              | d :: _ =>
                  if between 240 x 244 && between lo y hi && between 128 (bz c) 191
                       && between 128 (bz d) 191 then 4%nat else 0%nat
              end
          end
      end
  end.

(** U+FFFD *)
Definition replacement : bytes := [xef; xbf; xbd].

(** invalid bytes replaced, one by one; the first argument counts bytes still belonging to the
    current encoding *)
Fixpoint san (skip : nat) (l : bytes) : bytes :=
  match l with
  | [] => []
  | b :: l' =>
      match skip with
      | S k => b :: san k l'
      | O => match rune_len l with
             | O => replacement ++ san 0 l'
             | S k => b :: san k l'
             end
      end
  end.

(** the Go string for the raw text between the quotes of a JSON string *)
Definition go_string (raw : bytes) : option bytes :=
  match unescape raw with Some s => Some (san 0 s) | None => None end.

(** encode.go encodeState.string, one ASCII byte *)
Definition hex_low (v : Z) : byte := if v <? 10 then zb (48 + v) else zb (87 + v).
Definition esc_ascii (b : byte) : bytes :=
  match b with
  | x22 => [x5c; x22]
  | x5c => [x5c; x5c]
  | x0a => [x5c; "n"%byte]
  | x0d => [x5c; "r"%byte]
  | x09 => [x5c; "t"%byte]
  | _ => if (bz b <? 32) || bool_decide (b ∈ ["<"%byte; ">"%byte; "&"%byte])
         then [x5c; "u"%byte; "0"%byte; "0"%byte; hex_low (bz b / 16); hex_low (bz b mod 16)]
         else [b]
  end.
Definition line_sep (l : bytes) : option byte :=
  if bool_decide (take 3 l = [xe2; x80; xa8]) then Some "8"%byte
  else if bool_decide (take 3 l = [xe2; x80; xa9]) then Some "9"%byte else None.
Fixpoint esc (skip : nat) (l : bytes) : bytes :=
  match l with
  | [] => []
  | b :: l' =>
      match skip with
      | S k => b :: esc k l'
      | O =>
          if bz b <? 128 then esc_ascii b ++ esc 0 l'
          else match line_sep l, l' with
               | Some d, _ :: _ :: l3 => [x5c; "u"%byte; "2"%byte; "0"%byte; "2"%byte; d] ++ esc 0 l3
               | _, _ =>
                   match rune_len l with
                   | O => [x5c; "u"%byte; "f"%byte; "f"%byte; "f"%byte; "d"%byte] ++ esc 0 l'
                   | S k => b :: esc k l'
                   end
               end
      end
  end.
Definition json_string (s : bytes) : bytes := quote (esc 0 s).
