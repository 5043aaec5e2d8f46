(** The protobuf wire format as read and written by the code that horcrux calls on
    sign bytes.

    /repo anchors: signer/Serialization.go:28-43 (UnpackHRST), signer/sign_state.go:306-358
    (check*OnlyDifferByTimestamp) call [protoio.UnmarshalDelimited];
    signer/threshold_validator.go:99,117 call [tm.VoteSignBytes]/[tm.ProposalSignBytes].
    The functions below model the dependency code behind those calls: tendermint v0.34.14
    libs/protoio/{reader,writer}.go and the gogo-protobuf generated
    proto/tendermint/types/canonical.pb.go (read from memory, see DESIGN.md section 4).

    Simplification: unmarshalling errors carry no information ([None]); horcrux only tests
    [err == nil]. Reading with an index into the buffer is modelled by consuming a list. *)
From Verif Require Import GoBase.

(** ** Varints *)

(** The generated loop [for shift := uint(0); ; shift += 7 {...}]: at most ten bytes, error on
    an eleventh or on end of input. Returns the untruncated sum of the 7-bit groups; every
    caller truncates it to the width of its destination ([u64], [wrap64], [wrap32], [u32]),
    which is what the Go shifts into fixed-width variables compute. *)
Fixpoint varint_dec (n : nat) (l : bytes) : option (Z * bytes) :=
  match n, l with
  | O, _ => None
  | S _, [] => None
  | S n', b :: l' =>
      if bz b <? 128 then Some (bz b, l')
      else match varint_dec n' l' with
           | None => None
           | Some (v, r) => Some (bz b mod 128 + 128 * v, r)
           end
  end.

(** [encodeVarintCanonical] on a uint64: little-endian 7-bit groups. Ten groups suffice. *)
Fixpoint varint_enc_go (n : nat) (v : Z) : bytes :=
  match n with
  | O => []
  | S n' => if v <? 128 then [zb v] else zb (v mod 128 + 128) :: varint_enc_go n' (v / 128)
  end.
Definition varint_enc (v : Z) : bytes := varint_enc_go 10 v.

(** encoding/binary.ReadUvarint: ten bytes, the tenth must be 0 or 1. *)
Fixpoint read_uvarint_go (n : nat) (l : bytes) : option (Z * bytes) :=
  match n, l with
  | O, _ => None
  | S _, [] => None
  | S n', b :: l' =>
      if bz b <? 128 then
        (if (bool_decide (n' = O) && (1 <? bz b))%bool then None else Some (bz b, l'))
      else match read_uvarint_go n' l' with
           | None => None
           | Some (v, r) => Some (bz b mod 128 + 128 * v, r)
           end
  end.
Definition read_uvarint (l : bytes) : option (Z * bytes) := read_uvarint_go 10 l.

(** ** Fixed-width and length-delimited values *)

(** [encoding_binary.LittleEndian.Uint64] on the first [n] bytes *)
Fixpoint le_dec (n : nat) (l : bytes) : option (Z * bytes) :=
  match n, l with
  | O, _ => Some (0, l)
  | S _, [] => None
  | S n', b :: l' =>
      match le_dec n' l' with
      | None => None
      | Some (v, r) => Some (bz b + 256 * v, r)
      end
  end.

(** [encoding_binary.LittleEndian.PutUint64] *)
Fixpoint le_enc (n : nat) (v : Z) : bytes :=
  match n with O => [] | S n' => zb v :: le_enc n' (v / 256) end.

(** Skip [n] bytes, failing at end of input. *)
Definition drop_exact (n : Z) (l : bytes) : option bytes :=
  if (n <? 0) || (Z.of_nat (length l) <? n) then None else Some (drop (Z.to_nat n) l).

(** A length-delimited value: the length is read as a Go [int] (wrapping), rejected when
    negative or beyond the end of the buffer. *)
Definition len_dec (l : bytes) : option (bytes * bytes) :=
  match varint_dec 10 l with
  | None => None
  | Some (v, r) =>
      let n := wrap64 v in
      if (n <? 0) || (Z.of_nat (length r) <? n) then None
      else Some (take (Z.to_nat n) r, drop (Z.to_nat n) r)
  end.

Definition len_enc (payload : bytes) : bytes :=
  varint_enc (Z.of_nat (length payload)) ++ payload.

(** ** Unknown fields: [skipCanonical] *)

Fixpoint skip_loop (fuel : nat) (depth : nat) (l : bytes) : option bytes :=
  match fuel with
  | O => None
  | S f =>
      match varint_dec 10 l with
      | None => None
      | Some (w, r) =>
          let next :=
            match u64 w mod 8 with
            | 0 => match varint_dec 10 r with Some (_, r') => Some (depth, r') | None => None end
            | 1 => match drop_exact 8 r with Some r' => Some (depth, r') | None => None end
            | 2 => match len_dec r with Some (_, r') => Some (depth, r') | None => None end
            | 3 => Some (S depth, r)
            | 4 => match depth with O => None | S d => Some (d, r) end
            | 5 => match drop_exact 4 r with Some r' => Some (depth, r') | None => None end
            | _ => None
            end in
          match next with
          | None => None
          | Some (O, r') => Some r'
          | Some (S d, r') => skip_loop f (S d) r'
          end
      end
  end.
Definition skip_field (l : bytes) : option bytes := skip_loop (length l) O l.

(** ** The generated message loop *)

(** Result of the [switch fieldNum] of a generated [Unmarshal]. *)
Inductive field_result (M : Type) : Type :=
| FUnknown                       (* default: branch *)
| FErr
| FOk (m : M) (rest : bytes).
Arguments FUnknown {M}.
Arguments FErr {M}.
Arguments FOk {M} m rest.

(** The generated [for iNdEx < l] loop: read a tag, dispatch on the field number, skip
    unknown fields. [h fieldNum wireType m rest] is the message-specific switch. The loop
    consumes at least one byte per round, so [length l] rounds of fuel always suffice. *)
Fixpoint unmarshal_loop {M} (fuel : nat) (h : Z -> Z -> M -> bytes -> field_result M)
    (m : M) (l : bytes) : option M :=
  match l with
  | [] => Some m
  | _ :: _ =>
      match fuel with
      | O => None
      | S f =>
          match varint_dec 10 l with
          | None => None
          | Some (w, r) =>
              let wire := u64 w in
              let fieldNum := wrap32 (wire / 8) in
              let wireType := wire mod 8 in
              if wireType =? 4 then None
              else if fieldNum <=? 0 then None
              else match h fieldNum wireType m r with
                   | FErr => None
                   | FOk m' r' => unmarshal_loop f h m' r'
                   | FUnknown =>
                       match skip_field l with
                       | None => None
                       | Some r' => unmarshal_loop f h m r'
                       end
                   end
          end
      end
  end.
Definition unmarshal {M} (h : Z -> Z -> M -> bytes -> field_result M) (m : M) (l : bytes)
  : option M := unmarshal_loop (length l) h m l.

(** ** Length-delimited framing: tendermint libs/protoio *)

(** [varintReader.ReadMsg] up to [proto.Unmarshal]: the payload and the unread input. The
    length must fit an [int], not exceed [maxSize] and be available. *)
Definition read_delimited (maxSize : Z) (l : bytes) : option (bytes * bytes) :=
  match read_uvarint l with
  | None => None
  | Some (n, r) =>
      if (2 ^ 63 - 1 <=? n) || (maxSize <? n) || (Z.of_nat (length r) <? n) then None
      else Some (take (Z.to_nat n) r, drop (Z.to_nat n) r)
  end.

(** [protoio.UnmarshalDelimited(data, msg)]: the reader is created with [maxSize = len(data)];
    bytes after the first message are ignored. *)
Definition unmarshal_delimited {M} (um : bytes -> option M) (data : bytes) : option M :=
  match read_delimited (Z.of_nat (length data)) data with
  | None => None
  | Some (payload, _) => um payload
  end.

(** [protoio.MarshalDelimited] / [varintWriter.WriteMsg] on an already marshalled message *)
Definition delimited (payload : bytes) : bytes :=
  varint_enc (Z.of_nat (length payload)) ++ payload.
