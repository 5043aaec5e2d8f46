(** SHA-256 and SHA-512 as Go's crypto/sha256 and crypto/sha512 compute them.

    The functions are not in /repo. SHA-256 is called at signer/local_cosigner.go:363, 381, 414 and 457
    (OAEP, and the digests that are signed) and behind pubKey.Address() (cmd/horcrux/cmd/cosigner.go,
    see Address.v); SHA-512 is the hash inside ExpandSecret (signer/cosigner_key_shares.go:25) and
    inside signing and verifying with Ed25519. Sources: sha256.go, sha256block.go, sha512.go and
    sha512block.go of the standard library. Words are integers below 2^w, the array w[64] or w[80] is
    a list whose latest word comes first, and Write and Sum are one function of the whole message. *)
From Verif Require Import GoBase Wire.
Local Open Scope Z_scope.

(** big-endian numbers: binary.BigEndian *)
Definition be_num (b : bytes) : Z := fold_left (fun a x => 256 * a + bz x) b 0.
Definition be_enc (n : nat) (z : Z) : bytes := rev (le_enc n z).
(** slices of [n] elements; [f] bounds their number *)
Fixpoint chunks {A} (f n : nat) (l : list A) : list (list A) :=
  match f, l with
  | S f', _ :: _ => take n l :: chunks f' n (drop n l)
  | _, _ => []
  end.

(** what tells the two functions apart: bytes in a word, constants of the rounds, first state, the
    counts in sigma0, sigma1, SIGMA0 and SIGMA1 *)
Record sha := Sha { sh_bytes : nat; sh_k : list Z; sh_init : list Z;
  sh_small0 : Z * Z * Z; sh_small1 : Z * Z * Z; sh_big0 : Z * Z * Z; sh_big1 : Z * Z * Z }.

Section Functions.
Context (P : sha).
Definition sh_w : Z := 8 * Z.of_nat (sh_bytes P).
Definition wrap_w (x : Z) : Z := x mod 2 ^ sh_w.
(** bits.RotateLeft32(x, -n), bits.RotateLeft64(x, -n) *)
Definition rotr (n x : Z) : Z := Z.lor (Z.shiftr x n) (Z.shiftl (Z.land x (Z.ones n)) (sh_w - n)).
Definition small (c : Z * Z * Z) (x : Z) : Z :=
  let '(a, b, s) := c in Z.lxor (Z.lxor (rotr a x) (rotr b x)) (Z.shiftr x s).
Definition big (c : Z * Z * Z) (x : Z) : Z :=
  let '(a, b, d) := c in Z.lxor (Z.lxor (rotr a x) (rotr b x)) (rotr d x).
(** (e & f) ^ (^e & g) and (a & b) ^ (a & c) ^ (b & c) *)
Definition ch (x y z : Z) : Z := Z.lxor (Z.land x y) (Z.land (Z.lnot x) z).
Definition maj (x y z : Z) : Z := Z.lxor (Z.lxor (Z.land x y) (Z.land x z)) (Z.land y z).

(** w[i] = t1 + w[i-7] + t2 + w[i-16] *)
Definition sched_step (ws : list Z) : list Z :=
  wrap_w (small (sh_small1 P) (nth 1 ws 0) + nth 6 ws 0 + small (sh_small0 P) (nth 14 ws 0) + nth 15 ws 0) :: ws.
Definition sched (block : list Z) : list Z := rev (Nat.iter (length (sh_k P) - 16) sched_step (rev block)).
(** the body of the loop over the rounds; the state is a, b, ..., h *)
Definition round (s : list Z) (kw : Z * Z) : list Z :=
  match s with
  | [a; b; c; d; e; f; g; h] =>
      let t1 := wrap_w (h + big (sh_big1 P) e + ch e f g + kw.1 + kw.2) in
      let t2 := wrap_w (big (sh_big0 P) a + maj a b c) in
      [wrap_w (t1 + t2); a; b; c; wrap_w (d + t1); e; f; g]
  | _ => []
  end.
Definition block_step (s : list Z) (block : list Z) : list Z :=
  zip_with (fun x y => wrap_w (x + y)) s (fold_left round (combine (sh_k P) (sched block)) s).

(** checkSum: 0x80, zeros, the length in bits; the whole is a number of blocks *)
Definition pad_zeros (n : nat) : nat :=
  Z.to_nat ((- (Z.of_nat n + 1 + 2 * Z.of_nat (sh_bytes P))) mod (16 * Z.of_nat (sh_bytes P))).
Definition pad (m : bytes) : bytes :=
  m ++ x80 :: repeat x00 (pad_zeros (length m)) ++ be_enc (2 * sh_bytes P) (8 * Z.of_nat (length m)).
Definition words (b : bytes) : list Z := map be_num (chunks (length b) (sh_bytes P) b).
Definition sha2 (m : bytes) : bytes :=
  let ws := words (pad m) in
  concat (map (be_enc (sh_bytes P)) (fold_left block_step (chunks (length ws) 16 ws) (sh_init P))).
End Functions.

(** sha256block.go: _K; sha256.go: init0 to init7 *)
Definition k256 : list Z := [
  1116352408; 1899447441; 3049323471; 3921009573; 961987163; 1508970993;
  2453635748; 2870763221; 3624381080; 310598401; 607225278; 1426881987;
  1925078388; 2162078206; 2614888103; 3248222580; 3835390401; 4022224774;
  264347078; 604807628; 770255983; 1249150122; 1555081692; 1996064986;
  2554220882; 2821834349; 2952996808; 3210313671; 3336571891; 3584528711;
  113926993; 338241895; 666307205; 773529912; 1294757372; 1396182291;
  1695183700; 1986661051; 2177026350; 2456956037; 2730485921; 2820302411;
  3259730800; 3345764771; 3516065817; 3600352804; 4094571909; 275423344;
  430227734; 506948616; 659060556; 883997877; 958139571; 1322822218;
  1537002063; 1747873779; 1955562222; 2024104815; 2227730452; 2361852424;
  2428436474; 2756734187; 3204031479; 3329325298].
Definition init256 : list Z := [
  1779033703; 3144134277; 1013904242; 2773480762; 1359893119; 2600822924;
  528734635; 1541459225].
(** sha512block.go: _K; sha512.go: init0 to init7 *)
Definition k512 : list Z := [
  4794697086780616226; 8158064640168781261; 13096744586834688815; 16840607885511220156;
  4131703408338449720; 6480981068601479193; 10538285296894168987; 12329834152419229976;
  15566598209576043074; 1334009975649890238; 2608012711638119052; 6128411473006802146;
  8268148722764581231; 9286055187155687089; 11230858885718282805; 13951009754708518548;
  16472876342353939154; 17275323862435702243; 1135362057144423861; 2597628984639134821;
  3308224258029322869; 5365058923640841347; 6679025012923562964; 8573033837759648693;
  10970295158949994411; 12119686244451234320; 12683024718118986047; 13788192230050041572;
  14330467153632333762; 15395433587784984357; 489312712824947311; 1452737877330783856;
  2861767655752347644; 3322285676063803686; 5560940570517711597; 5996557281743188959;
  7280758554555802590; 8532644243296465576; 9350256976987008742; 10552545826968843579;
  11727347734174303076; 12113106623233404929; 14000437183269869457; 14369950271660146224;
  15101387698204529176; 15463397548674623760; 17586052441742319658; 1182934255886127544;
  1847814050463011016; 2177327727835720531; 2830643537854262169; 3796741975233480872;
  4115178125766777443; 5681478168544905931; 6601373596472566643; 7507060721942968483;
  8399075790359081724; 8693463985226723168; 9568029438360202098; 10144078919501101548;
  10430055236837252648; 11840083180663258601; 13761210420658862357; 14299343276471374635;
  14566680578165727644; 15097957966210449927; 16922976911328602910; 17689382322260857208;
  500013540394364858; 748580250866718886; 1242879168328830382; 1977374033974150939;
  2944078676154940804; 3659926193048069267; 4368137639120453308; 4836135668995329356;
  5532061633213252278; 6448918945643986474; 6902733635092675308; 7801388544844847127].
Definition init512 : list Z := [
  7640891576956012808; 13503953896175478587; 4354685564936845355; 11912009170470909681;
  5840696475078001361; 11170449401992604703; 2270897969802886507; 6620516959819538809].

Definition par256 : sha := Sha 4 k256 init256 (7, 18, 3) (17, 19, 10) (2, 13, 22) (6, 11, 25).
Definition par512 : sha := Sha 8 k512 init512 (1, 8, 7) (19, 61, 6) (28, 34, 39) (14, 18, 41).
(** sha256.Sum256 and sha512.Sum512 *)
Definition sha256 : bytes -> bytes := sha2 par256.
Definition sha512 : bytes -> bytes := sha2 par512.
