(** The digest algorithms behind /repo/src/crypto/hash.rs:8-57, written out from their
    standards: SHA-2 (FIPS 180-4, crate sha2), SHA-3 (FIPS 202, crate sha3), BLAKE2
    (RFC 7693, crate blake2), BLAKE3 (the BLAKE3 paper, crate blake3).  The rest of the
    model keeps them abstract (class [Crypto]); this file gives an instance of their part
    of that class, used to replay the repository's own tests and to discharge the
    hypothesis [hash_contract]. *)
From Verif Require Import Base.

(** Words of [w] bits. *)
Definition trunc (w x : N) : N := N.land x (N.ones w).
Definition wadd (w a b : N) : N := trunc w (a + b).
Definition rotr (w n x : N) : N := N.lor (N.shiftr x n) (trunc w (N.shiftl x (w - n))).
Definition rotl (w n x : N) : N := rotr w (w - n) x.
Definition wnot (w x : N) : N := N.lxor x (N.ones w).
Definition at_ (l : list N) (i : nat) : N := nth i l 0.
Fixpoint upd (l : list N) (i : nat) (v : N) : list N :=
  match l, i with [], _ => [] | _ :: r, O => v :: r | x :: r, S i => x :: upd r i v end.
Definition zip (f : N -> N -> N) (a b : list N) : list N := map (fun p => f (fst p) (snd p)) (combine a b).
(** Bytes of words, and back. *)
Fixpoint le_bytes (k : nat) (x : N) : bytes := match k with O => [] | S k => x mod 256 :: le_bytes k (x / 256) end.
Definition be_bytes (k : nat) (x : N) : bytes := rev (le_bytes k x).
Definition be_word (b : bytes) : N := fold_left (fun a x => a * 256 + x) b 0.
Definition le_word (b : bytes) : N := be_word (rev b).
(** Consecutive pieces of [n] bytes; the last one may be shorter. *)
Fixpoint pieces_ (fuel : nat) (n : N) (l : bytes) : list bytes :=
  match fuel, l with O, _ | _, [] => [] | S fuel, _ => take n l :: pieces_ fuel n (drop n l) end.
Definition pieces (n : N) (l : bytes) : list bytes := pieces_ (length l) n l.
Definition zeros (n : N) : bytes := repeat 0 (N.to_nat n).
(** filled up with zeros to [n] bytes *)
Definition zero_fill (n : N) (l : bytes) : bytes := l ++ zeros (n - len l).

(** Fractional parts of the square and cube roots of the first primes (FIPS 180-4). *)
Definition iv512 : list N :=
  [7640891576956012808; 13503953896175478587; 4354685564936845355; 11912009170470909681;
   5840696475078001361; 11170449401992604703; 2270897969802886507; 6620516959819538809].
Definition k512 : list N :=
  [4794697086780616226; 8158064640168781261; 13096744586834688815; 16840607885511220156;
   4131703408338449720; 6480981068601479193; 10538285296894168987; 12329834152419229976;
   15566598209576043074; 1334009975649890238; 2608012711638119052; 6128411473006802146;
   8268148722764581231; 9286055187155687089; 11230858885718282805; 13951009754708518548;
   16472876342353939154; 17275323862435702243; 1135362057144423861; 2597628984639134821;
   3308224258029322869; 5365058923640841347; 6679025012923562964; 8573033837759648693;
   10970295158949994411; 12119686244451234320; 12683024718118986047; 13788192230050041572;
   14330467153632333762; 15395433587784984357; 489312712824947311; 1452737877330783856;
   2861767655752347644; 3322285676063803686; 5560940570517711597; 5996557281743188959;
   7280758554555802590; 8532644243296465576; 9350256976987008742; 10552545826968843579;
   11727347734174303076; 12113106623233404929; 14000437183269869457; 14369950271660146224;
   15101387698204529176; 15463397548674623760; 17586052441742319658; 1182934255886127544;
   1847814050463011016; 2177327727835720531; 2830643537854262169; 3796741975233480872;
   4115178125766777443; 5681478168544905931; 6601373596472566643; 7507060721942968483;
   8399075790359081724; 8693463985226723168; 9568029438360202098; 10144078919501101548;
   10430055236837252648; 11840083180663258601; 13761210420658862357; 14299343276471374635;
   14566680578165727644; 15097957966210449927; 16922976911328602910; 17689382322260857208;
   500013540394364858; 748580250866718886; 1242879168328830382; 1977374033974150939;
   2944078676154940804; 3659926193048069267; 4368137639120453308; 4836135668995329356;
   5532061633213252278; 6448918945643986474; 6902733635092675308; 7801388544844847127].
Definition iv256 : list N := map (fun x => N.shiftr x 32) iv512.
Definition k256 : list N := map (fun x => N.shiftr x 32) (firstn 64 k512).

(** FIPS 202: round constants and rotation offsets (lane x + 5 y). *)
Definition keccak_rc : list N :=
  [1; 32898; 9223372036854808714; 9223372039002292224;
   32907; 2147483649; 9223372039002292353; 9223372036854808585;
   138; 136; 2147516425; 2147483658;
   2147516555; 9223372036854775947; 9223372036854808713; 9223372036854808579;
   9223372036854808578; 9223372036854775936; 32778; 9223372039002259466;
   9223372039002292353; 9223372036854808704; 2147483649; 9223372039002292232].
Definition keccak_rot : list N := [0; 1; 62; 28; 27; 36; 44; 6; 55; 20; 3; 10; 43; 25; 39; 41; 45; 15; 21; 8; 18; 2; 61; 56; 14].

(** RFC 7693: message schedules. *)
Definition sigma : list (list nat) :=
  [[0; 1; 2; 3; 4; 5; 6; 7; 8; 9; 10; 11; 12; 13; 14; 15];
   [14; 10; 4; 8; 9; 15; 13; 6; 1; 12; 0; 2; 11; 7; 5; 3];
   [11; 8; 12; 0; 5; 2; 15; 13; 10; 14; 3; 6; 7; 1; 9; 4];
   [7; 9; 3; 1; 13; 12; 11; 14; 2; 6; 5; 10; 4; 0; 15; 8];
   [9; 0; 5; 7; 2; 4; 10; 15; 14; 1; 11; 12; 6; 8; 3; 13];
   [2; 12; 6; 10; 0; 11; 8; 3; 4; 13; 7; 5; 15; 14; 1; 9];
   [12; 5; 1; 15; 14; 13; 4; 10; 0; 7; 6; 3; 9; 2; 8; 11];
   [13; 11; 7; 14; 12; 1; 3; 9; 5; 0; 15; 4; 8; 6; 2; 10];
   [6; 15; 14; 9; 11; 3; 0; 8; 12; 2; 13; 7; 1; 4; 10; 5];
   [10; 2; 8; 4; 7; 6; 1; 5; 15; 11; 9; 14; 3; 12; 13; 0]]%nat.

(** ** SHA-2 (FIPS 180-4): [w] bits per word, blocks of 16 words. *)
Record sha2 := Sha2 { s_w : N; s_wb : nat; s_iv : list N; s_k : list N;
                      s_S0 : N * N * N; s_S1 : N * N * N; s_s0 : N * N * N; s_s1 : N * N * N }.
Definition sha256_params := Sha2 32 4 iv256 k256 (2, 13, 22) (6, 11, 25) (7, 18, 3) (17, 19, 10).
Definition sha512_params := Sha2 64 8 iv512 k512 (28, 34, 39) (14, 18, 41) (1, 8, 7) (19, 61, 6).
Section Sha2.
Context (p : sha2).
Let w := s_w p.
Definition big_sigma (t : N * N * N) (x : N) : N := let '(a, b, c) := t in N.lxor (N.lxor (rotr w a x) (rotr w b x)) (rotr w c x).
Definition small_sigma (t : N * N * N) (x : N) : N := let '(a, b, c) := t in N.lxor (N.lxor (rotr w a x) (rotr w b x)) (N.shiftr x c).
(** the message schedule, newest word first *)
Fixpoint sha2_schedule (n : nat) (l : list N) : list N :=
  match n with
  | O => l
  | S n => sha2_schedule n (wadd w (wadd w (small_sigma (s_s1 p) (at_ l 1)) (at_ l 6)) (wadd w (small_sigma (s_s0 p) (at_ l 14)) (at_ l 15)) :: l)
  end.
Definition sha2_round (s : N * N * N * N * (N * N * N * N)) (kw : N * N) : N * N * N * N * (N * N * N * N) :=
  let '(a, b, c, d, (e, f, g, h)) := s in
  let ch := N.lxor (N.land e f) (N.land (wnot w e) g) in
  let maj := N.lxor (N.lxor (N.land a b) (N.land a c)) (N.land b c) in
  let t1 := wadd w (wadd w (wadd w h (big_sigma (s_S1 p) e)) ch) (wadd w (fst kw) (snd kw)) in
  let t2 := wadd w (big_sigma (s_S0 p) a) maj in
  (wadd w t1 t2, a, b, c, (wadd w d t1, e, f, g)).
Definition sha2_compress (h : list N) (block : bytes) : list N :=
  let ws := rev (sha2_schedule (length (s_k p) - 16) (rev (map be_word (pieces (N.of_nat (s_wb p)) block)))) in
  let '(a, b, c, d, (e, f, g, i)) :=
    fold_left sha2_round (combine (s_k p) ws) (at_ h 0, at_ h 1, at_ h 2, at_ h 3, (at_ h 4, at_ h 5, at_ h 6, at_ h 7)) in
  [wadd w (at_ h 0) a; wadd w (at_ h 1) b; wadd w (at_ h 2) c; wadd w (at_ h 3) d;
   wadd w (at_ h 4) e; wadd w (at_ h 5) f; wadd w (at_ h 6) g; wadd w (at_ h 7) i].
(** the message, a bit 1, zeros, and the length in bits in two words *)
Definition sha2_pad (m : bytes) : bytes :=
  let blk := 16 * N.of_nat (s_wb p) in let lf := 2 * N.of_nat (s_wb p) in
  m ++ [128] ++ zeros ((blk - (len m + 1 + lf) mod blk) mod blk) ++ be_bytes (2 * s_wb p) (8 * len m).
Definition sha2_hash (m : bytes) : bytes :=
  concat (map (be_bytes (s_wb p)) (fold_left sha2_compress (pieces (16 * N.of_nat (s_wb p)) (sha2_pad m)) (s_iv p))).
End Sha2.

(** ** SHA-3 (FIPS 202): 25 lanes of 64 bits, lane (x, y) at x + 5 y. *)
Definition lanes (f : nat -> nat -> N) : list N := map (fun i => f (Nat.modulo i 5) (Nat.div i 5)) (seq 0 25).
Definition lane (a : list N) (x y : nat) : N := at_ a (Nat.modulo x 5 + 5 * Nat.modulo y 5).
Definition keccak_round (a : list N) (rc : N) : list N :=
  let c := map (fun x => N.lxor (N.lxor (N.lxor (lane a x 0) (lane a x 1)) (N.lxor (lane a x 2) (lane a x 3))) (lane a x 4)) (seq 0 5) in
  let d := map (fun x => N.lxor (at_ c (Nat.modulo (x + 4) 5)) (rotl 64 1 (at_ c (Nat.modulo (x + 1) 5)))) (seq 0 5) in
  let a := lanes (fun x y => N.lxor (lane a x y) (at_ d x)) in
  let b := lanes (fun x y => rotl 64 (lane keccak_rot (x + 3 * y) x) (lane a (x + 3 * y) x)) in
  let a := lanes (fun x y => N.lxor (lane b x y) (N.land (wnot 64 (lane b (x + 1) y)) (lane b (x + 2) y))) in
  upd a 0 (N.lxor (at_ a 0) rc).
Definition keccak_f (a : list N) : list N := fold_left keccak_round keccak_rc a.
(** a block of [rate] bytes is added to the first lanes *)
Definition keccak_absorb (a : list N) (block : bytes) : list N :=
  keccak_f (map (fun i => N.lxor (at_ a i) (at_ (map le_word (pieces 8 block)) i)) (seq 0 25)).
(** the message, the bits 01 of SHA-3, and the padding 10*1 *)
Definition sha3_pad (rate : N) (m : bytes) : bytes :=
  let q := rate - len m mod rate in
  m ++ (if q =? 1 then [134] else [6] ++ zeros (q - 2) ++ [128]).
Definition sha3_hash (rate : N) (out : N) (m : bytes) : bytes :=
  take out (concat (map (le_bytes 8) (fold_left keccak_absorb (pieces rate (sha3_pad rate m)) (repeat 0 25)))).

(** ** BLAKE2 (RFC 7693). *)
Record blake := Blake { b_w : N; b_wb : nat; b_iv : list N; b_rounds : nat; b_r : N * N * N * N }.
Definition blake2b_params := Blake 64 8 iv512 12 (32, 24, 16, 63).
Definition blake2s_params := Blake 32 4 iv256 10 (16, 12, 8, 7).
Section Blake.
Context (p : blake).
Let w := b_w p.
(** the mixing function G *)
Definition blake_g (v : list N) (a b c d : nat) (x y : N) : list N :=
  let '(r1, r2, r3, r4) := b_r p in
  let va := wadd w (wadd w (at_ v a) (at_ v b)) x in
  let vd := rotr w r1 (N.lxor (at_ v d) va) in
  let vc := wadd w (at_ v c) vd in
  let vb := rotr w r2 (N.lxor (at_ v b) vc) in
  let va := wadd w (wadd w va vb) y in
  let vd := rotr w r3 (N.lxor vd va) in
  let vc := wadd w vc vd in
  let vb := rotr w r4 (N.lxor vb vc) in
  upd (upd (upd (upd v a va) b vb) c vc) d vd.
Definition blake_round (v : list N) (m : list N) (s : list nat) : list N :=
  let x i := at_ m (nth i s O) in
  let v := blake_g v 0 4 8 12 (x 0%nat) (x 1%nat) in
  let v := blake_g v 1 5 9 13 (x 2%nat) (x 3%nat) in
  let v := blake_g v 2 6 10 14 (x 4%nat) (x 5%nat) in
  let v := blake_g v 3 7 11 15 (x 6%nat) (x 7%nat) in
  let v := blake_g v 0 5 10 15 (x 8%nat) (x 9%nat) in
  let v := blake_g v 1 6 11 12 (x 10%nat) (x 11%nat) in
  let v := blake_g v 2 7 8 13 (x 12%nat) (x 13%nat) in
  blake_g v 3 4 9 14 (x 14%nat) (x 15%nat).
Definition blake_words (block : bytes) : list N := map le_word (pieces (N.of_nat (b_wb p)) (zero_fill (16 * N.of_nat (b_wb p)) block)).
(** the compression function F: [t] bytes so far *)
Definition blake2_compress (h : list N) (block : bytes) (t : N) (last : bool) : list N :=
  let v := h ++ b_iv p in
  let v := upd v 12 (N.lxor (at_ v 12) (trunc w t)) in
  let v := upd v 13 (N.lxor (at_ v 13) (trunc w (N.shiftr t w))) in
  let v := if last then upd v 14 (wnot w (at_ v 14)) else v in
  let v := fold_left (fun v i => blake_round v (blake_words block) (nth (Nat.modulo i 10) sigma [])) (seq 0 (b_rounds p)) v in
  map (fun i => N.lxor (N.lxor (at_ h i) (at_ v i)) (at_ v (i + 8))) (seq 0 8).
Fixpoint blake2_blocks (h : list N) (bs : list bytes) (t : N) : list N :=
  match bs with
  | [] => h
  | [b] => blake2_compress h b (t + len b) true
  | b :: bs => blake2_blocks (blake2_compress h b (t + len b) false) bs (t + len b)
  end.
(** unkeyed; the empty message is one empty block *)
Definition blake2_hash (out : N) (m : bytes) : bytes :=
  let h := upd (b_iv p) 0 (N.lxor (at_ (b_iv p) 0) (16842752 + out)) in
  take out (concat (map (le_bytes (b_wb p)) (blake2_blocks h (match m with [] => [[]] | _ => pieces (16 * N.of_nat (b_wb p)) m end) 0))).
End Blake.

(** ** BLAKE3: chunks of 1024 bytes, blocks of 64, a binary tree of chunks. *)
Definition b3_perm : list nat := [2; 6; 3; 10; 7; 0; 4; 13; 1; 11; 12; 5; 9; 14; 15; 8]%nat.
Definition b3_params := Blake 32 4 iv256 7 (16, 12, 8, 7).
Definition b3_chunk_start : N := 1.
Definition b3_chunk_end : N := 2.
Definition b3_parent : N := 4.
Definition b3_root : N := 8.
Fixpoint b3_rounds (n : nat) (v m : list N) : list N :=
  match n with
  | O => v
  | S n => b3_rounds n (blake_round b3_params v m (seq 0 16)) (map (at_ m) b3_perm)
  end.
(** the compression function; 16 words of output *)
Definition b3_compress (cv m : list N) (counter blen flags : N) : list N :=
  let v := cv ++ firstn 4 iv256 ++ [trunc 32 counter; trunc 32 (N.shiftr counter 32); blen; flags] in
  let v := b3_rounds 7 v m in
  map (fun i => N.lxor (at_ v i) (at_ v (i + 8))) (seq 0 8) ++ map (fun i => N.lxor (at_ v (i + 8)) (at_ cv i)) (seq 0 8).
(** a node whose compression is still to be done: as a parent's child or as the root *)
Record b3_node := Node3 { n_cv : list N; n_words : list N; n_counter : N; n_blen : N; n_flags : N }.
Definition b3_chain (n : b3_node) : list N := firstn 8 (b3_compress (n_cv n) (n_words n) (n_counter n) (n_blen n) (n_flags n)).
Definition b3_block_words (b : bytes) : list N := map le_word (pieces 4 (zero_fill 64 b)).
Fixpoint b3_blocks (cv : list N) (counter : N) (start : N) (bs : list bytes) : b3_node :=
  match bs with
  | [] => Node3 cv (b3_block_words []) counter 0 (start + b3_chunk_end)
  | [b] => Node3 cv (b3_block_words b) counter (len b) (start + b3_chunk_end)
  | b :: bs => b3_blocks (firstn 8 (b3_compress cv (b3_block_words b) counter 64 start)) counter 0 bs
  end.
Definition b3_chunk (counter : N) (m : bytes) : b3_node := b3_blocks iv256 counter b3_chunk_start (pieces 64 m).
(** the left subtree has the largest power of two of chunks that leaves some for the right *)
Definition b3_left (n : N) : N := 1024 * 2 ^ N.log2 ((n - 1) / 1024).
Fixpoint b3_tree (fuel : nat) (counter : N) (m : bytes) : b3_node :=
  match fuel with
  | O => b3_chunk counter m
  | S fuel =>
    if len m <=? 1024 then b3_chunk counter m
    else let l := b3_left (len m) in
         Node3 iv256 (b3_chain (b3_tree fuel counter (take l m)) ++ b3_chain (b3_tree fuel (counter + l / 1024) (drop l m))) 0 64 b3_parent
  end.
(** the first 64 bytes of the extendable output *)
Definition b3_output (m : bytes) : bytes :=
  let n := b3_tree (N.to_nat (N.size (len m))) 0 m in
  concat (map (le_bytes 4) (b3_compress (n_cv n) (n_words n) 0 (n_blen n) (n_flags n + b3_root))).

(** ** hash.rs:8-57, the nine codes. *)
Definition real_hash (code m : bytes) : bytes :=
  if bytes_eqb code (s2b "E") then take 32 (b3_output m)
  else if bytes_eqb code (s2b "0D") then b3_output m
  else if bytes_eqb code (s2b "F") then blake2_hash blake2b_params 32 m
  else if bytes_eqb code (s2b "0E") then blake2_hash blake2b_params 64 m
  else if bytes_eqb code (s2b "G") then blake2_hash blake2s_params 32 m
  else if bytes_eqb code (s2b "H") then sha3_hash 136 32 m
  else if bytes_eqb code (s2b "0F") then sha3_hash 72 64 m
  else if bytes_eqb code (s2b "I") then sha2_hash sha256_params m
  else if bytes_eqb code (s2b "0G") then sha2_hash sha512_params m
  else [].
