(** Sizes of the digests. *)
From Verif Require Import Base Matter Spec Crypto Prims PrimsDefs Hash HashDefs BaseFacts.

Lemma le_bytes_len k x : len (le_bytes k x) = N.of_nat k.
Proof. revert x. induction k; intros x; [reflexivity|]. cbn [le_bytes]. rewrite len_cons, IHk. Lia.lia. Qed.
Lemma le_bytes_ok k x : bytes_ok (le_bytes k x) = true.
Proof. revert x. induction k; intros x; [reflexivity|]. cbn [le_bytes bytes_ok forallb]. apply andb_true_iff. split; [|apply IHk]. apply N.ltb_lt. apply N.mod_lt. discriminate. Qed.
Lemma bytes_ok_rev l : bytes_ok (rev l) = bytes_ok l.
Proof. induction l as [|x l IH]; [reflexivity|]. cbn [rev]. rewrite bytes_ok_app, IH. cbn [bytes_ok forallb]. rewrite andb_true_r. apply andb_comm. Qed.
Lemma be_bytes_len k x : len (be_bytes k x) = N.of_nat k.
Proof. unfold be_bytes. rewrite <- (le_bytes_len k x). unfold len. rewrite rev_length. reflexivity. Qed.
Lemma be_bytes_ok k x : bytes_ok (be_bytes k x) = true.
Proof. unfold be_bytes. rewrite bytes_ok_rev. apply le_bytes_ok. Qed.
Lemma concat_len {A} (f : A -> bytes) n l : (forall x, len (f x) = n) -> len (concat (map f l)) = n * N.of_nat (length l).
Proof. intros H. induction l as [|x l IH]; [cbn [map concat length]; rewrite N.mul_0_r; reflexivity|]. cbn [map concat]. rewrite len_app, H, IH. cbn [length]. Lia.lia. Qed.
Lemma concat_ok {A} (f : A -> bytes) l : (forall x, bytes_ok (f x) = true) -> bytes_ok (concat (map f l)) = true.
Proof. intros H. induction l as [|x l IH]; [reflexivity|]. cbn [map concat]. rewrite bytes_ok_app, H, IH. reflexivity. Qed.
Lemma bytes_ok_take n l : bytes_ok l = true -> bytes_ok (take n l) = true.
Proof. intros H. apply forallb_forall. intros x I. rewrite <- (firstn_skipn (N.to_nat n) l) in H. change (firstn (N.to_nat n) l) with (take n l) in H. rewrite bytes_ok_app in H. apply andb_true_iff in H as [H _]. eapply forallb_forall in H; eauto. Qed.
Lemma upd_length l i v : length (upd l i v) = length l.
Proof. revert i. induction l as [|x l IH]; intros [|i]; cbn [upd length]; auto. Qed.
Lemma fold_length {A B} (f : list A -> B -> list A) n bs h : (forall h b, length h = n -> length (f h b) = n) -> length h = n -> length (fold_left f bs h) = n.
Proof. intros H. revert h. induction bs as [|b bs IH]; intros h L; [exact L|]. cbn [fold_left]. apply IH, H, L. Qed.

Lemma b3_output_len m : len (b3_output m) = 64.
Proof. unfold b3_output. rewrite (concat_len (le_bytes 4) 4) by (intros; apply le_bytes_len). unfold b3_compress. rewrite app_length, !map_length, !seq_length. reflexivity. Qed.
Lemma b3_output_ok m : bytes_ok (b3_output m) = true.
Proof. apply concat_ok. intros. apply le_bytes_ok. Qed.
Lemma blake2_compress_length p h b t f : length (blake2_compress p h b t f) = 8%nat.
Proof. unfold blake2_compress. rewrite map_length, seq_length. reflexivity. Qed.
Lemma blake2_blocks_length p bs : forall h t, length h = 8%nat -> length (blake2_blocks p h bs t) = 8%nat.
Proof. induction bs as [|b bs IH]; intros h t L; [exact L|]. cbn [blake2_blocks]. destruct bs as [|b' bs]; [apply blake2_compress_length|]. apply IH, blake2_compress_length. Qed.
Lemma blake2_len p out m : length (b_iv p) = 8%nat -> out <= N.of_nat (b_wb p) * 8 -> len (blake2_hash p out m) = out.
Proof.
  intros Li Lo. unfold blake2_hash. rewrite len_take. rewrite (concat_len (le_bytes (b_wb p)) (N.of_nat (b_wb p))) by (intros; apply le_bytes_len).
  rewrite blake2_blocks_length by (rewrite upd_length; exact Li). Lia.lia.
Qed.
Lemma blake2_ok p out m : bytes_ok (blake2_hash p out m) = true.
Proof. apply bytes_ok_take, concat_ok. intros. apply le_bytes_ok. Qed.
Lemma keccak_round_length a rc : length (keccak_round a rc) = 25%nat.
Proof. unfold keccak_round. rewrite upd_length. unfold lanes. rewrite map_length, seq_length. reflexivity. Qed.
Lemma keccak_absorb_length a b : length (keccak_absorb a b) = 25%nat.
Proof. unfold keccak_absorb, keccak_f. apply fold_length; [intros; apply keccak_round_length|]. rewrite map_length, seq_length. reflexivity. Qed.
Lemma sha3_len rate out m : out <= 200 -> len (sha3_hash rate out m) = out.
Proof.
  intros L. unfold sha3_hash. rewrite len_take. rewrite (concat_len (le_bytes 8) 8) by (intros; apply le_bytes_len).
  rewrite (fold_length keccak_absorb 25) by (auto using keccak_absorb_length). Lia.lia.
Qed.
Lemma sha3_ok rate out m : bytes_ok (sha3_hash rate out m) = true.
Proof. apply bytes_ok_take, concat_ok. intros. apply le_bytes_ok. Qed.
Lemma sha2_compress_length p h b : length (sha2_compress p h b) = 8%nat.
Proof. unfold sha2_compress. destruct (fold_left _ _ _) as [[[[? ?] ?] ?] [[[? ?] ?] ?]]. reflexivity. Qed.
Lemma sha2_len p m : length (s_iv p) = 8%nat -> len (sha2_hash p m) = N.of_nat (s_wb p) * 8.
Proof.
  intros L. unfold sha2_hash. rewrite (concat_len (be_bytes (s_wb p)) (N.of_nat (s_wb p))) by (intros; apply be_bytes_len).
  rewrite (fold_length (sha2_compress p) 8) by (auto using sha2_compress_length). reflexivity.
Qed.
Lemma sha2_ok p m : bytes_ok (sha2_hash p m) = true.
Proof. apply concat_ok. intros. apply be_bytes_ok. Qed.

Lemma real_hash_eq m :
  real_hash (s2b "E") m = take 32 (b3_output m) /\ real_hash (s2b "0D") m = b3_output m /\ real_hash (s2b "F") m = blake2_hash blake2b_params 32 m /\
  real_hash (s2b "0E") m = blake2_hash blake2b_params 64 m /\ real_hash (s2b "G") m = blake2_hash blake2s_params 32 m /\ real_hash (s2b "H") m = sha3_hash 136 32 m /\
  real_hash (s2b "0F") m = sha3_hash 72 64 m /\ real_hash (s2b "I") m = sha2_hash sha256_params m /\ real_hash (s2b "0G") m = sha2_hash sha512_params m.
Proof. repeat split; reflexivity. Qed.
Lemma real_hash_contract C : hash_contract (with_digests C).
Proof.
  intros code n m I. cbn [x_hash with_digests]. destruct (real_hash_eq m) as (E1 & E2 & E3 & E4 & E5 & E6 & E7 & E8 & E9). unfold digest_sizes in I. cbn [map app In] in I.
  repeat (destruct I as [I|I]; [apply pair_equal_spec in I; destruct I as [<- <-]; rewrite ?E1, ?E2, ?E3, ?E4, ?E5, ?E6, ?E7, ?E8, ?E9|]); [..|destruct I].
  - split; [rewrite len_take, b3_output_len; reflexivity|apply bytes_ok_take, b3_output_ok].
  - split; [apply blake2_len; [reflexivity|vm_compute; discriminate]|apply blake2_ok].
  - split; [apply blake2_len; [reflexivity|vm_compute; discriminate]|apply blake2_ok].
  - split; [apply sha3_len; vm_compute; discriminate|apply sha3_ok].
  - split; [rewrite sha2_len by reflexivity; reflexivity|apply sha2_ok].
  - split; [apply b3_output_len|apply b3_output_ok].
  - split; [apply blake2_len; [reflexivity|vm_compute; discriminate]|apply blake2_ok].
  - split; [apply sha3_len; vm_compute; discriminate|apply sha3_ok].
  - split; [rewrite sha2_len by reflexivity; reflexivity|apply sha2_ok].
Qed.
