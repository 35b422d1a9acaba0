(** Theorems on the digest algorithms (C78). *)
From Verif Require Import Base Matter Spec MatterDefs Crypto Prims PrimsDefs Hash HashDefs.
From Verif Require Import BaseFacts HashFacts PrimsThms SignerToy.

(** C78: the nine algorithms, with whatever other cryptography, give digests of the size of
    their code for every message *)
Lemma C78_contract_pf : forall (C : Crypto) (code m : bytes) (n : N), In (code, n) digest_sizes ->
  len (x_hash (Crypto := with_digests C) code m) = n /\ bytes_ok (x_hash (Crypto := with_digests C) code m) = true.
Proof. intros C code m n I. exact (real_hash_contract C code n m I). Qed.
(** C78: with the actual algorithms Diger::new_with_ser accepts every message under every
    digest code; the object holds the digest of the message and verifies exactly the messages
    that have that digest *)
Lemma C78_diger_pf : forall (P : Profile) (C : Crypto) (code m : bytes) (n : N), In (code, n) digest_sizes ->
  exists d, diger_of (H := with_digests C) m (Some code) = Ok d /\ m_code d = code /\ m_raw d = real_hash code m /\ len (m_raw d) = n /\
    forall m', exists b, diger_verify (H := with_digests C) d m' = Ok b /\ (b = true <-> real_hash code m' = real_hash code m).
Proof.
  intros P C code m n I. destruct (C53_digest_pf P (with_digests C) code m n (real_hash_contract C) I) as (d & E & _ & _ & Ec & Er & V).
  exists d. split; [exact E|]. split; [exact Ec|]. split; [exact Er|]. split; [rewrite Er; apply (real_hash_contract C code n m I)|].
  intros m'. exists (bytes_eqb (real_hash code m') (real_hash code m)). split; [exact (V m')|]. apply bytes_eqb_eq.
Qed.
(** C78: on the published test vectors the digests are the published ones *)
Lemma C78_vectors_pf : forall (C : Crypto) (code m d : bytes), In (code, m, d) digest_vectors -> digest (H := with_digests C) code m = Ok d.
Proof.
  assert (T : forallb (fun e => bytes_eqb (real_hash (fst (fst e)) (snd (fst e))) (snd e) && existsb (bytes_eqb (fst (fst e))) digest_codes) digest_vectors = true) by (vm_compute; reflexivity).
  intros C code m d I. eapply forallb_forall in T; [|exact I]. cbn [fst snd] in T. apply andb_true_iff in T as [T1 T2]. apply bytes_eqb_eq in T1.
  unfold digest, mem_code. rewrite T2. cbn [x_hash with_digests]. rewrite T1. reflexivity.
Qed.
(** C78: so they are on messages of several blocks and, for BLAKE3, chunks *)
Lemma C78_long_vectors_pf : forall (C : Crypto) (code d : bytes) (n : N), In (code, n, d) long_vectors -> digest (H := with_digests C) code (counting n) = Ok d.
Proof.
  assert (T : forallb (fun e => bytes_eqb (real_hash (fst (fst e)) (counting (snd (fst e)))) (snd e) && existsb (bytes_eqb (fst (fst e))) digest_codes) long_vectors = true) by (vm_compute; reflexivity).
  intros C code d n I. eapply forallb_forall in T; [|exact I]. cbn [fst snd] in T. apply andb_true_iff in T as [T1 T2]. apply bytes_eqb_eq in T1.
  unfold digest, mem_code. rewrite T2. cbn [x_hash with_digests]. rewrite T1. reflexivity.
Qed.
(** C78: the 32 byte Blake3 digest is the first half of the 64 byte one *)
Lemma C78_blake3_halves_pf : forall (C : Crypto) (m : bytes), exists d d' : bytes,
  digest (H := with_digests C) (s2b "E") m = Ok d /\ digest (H := with_digests C) (s2b "0D") m = Ok (d ++ d') /\ len d = 32 /\ len d' = 32.
Proof.
  intros C m. exists (take 32 (b3_output m)), (drop 32 (b3_output m)). split; [reflexivity|]. split.
  - change (digest (s2b "0D") m) with (Ok (b3_output m)). rewrite <- (firstn_skipn (N.to_nat 32) (b3_output m)) at 1. reflexivity.
  - split; [rewrite len_take, b3_output_len; reflexivity|rewrite len_drop, b3_output_len; reflexivity].
Qed.
