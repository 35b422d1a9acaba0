(** Property theorems (generated by tools/mkprop.py from HashThms.v, which holds the proofs). *)
From Verif Require Import Base Matter Spec MatterDefs Crypto Prims PrimsDefs Hash HashDefs HashThms.

(** C78: the nine algorithms, with whatever other cryptography, give digests of the size of
    their code for every message *)
Theorem C78_contract : forall (C : Crypto) (code m : bytes) (n : N), In (code, n) digest_sizes ->
  len (x_hash (Crypto := with_digests C) code m) = n /\ bytes_ok (x_hash (Crypto := with_digests C) code m) = true.
Proof. exact C78_contract_pf. Qed.
Print Assumptions C78_contract.

(** C78: with the actual algorithms Diger::new_with_ser accepts every message under every
    digest code; the object holds the digest of the message and verifies exactly the messages
    that have that digest *)
Theorem C78_diger : forall (P : Profile) (C : Crypto) (code m : bytes) (n : N), In (code, n) digest_sizes ->
  exists d, diger_of (H := with_digests C) m (Some code) = Ok d /\ m_code d = code /\ m_raw d = real_hash code m /\ len (m_raw d) = n /\
    forall m', exists b, diger_verify (H := with_digests C) d m' = Ok b /\ (b = true <-> real_hash code m' = real_hash code m).
Proof. exact C78_diger_pf. Qed.
Print Assumptions C78_diger.

(** C78: on the published test vectors the digests are the published ones *)
Theorem C78_vectors : forall (C : Crypto) (code m d : bytes), In (code, m, d) digest_vectors -> digest (H := with_digests C) code m = Ok d.
Proof. exact C78_vectors_pf. Qed.
Print Assumptions C78_vectors.

(** C78: so they are on messages of several blocks and, for BLAKE3, chunks *)
Theorem C78_long_vectors : forall (C : Crypto) (code d : bytes) (n : N), In (code, n, d) long_vectors -> digest (H := with_digests C) code (counting n) = Ok d.
Proof. exact C78_long_vectors_pf. Qed.
Print Assumptions C78_long_vectors.

(** C78: the 32 byte Blake3 digest is the first half of the 64 byte one *)
Theorem C78_blake3_halves : forall (C : Crypto) (m : bytes), exists d d' : bytes,
  digest (H := with_digests C) (s2b "E") m = Ok d /\ digest (H := with_digests C) (s2b "0D") m = Ok (d ++ d') /\ len d = 32 /\ len d' = 32.
Proof. exact C78_blake3_halves_pf. Qed.
Print Assumptions C78_blake3_halves.
