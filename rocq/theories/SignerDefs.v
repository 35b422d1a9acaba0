(** Definitions used only to state the Signer and Salter properties. *)
From Verif Require Import Base MatterTables Matter Indexer StdStr Spec MatterDefs Crypto Prims PrimsDefs Signer.

(** One line per signature suite: seed code, transferable and non-transferable
    key codes, unindexed signature code, and the four indexed signature codes
    (both key lists / current key list only) x (small / big index). *)
Record suite_info := Suite { su_seed : bytes; su_key : bytes; su_key_nt : bytes; su_sig : bytes;
  su_both : bytes; su_current : bytes; su_both_big : bytes; su_current_big : bytes; su_key_size : N; su_alg : suite }.
Definition suites : list suite_info :=
  [ Suite (s2b "A") (s2b "D") (s2b "B") (s2b "0B") (s2b "A") (s2b "B") (s2b "2A") (s2b "2B") 32 S_Ed25519;
    Suite (s2b "J") (s2b "1AAB") (s2b "1AAA") (s2b "0C") (s2b "C") (s2b "D") (s2b "2C") (s2b "2D") 33 S_256k1;
    Suite (s2b "Q") (s2b "1AAJ") (s2b "1AAI") (s2b "0I") (s2b "E") (s2b "F") (s2b "2E") (s2b "2F") 33 S_256r1 ].

(** What is assumed of the signature schemes: keys and signatures have their
    sizes, and a signature made with a usable private key verifies under its public key. *)
Definition scheme_contract (C : Crypto) : Prop :=
  forall u sk pk, In u suites -> len sk = 32 -> x_public (su_alg u) sk = Some pk ->
    len pk = su_key_size u /\ bytes_ok pk = true /\
    forall entropy msg, exists sig, x_sign (su_alg u) entropy sk msg = Some sig /\ len sig = 64 /\ bytes_ok sig = true /\
      x_verify (su_alg u) pk sig msg = Some true.
(** key generation gives usable private keys *)
Definition generate_contract (C : Crypto) : Prop :=
  forall u entropy, In u suites -> len (x_generate (su_alg u) entropy) = 32 /\ bytes_ok (x_generate (su_alg u) entropy) = true /\
    exists pk, x_public (su_alg u) (x_generate (su_alg u) entropy) = Some pk.
(** the stretching function gives as many bytes as asked *)
Definition stretch_contract (C : Crypto) : Prop :=
  forall pwd salt m p n out, x_argon2id pwd salt m p n = Some out -> len out = n /\ bytes_ok out = true.

Section D.
Context `{P : Profile} `{C : Crypto}.
(** Signer::new_with_raw, new_with_defaults (random key), new_with_qb64, new_with_qb64b, new_with_qb2 *)
Definition signer_of_raw (raw : bytes) (transferable : bool) (code : bytes) : outcome signer :=
  signer_new 0 (Some transferable) (Some code) (Some raw) None None None.
Definition signer_random (entropy : N) (transferable : bool) (code : bytes) : outcome signer :=
  signer_new entropy (Some transferable) (Some code) None None None None.
Definition signer_of_text (t : bytes) (transferable : bool) : outcome signer :=
  signer_new 0 (Some transferable) None None None (Some t) None.
Definition signer_of_text_bytes (t : bytes) (transferable : bool) : outcome signer :=
  signer_new 0 (Some transferable) None None (Some t) None None.
Definition signer_of_binary (b : bytes) (transferable : bool) : outcome signer :=
  signer_new 0 (Some transferable) None None None None (Some b).
(** a signer with its seed and the key pair's public part *)
Definition is_signer (s : signer) (u : suite_info) (transferable : bool) : Prop :=
  In u suites /\ exists sk pk, len sk = 32 /\ bytes_ok sk = true /\ x_public (su_alg u) sk = Some pk /\
    s = Sgn (Mat (su_seed u) 0 sk) (Mat (if transferable then su_key u else su_key_nt u) 0 pk).
(** Salter::new_with_raw, new_with_qb64, new_with_qb64b, new_with_qb2 *)
Definition salter_of_raw (raw : bytes) (code tier : option bytes) : outcome salter := salter_new 0 tier code (Some raw) None None None.
Definition salter_of_text (t : bytes) (tier : option bytes) : outcome salter := salter_new 0 tier None None None (Some t) None.
Definition salter_of_text_bytes (t : bytes) (tier : option bytes) : outcome salter := salter_new 0 tier None None (Some t) None None.
Definition salter_of_binary (b : bytes) (tier : option bytes) : outcome salter := salter_new 0 tier None None None None (Some b).
End D.

(** The security tiers: memory (KiB) and passes of Argon2id. *)
Definition tiers : list (bytes * (N * N)) :=
  [(s2b "min", (8, 1)); (s2b "low", (65536, 2)); (s2b "med", (262144, 3)); (s2b "high", (1048576, 4))].
(** which tier a call uses *)
Definition used_tier (temp : bool) (tier : option bytes) (own : bytes) : bytes :=
  if temp then s2b "min" else match tier with Some t => t | None => own end.
(** the i-th path of a batch *)
Definition nth_path (path : bytes) (start i : N) : bytes := path ++ to_hex (start + i).

(** A toy instance that satisfies the contracts, used in examples only. *)
Definition toy_pk (s : suite) (k : bytes) : bytes := match s with S_Ed25519 => k | _ => 2 :: k end.
Definition toy_sig (k msg : bytes) : bytes := take 32 k ++ rep (len msg mod 256) 32.
Definition toy_scheme : Crypto := Build_Crypto toy_hash (fun _ e => rep (e mod 256) 32) (fun s k => if len k =? 32 then if bytes_ok k then Some (toy_pk s k) else None else None)
  (fun _ _ k m => Some (toy_sig k m))
  (fun s k sg m => Some (bytes_eqb sg (toy_sig (match s with S_Ed25519 => k | _ => drop 1 k end) m)))
  (fun p _ _ _ n => Some (rep (len p mod 256) n)) (fun e => rep (e mod 256) 16).
