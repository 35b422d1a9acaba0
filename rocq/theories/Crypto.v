(** The cryptographic primitives (external crates) as an oracle, and the crate's
    dispatch on codes in front of them: /repo/src/crypto/hash.rs, sign.rs, salt.rs. *)
From Verif Require Import Base MatterTables.

Inductive suite := S_Ed25519 | S_256k1 | S_256r1.

(** The external functions.  Randomness (key generation, ECDSA nonces) is the
    explicit [N] argument.  [None] stands for an error of the crate. *)
Class Crypto := {
  x_hash : bytes -> bytes -> bytes;                        (* digest code, message *)
  x_generate : suite -> N -> bytes;                        (* entropy *)
  x_public : suite -> bytes -> option bytes;               (* private key *)
  x_sign : suite -> N -> bytes -> bytes -> option bytes;   (* entropy, private key, message *)
  x_verify : suite -> bytes -> bytes -> bytes -> option bool; (* public key, signature, message *)
  x_argon2id : bytes -> bytes -> N -> N -> N -> option bytes; (* password, salt, memory, passes, output length *)
  x_random16 : N -> bytes                                  (* entropy *)
}.

Definition opt {A} (o : option A) : outcome A := match o with Some a => Ok a | None => Err E_Crypto end.

Section Dispatch.
Context `{Crypto}.

(** hash.rs:8-57; the nine digest codes *)
Definition digest_codes : list bytes :=
  [s2b "E"; s2b "0D"; s2b "F"; s2b "0E"; s2b "G"; s2b "H"; s2b "0F"; s2b "I"; s2b "0G"].
Definition digest (code ser : bytes) : outcome bytes :=
  if mem_code code digest_codes then Ok (x_hash code ser) else Err E_UnexpectedCode.

(** the match arms of sign.rs:4-77 *)
Definition suite_of (code : bytes) : option suite :=
  if mem_code code [s2b "D"; s2b "B"; s2b "A"; s2b "0B"] then Some S_Ed25519
  else if mem_code code [s2b "1AAB"; s2b "1AAA"; s2b "J"; s2b "0C"] then Some S_256k1
  else if mem_code code [s2b "1AAJ"; s2b "1AAI"; s2b "Q"; s2b "0I"] then Some S_256r1
  else None.

(** sign.rs:4-20, 85-97, 137-141, 181-185 *)
Definition sign_generate (code : bytes) (entropy : N) : outcome bytes :=
  match suite_of code with Some s => Ok (x_generate s entropy) | None => Err E_UnexpectedCode end.

(** sign.rs:22-39; Ed25519 (99-103) slices [private_key[..32]], ECDSA (143-147)
    rejects bad keys *)
Definition sign_public_key (code sk : bytes) : outcome bytes :=
  match suite_of code with
  | Some S_Ed25519 => k <- slice sk 0 32 ;; opt (x_public S_Ed25519 k)
  | Some s => opt (x_public s sk)
  | None => Err E_UnexpectedCode
  end.

(** sign.rs:41-58; Ed25519 (105-108) needs exactly 32 bytes *)
Definition sign_sign (code : bytes) (entropy : N) (sk ser : bytes) : outcome bytes :=
  match suite_of code with
  | Some S_Ed25519 => if len sk =? 32 then opt (x_sign S_Ed25519 entropy sk ser) else Err E_Crypto
  | Some s => opt (x_sign s entropy sk ser)
  | None => Err E_UnexpectedCode
  end.

(** sign.rs:60-77; Ed25519 (110-118) needs 32 and 64 bytes *)
Definition sign_verify (code pk sig ser : bytes) : outcome bool :=
  match suite_of code with
  | Some S_Ed25519 => if (len pk =? 32) && (len sig =? 64) then opt (x_verify S_Ed25519 pk sig ser) else Err E_Crypto
  | Some s => opt (x_verify s pk sig ser)
  | None => Err E_UnexpectedCode
  end.

(** salt.rs:5-21 [params]: memory and passes of a tier (tier names
    /repo/src/core/common.rs Tierage) *)
Definition tier_params (tier : bytes) : outcome (N * N) :=
  if bytes_eqb tier (s2b "min") then Ok (8, 1)
  else if bytes_eqb tier (s2b "low") then Ok (65536, 2)
  else if bytes_eqb tier (s2b "med") then Ok (262144, 3)
  else if bytes_eqb tier (s2b "high") then Ok (1048576, 4)
  else Err E_Value.

(** salt.rs:23-37 [stretch]; parameter errors of argon2 are part of [x_argon2id] = None *)
Definition salt_stretch (pwd salt : bytes) (length : N) (tier : bytes) : outcome bytes :=
  '(m, p) <- tier_params tier ;;
  match x_argon2id pwd salt m p length with Some r => Ok r | None => Err E_Derivation end.
End Dispatch.
