(** Foundations of the model: outcomes, build profile, bytes and strings,
    machine arithmetic, slicing.  No proofs in this file. *)
From Coq Require Export String Ascii.
From Coq Require Export NArith ZArith Bool List.
Export ListNotations.
Open Scope N_scope.

(** ** Errors.
    Models /repo/src/error.rs:3-67 (variants without their message payloads)
    plus the errors of external crates that [anyhow] can carry. *)
Inductive error :=
| E_Matter | E_EmptyMaterial | E_Decode | E_UnexpectedCode | E_UnexpectedCountCode
| E_UnexpectedOpCode | E_InvalidVarSize | E_InvalidVarRawSize | E_InvalidVarIndex
| E_InvalidCodeSize | E_InvalidBase64Character | E_InvalidBase64Index | E_Shortage
| E_EmptyQb64 | E_UnknownSizage | E_UnknownHardage | E_UnknownBardage
| E_UnsupportedSize | E_TooSmall | E_Prepad | E_NonZeroedPrepad | E_NonFixedSizeCode
| E_NonZeroedLeadByte | E_NonZeroedLeadBytes | E_NonZeroedPadBits | E_Parsing
| E_ParseQb64 | E_ParseQb2 | E_Conversion | E_Value | E_Validation | E_Derivation
(* external *)
| E_Base64        (* base64::DecodeError / EncodeSliceError *)
| E_Utf8          (* std FromUtf8Error / Utf8Error *)
| E_ParseInt      (* std::num::ParseIntError *)
| E_TryFromInt    (* std::num::TryFromIntError *)
| E_Json          (* serde_json::Error *)
| E_Regex
| E_Crypto.       (* errors of the signature/hash crates *)

(** A Rust call returns [Ok], returns [Err], or panics. *)
Inductive outcome (A : Type) :=
| Ok (a : A)
| Err (e : error)
| Panic.
Arguments Ok {A} a.
Arguments Err {A} e.
Arguments Panic {A}.

Definition obind {A B} (x : outcome A) (f : A -> outcome B) : outcome B :=
  match x with Ok a => f a | Err e => Err e | Panic => Panic end.

Notation "x <- e ;; k" := (obind e (fun x => k))
  (at level 61, e at next level, right associativity).
Notation "' p <- e ;; k" := (obind e (fun p => k))
  (at level 61, p pattern, e at next level, right associativity).

(** Build profile: [true] = overflow checks on (cargo debug profile, overflow
    panics); [false] = off (cargo release profile, overflow wraps). *)
Class Profile := overflow_checks : bool.

(** ** Bytes and strings.  A [&str] is the list of its UTF-8 bytes. *)
Definition bytes := list N.
Definition byte_ok (b : N) : bool := b <? 256.
Definition bytes_ok (l : bytes) : bool := forallb byte_ok l.

(** Literals. *)
Definition s2b (s : string) : bytes := map N_of_ascii (list_ascii_of_string s).
Arguments s2b s%string_scope.

Fixpoint bytes_eqb (a b : bytes) : bool :=
  match a, b with
  | [], [] => true
  | x :: a', y :: b' => (x =? y) && bytes_eqb a' b'
  | _, _ => false
  end.

Definition len {A} (l : list A) : N := N.of_nat (length l).
Definition take {A} (n : N) (l : list A) : list A := firstn (N.to_nat n) l.
Definition drop {A} (n : N) (l : list A) : list A := skipn (N.to_nat n) l.
Definition rep {A} (a : A) (n : N) : list A := repeat a (N.to_nat n).

(** ** Machine integers. *)
Definition U32 : N := 2 ^ 32.
Definition U64 : N := 2 ^ 64.
Definition U128 : N := 2 ^ 128.
Definition u32_max : N := U32 - 1.

(** [x as u32] *)
Definition as_u32 (n : N) : N := n mod U32.

Section Arith.
  Context `{Profile}.
  (** Rust [a + b], [a - b], [a * b] on u32: panic or wrap on overflow. *)
  Definition add32 (a b : N) : outcome N :=
    if a + b <? U32 then Ok (a + b)
    else if overflow_checks then Panic else Ok ((a + b) mod U32).
  Definition sub32 (a b : N) : outcome N :=
    if b <=? a then Ok (a - b)
    else if overflow_checks then Panic else Ok (U32 + a - b).
  Definition mul32 (a b : N) : outcome N :=
    if a * b <? U32 then Ok (a * b)
    else if overflow_checks then Panic else Ok ((a * b) mod U32).
  (** [64_u32.pow(k)]: exponentiation overflows exactly when the result does
      not fit (repeated multiplication; wrapping gives the residue). *)
  Definition pow64_32 (k : N) : outcome N :=
    if 64 ^ k <? U32 then Ok (64 ^ k)
    else if overflow_checks then Panic else Ok ((64 ^ k) mod U32).
End Arith.

(** ** Slicing [&v[a..b]] of byte slices: panics out of range. *)
Definition slice {A} (l : list A) (a b : N) : outcome (list A) :=
  if (a <=? b) && (b <=? len l) then Ok (take (b - a) (drop a l)) else Panic.

(** UTF-8 continuation byte. *)
Definition is_cont (b : N) : bool := (128 <=? b) && (b <? 192).

(** [str::is_char_boundary]: 0, len, or a non-continuation byte inside. *)
Definition boundary (s : bytes) (i : N) : bool :=
  match nth_error s (N.to_nat i) with
  | Some b => (i =? 0) || negb (is_cont b)
  | None => i =? len s
  end.

(** [&s[a..b]] of strings: panics out of range or off a char boundary. *)
Definition str_slice (s : bytes) (a b : N) : outcome bytes :=
  if (a <=? b) && boundary s a && boundary s b
  then Ok (take (b - a) (drop a s)) else Panic.

(** [v[i]] *)
Definition index_at {A} (l : list A) (i : N) : outcome A :=
  match nth_error l (N.to_nat i) with Some a => Ok a | None => Panic end.

(** Association-list lookup with string keys (Rust [match s { "A" => ... }]). *)
Fixpoint assoc {A} (k : bytes) (t : list (bytes * A)) : option A :=
  match t with
  | [] => None
  | (k', a) :: t' => if bytes_eqb k k' then Some a else assoc k t'
  end.

(** [CODES.contains(&code)] *)
Definition mem_code (c : bytes) (cs : list bytes) : bool := existsb (bytes_eqb c) cs.
