(** What the translated unit tests of the repository (Conform*.v, written by
    tools/mkconform.py) are made of. *)
From Verif Require Import Base B64 Matter Data Common Crypto Hash HashDefs PrimsDefs DataDefs.

(** Rust's unwrap on Result and Option: the test fails if there is no value *)
Class Unw (M : Type -> Type) := unw : forall A, M A -> outcome A.
Arguments unw {M _ A}.
#[export] Instance unw_outcome : Unw outcome := fun A x => x.
#[export] Instance unw_option : Unw option := fun A x => match x with Some a => Ok a | None => Err E_Value end.
Definition bnd {A B} (x : outcome A) (f : A -> outcome B) : outcome B := obind x f.
Notation "x <~ e ;; f" := (bnd e (fun x => f)) (at level 100, e at next level, f at level 200, right associativity).
Definition need (b : bool) : outcome unit := if b then Ok tt else Err E_Validation.
(** Result::is_ok and is_err; a panic is neither *)
Definition ok {A} (x : outcome A) : bool := match x with Ok _ => true | _ => false end.
Definition errs {A} (x : outcome A) : bool := match x with Err _ => true | _ => false end.
Definition some {A} (x : option A) : bool := match x with Some _ => true | None => false end.
(** assert_eq *)
Class Same (A : Type) := same : A -> A -> bool.
#[export] Instance same_n : Same N := N.eqb.
#[export] Instance same_z : Same Z := Z.eqb.
#[export] Instance same_bool : Same bool := Bool.eqb.
#[export] Instance same_list A `{Same A} : Same (list A) := fix go a b := match a, b with [], [] => true | x :: a, y :: b => same x y && go a b | _, _ => false end.
#[export] Instance same_bytes : Same bytes := same_list N.
#[export] Instance same_option A `{Same A} : Same (option A) := fun a b => match a, b with None, None => true | Some x, Some y => same x y | _, _ => false end.
#[export] Instance same_pair A B `{Same A} `{Same B} : Same (A * B) := fun a b => same (fst a) (fst b) && same (snd a) (snd b).
#[export] Instance same_data : Same data := fix go a b :=
  match a, b with
  | VNull, VNull => true
  | VBool x, VBool y => Bool.eqb x y
  | VInt x, VInt y => Z.eqb x y
  | VFloat x, VFloat y => bytes_eqb x y
  | VStr x, VStr y => bytes_eqb x y
  | VArr x, VArr y => (fix els x y := match x, y with [], [] => true | a :: x, b :: y => go a b && els x y | _, _ => false end) x y
  | VObj x, VObj y => (fix els x y := match x, y with [], [] => true | a :: x, b :: y => bytes_eqb (fst a) (fst b) && go (snd a) (snd b) && els x y | _, _ => false end) x y
  | _, _ => false
  end.
#[export] Instance same_matter : Same matter := fun a b => bytes_eqb (m_code a) (m_code b) && (m_size a =? m_size b) && bytes_eqb (m_raw a) (m_raw b).
#[export] Instance same_version : Same version := version_eqb.
(** Value::from *)
Class ToData (A : Type) := to_data : A -> data.
#[export] Instance to_data_bytes : ToData bytes := VStr.
#[export] Instance to_data_n : ToData N := fun n => VInt (Z.of_N n).
#[export] Instance to_data_list : ToData (list data) := VArr.
#[export] Instance to_data_self : ToData data := fun v => v.

(** The actual digests.  Signatures and key derivation are toys: keys are the seeds (with a
    prefix for the curves whose keys have 33 bytes), a signature is the digest of the key and
    the message. *)
Definition test_public (s : suite) (k : bytes) : option bytes :=
  if len k =? 32 then Some (match s with S_Ed25519 => k | _ => 2 :: k end) else None.
Definition test_sign (k m : bytes) : bytes := real_hash (s2b "0G") (k ++ m).
Definition test_verify (s : suite) (pk sig m : bytes) : option bool :=
  if (len pk =? match s with S_Ed25519 => 32 | _ => 33 end) && (len sig =? 64)
  then Some (bytes_eqb sig (test_sign (match s with S_Ed25519 => pk | _ => drop 1 pk end) m)) else None.
Definition test_crypto : Crypto :=
  Build_Crypto real_hash (fun _ e => rep ((7 + e) mod 256) 32) test_public (fun s _ k m => match test_public s k with Some _ => Some (test_sign k m) | None => None end)
    test_verify (fun pwd salt _ _ n => if 8 <=? len salt then Some (take n (real_hash (s2b "0G") (salt ++ pwd))) else None) (fun e => rep (e mod 256) 16).
