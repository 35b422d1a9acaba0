(** A second toy instance for examples, whose digest depends on every character. *)
From Verif Require Import Base StdStr Crypto PrimsDefs.

Definition sum_hash (code ser : bytes) : bytes := rep (fold_left N.add ser 0 mod 256) (if len code =? 1 then 32 else 64).
Definition sum_crypto : Crypto := Build_Crypto sum_hash (fun _ e => rep (e mod 256) 32) (fun _ k => Some k) (fun _ _ k m => Some (k ++ rep (len m mod 256) 32))
  (fun _ k s m => Some (bytes_eqb s (k ++ rep (len m mod 256) 32))) (fun _ _ _ _ n => Some (rep 9 n)) (fun e => rep (e mod 256) 16).
