(** Definitions used only to state the properties of the WebAssembly bindings. *)
From Verif Require Import Base Matter Crypto Prims Data Json DataDefs Saider Tholder Sadder Prefixer Wasm.

(** the two 64 bit halves of a number *)
Definition halves (u : u128) (n : N) : Prop := low u < 2 ^ 64 /\ high u < 2 ^ 64 /\ n = high u * 2 ^ 64 + low u.
(** an array of names: what is not a string counts as the empty name *)
Definition names (a : option (list (option bytes))) (l : option (list bytes)) : Prop :=
  match a, l with
  | None, None => True
  | Some a, Some l => Forall2 (fun v n => v = Some n \/ v = None /\ n = []) a l
  | _, _ => False
  end.
(** a Serder that JavaScript can hold: made by the constructor, from material or from another such Serder *)
Inductive js_serder (P : Profile) (C : Crypto) (F : Floats) : sadder -> Prop :=
| js_serder_made code raw kind ked sad s : (forall x, sad = Some x -> js_serder P C F x) -> js_serder_new code raw kind ked sad = Ok s -> js_serder P C F s.
(** the secp256r1 codes *)
Definition r1_codes : list bytes := [s2b "Q"; s2b "0I"; s2b "1AAI"; s2b "1AAJ"].
Definition r1_indexer_codes : list bytes := [s2b "E"; s2b "F"; s2b "2E"; s2b "2F"].
