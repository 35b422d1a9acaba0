(** Definitions used only to state the properties of objects assembled with the setters, and of defaults. *)
From Verif Require Import Base MatterTables Matter Spec MatterDefs Prims PrimsDefs Sadder Defaults.

(** Base64-URL of any bytes: completed with zero bytes to a multiple of three, as many last characters replaced by '=' *)
Definition b64_padded (bs : bytes) : bytes := let k := pad_to_3 (len bs) in let t := b64_of (bs ++ rep 0 k) in take (len t - k) t ++ rep 61 k.
(** the default objects of the types with a fixed size, but that of Dater *)
Definition empty_defaults : list matter :=
  [verfer_default; diger_default; saider_default; prefixer_default; number_default; seqner_default; cg_matter cigar_default; Signer.sn_matter signer_default; Signer.sl_matter salter_default].
