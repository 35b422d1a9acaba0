(** Model of the [Default] implementations of the types.  Those of Verfer, of
    Serder and Creder and of Tholder are [verfer_default] (Prims.v),
    [sadder_default] (Sadder.v) and [tholder_default] (Tholder.v). *)
From Verif Require Import Base MatterTables Matter Counter Indexer Crypto Prims Signer.

(** diger.rs:32-36, saider.rs:14-18, prefixer.rs:20-24 *)
Definition diger_default : matter := Mat (s2b "E") 0 [].
Definition saider_default : matter := Mat (s2b "E") 0 [].
Definition prefixer_default : matter := Mat (s2b "E") 0 [].
(** number.rs:29-33 *)
Definition number_default : matter := Mat (s2b "M") 0 [].
(** seqner.rs:11-15 *)
Definition seqner_default : matter := Mat (s2b "0A") 0 [].
(** dater.rs:11-15 *)
Definition dater_default : matter := Mat (s2b "1AAG") 0 [].
(** bexter.rs:38-42, pather.rs:24-28 *)
Definition bexter_default : matter := Mat (s2b "4A") 0 [].
Definition pather_default : matter := Mat (s2b "4A") 0 [].
(** cigar.rs:13-22 *)
Definition cigar_default : cigar := Cig (Mat (s2b "0B") 0 []) verfer_default.
(** siger.rs:14-24 *)
Definition siger_default : siger := Sg (Idx (s2b "A") [] 0 0) verfer_default.
(** signer.rs:48-57 *)
Definition signer_default : signer := Sgn (Mat (s2b "A") 0 []) verfer_default.
(** salter.rs:150-159 *)
Definition salter_default : salter := Slt (Mat (s2b "0A") 0 []) (s2b "low").
(** counter/mod.rs:311-315 *)
Definition counter_default : counter := Ctr [] 0.
