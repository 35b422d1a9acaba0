(** Model of /repo/src/core/sadder.rs, and of the constructors of
    /repo/src/core/serder.rs and /repo/src/core/creder.rs.

    A type that implements [Sadder] stores its fields; the record is the state.
    Methods that take [&mut self] return the state they leave behind together with
    their outcome (the state after a panic is meaningless). *)
From Verif Require Import Base Utf8 MatterTables Matter StdStr Data Json Crypto Prims Common Saider Tholder.

(** serder.rs:17-26, creder.rs:10-20: the fields of Serder and Creder *)
Record sadder := Sdr { sd_code : bytes; sd_raw : bytes; sd_ked : data; sd_ident : bytes; sd_kind : bytes; sd_size : N; sd_version : version; sd_saider : matter }.
Definition set_code (s : sadder) (c : bytes) : sadder := Sdr c (sd_raw s) (sd_ked s) (sd_ident s) (sd_kind s) (sd_size s) (sd_version s) (sd_saider s).
Definition set_saider (s : sadder) (x : matter) : sadder := Sdr (sd_code s) (sd_raw s) (sd_ked s) (sd_ident s) (sd_kind s) (sd_size s) (sd_version s) x.

Section Sadder.
Context `{Profile} `{Crypto} `{Floats}.

(** sadder.rs:27-46 *)
Definition inhale (raw : bytes) : outcome (data * vparts) :=
  result <- sniff raw ;;
  if negb (version_eqb (vp_version result) current_version) then Err E_Value
  else ked <- loads raw (Some (vp_size result)) (Some (vp_kind result)) ;; Ok (ked, result).
(** sadder.rs:48-57 *)
Definition exhale (ked : data) (kind : option bytes) : outcome sizeified := sizeify ked kind.

(** sadder.rs:109-127, 139-157, 169-187: the common end of the populate methods *)
Definition populate_said (self : sadder) (ked : data) : sadder * outcome unit :=
  match (v <- vget ked (s2b "d") ;; t <- to_string v ;; saider_new None None None None None None None (Some t) None) with
  | Ok saider => let self := set_saider self saider in
                 (self, if bytes_eqb (sd_code self) (m_code saider) then Ok tt else Err E_Validation)
  | Err e => (self, Err e)
  | Panic => (self, Panic)
  end.
(** sadder.rs:100-128 *)
Definition populate_from_raw (self : sadder) (raw : bytes) : sadder * outcome unit :=
  match inhale raw with
  | Ok (ked, r) =>
    match slice raw 0 (vp_size r) with
    | Ok part => populate_said (Sdr (sd_code self) part ked (vp_ident r) (vp_kind r) (vp_size r) (vp_version r) (sd_saider self)) ked
    | Err e => (self, Err e)
    | Panic => (self, Panic)
    end
  | Err e => (self, Err e)
  | Panic => (self, Panic)
  end.
(** sadder.rs:130-158 *)
Definition populate_from_ked (self : sadder) (ked : data) (kind : option bytes) : sadder * outcome unit :=
  match exhale ked kind with
  | Ok r => populate_said (Sdr (sd_code self) (sz_raw r) (sz_ked r) (sz_ident r) (sz_kind r) (as_u32 (len (sz_raw r))) (sz_version r) (sd_saider self)) (sz_ked r)
  | Err e => (self, Err e)
  | Panic => (self, Panic)
  end.
(** sadder.rs:160-188 *)
Definition populate_from_kind_and_self (self : sadder) (kind : bytes) : sadder * outcome unit := populate_from_ked self (sd_ked self) (Some kind).

(** serder.rs:195-208, creder.rs:90-103; saider.rs:14-18 *)
Definition sadder_default (ident : bytes) : sadder := Sdr (s2b "E") [] (VObj []) ident (s2b "JSON") 0 current_version (Mat (s2b "E") 0 []).
Definition done (r : sadder * outcome unit) : outcome sadder := _ <- snd r ;; Ok (fst r).
(** sadder.rs:78-98 *)
Definition sadder_new (ident : bytes) (code raw kind : option bytes) (ked : option data) (sad : option sadder) : outcome sadder :=
  let s := set_code (sadder_default ident) (unwrap_or code (s2b "E")) in
  match raw, ked, sad with
  | Some raw, _, _ => done (populate_from_raw s raw)
  | None, Some ked, _ => done (populate_from_ked s ked kind)
  | None, None, Some sad => Ok sad
  | None, None, None => Err E_Value
  end.
(** serder.rs:28-50 *)
Definition serder_new (code raw kind : option bytes) (ked : option data) (sad : option sadder) : outcome sadder :=
  s <- sadder_new (s2b "KERI") (Some (unwrap_or code (s2b "E"))) raw kind ked sad ;;
  if bytes_eqb (sd_ident s) (s2b "KERI") then Ok s else Err E_Validation.
(** creder.rs:22-44 *)
Definition creder_new (code raw kind : option bytes) (ked : option data) (sad : option sadder) : outcome sadder :=
  s <- sadder_new (s2b "ACDC") (Some (unwrap_or code (s2b "E"))) raw kind ked sad ;;
  if bytes_eqb (sd_ident s) (s2b "ACDC") then Ok s else Err E_Value.
(** sadder.rs:190-196 *)
Definition sadder_said (s : sadder) : outcome bytes := matter_qb64 (sd_saider s).
Definition sadder_saidb (s : sadder) : outcome bytes := matter_qb64b (sd_saider s).

(** creder.rs:57-87 *)
Definition creder_issuer (s : sadder) : outcome bytes := v <- vget (sd_ked s) (s2b "i") ;; to_string v.
Definition creder_schema (s : sadder) : outcome bytes := v <- vget (sd_ked s) (s2b "s") ;; to_string v.
Definition creder_subject (s : sadder) : outcome data := vget (sd_ked s) (s2b "a").
Definition creder_status (s : sadder) : outcome (option bytes) :=
  m <- to_map (sd_ked s) ;; if contains_key (s2b "ri") m then v <- vget (VObj m) (s2b "ri") ;; t <- to_string v ;; Ok (Some t) else Ok None.
Definition creder_chains (s : sadder) : outcome data :=
  m <- to_map (sd_ked s) ;; if contains_key (s2b "e") m then vget (VObj m) (s2b "e") else Ok (VObj []).

(** serder.rs:59-105: keys, next key digests, witnesses *)
Definition verfer_of_value (v : data) : outcome matter := t <- to_string v ;; verfer_new None None None (Some t) None.
Definition diger_of_value (v : data) : outcome matter := t <- to_string v ;; diger_new None None None None (Some t) None.
Definition serder_verfers (s : sadder) : outcome (list matter) :=
  m <- to_map (sd_ked s) ;;
  if contains_key (s2b "k") m then
    v <- vget (sd_ked s) (s2b "k") ;; match to_vec v with Ok l => each verfer_of_value l | _ => Ok [] end
  else Ok [].
Definition serder_digers (s : sadder) : outcome (list matter) :=
  m <- to_map (sd_ked s) ;;
  if contains_key (s2b "n") m then
    v <- vget (sd_ked s) (s2b "n") ;; match to_vec v with Ok l => each diger_of_value l | _ => Ok [] end
  else Ok [].
Definition serder_werfers (s : sadder) : outcome (list matter) :=
  m <- to_map (sd_ked s) ;;
  if contains_key (s2b "b") m then v <- vget (sd_ked s) (s2b "b") ;; l <- to_vec v ;; each verfer_of_value l
  else Ok [].
(** serder.rs:107-131: signing thresholds *)
Definition threshold_at (s : sadder) (label : bytes) : outcome (option tholder) :=
  m <- to_map (sd_ked s) ;;
  if contains_key label m then v <- vget (sd_ked s) label ;; t <- tholder_new None None (Some v) ;; Ok (Some t) else Ok None.
Definition serder_tholder (s : sadder) : outcome (option tholder) := threshold_at s (s2b "kt").
Definition serder_ntholder (s : sadder) : outcome (option tholder) := threshold_at s (s2b "nt").
(** serder.rs:133-141: the sequence number, from hexadecimal *)
Definition serder_sner (s : sadder) : outcome matter :=
  v <- vget (sd_ked s) (s2b "s") ;; t <- to_string v ;; number_new None (Some t) None None None None None.
Definition serder_sn (s : sadder) : outcome N := n <- serder_sner s ;; number_num n.
(** serder.rs:143-172: the first seen number, from qb64 *)
Definition serder_fner (s : sadder) : outcome (option matter) :=
  m <- to_map (sd_ked s) ;;
  if contains_key (s2b "f") m then v <- vget (sd_ked s) (s2b "f") ;; t <- to_string v ;; n <- number_new None None None None None (Some t) None ;; Ok (Some n)
  else Ok None.
Definition serder_fn (s : sadder) : outcome N := n <- serder_fner s ;; match n with Some n => number_num n | None => Err E_Validation end.
(** serder.rs:174-192 *)
Definition serder_pre (s : sadder) : outcome bytes := v <- vget (sd_ked s) (s2b "i") ;; to_string v.
Definition serder_est (s : sadder) : outcome bool :=
  v <- vget (sd_ked s) (s2b "t") ;; ilk <- to_string v ;; Ok (mem_code ilk [s2b "icp"; s2b "rot"; s2b "dip"; s2b "drt"]).
End Sadder.
