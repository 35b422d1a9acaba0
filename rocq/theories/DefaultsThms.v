(** Property C76: accessors of objects assembled with the setters, and defaults. *)
From Verif Require Import Base Utf8 MatterTables Matter StdStr Data Json Spec MatterDefs Counter Indexer Crypto Prims PrimsDefs Signer SignerDefs Common Saider Tholder Sadder Pather Pretty Prefixer Defaults DefaultsDefs.
From Verif Require Import B64 Util BaseFacts B64Facts UtilFacts MatterFacts MatterFacts2 MatterFacts3 SpecFacts MatterFacts4 StdStrFacts MatterThms PrimsFacts PrimsFacts2 PrimsThms AssembleThms.


Lemma from_be_value l : from_be l = value 256 l.
Proof. rewrite value_val_eq. reflexivity. Qed.
Lemma value_lt l : bytes_ok l = true -> value 256 l < 256 ^ len l.
Proof. intros B. rewrite value_val_eq. apply val_lt; [reflexivity|]. apply bytes_ok_Forall. exact B. Qed.
Lemma sextets_pad : forall l, sextets l = take (len (sextets (l ++ rep 0 (pad_to_3 (len l)))) - pad_to_3 (len l)) (sextets (l ++ rep 0 (pad_to_3 (len l)))).
Proof.
  intros l. induction l as [| a | a b | a b c r IH] using list_ind3.
  - reflexivity.
  - change (pad_to_3 (len [a])) with 2. cbn [rep app]. change (rep 0 2) with [0; 0]. cbn [app sextets]. change (take _ _) with [a / 4; a mod 4 * 16 + 0 / 16]. rewrite N.add_0_r. reflexivity.
  - change (pad_to_3 (len [a; b])) with 1. change (rep 0 1) with [0]. cbn [app sextets]. change (take _ _) with [a / 4; a mod 4 * 16 + b / 16; b mod 16 * 4 + 0 / 64]. rewrite N.add_0_r. reflexivity.
  - assert (E : pad_to_3 (len (a :: b :: c :: r)) = pad_to_3 (len r)). { rewrite !len_cons. unfold pad_to_3. lia. }
    rewrite E. cbn [app sextets]. set (k := pad_to_3 (len r)) in *. set (t := sextets (r ++ rep 0 k)).
    assert (L : k <= len t). { unfold t. rewrite len_sextets. rewrite len_app, len_rep. unfold k, pad_to_3. lia. }
    rewrite IH at 1. fold k. fold t. rewrite !len_cons.
    replace (1 + (1 + (1 + (1 + len t))) - k) with (4 + (len t - k)) by lia. unfold take. rewrite N2Nat.inj_add. reflexivity.
Qed.
Lemma encode_padded bs : bytes_ok bs = true -> b64_encode bs = b64_padded bs.
Proof.
  intros B. unfold b64_padded. cbv zeta. set (k := pad_to_3 (len bs)).
  assert (M3 : len (bs ++ rep 0 k) mod 3 = 0) by (rewrite len_app, len_rep; unfold k, pad_to_3; lia).
  rewrite b64_of_encode by (auto; rewrite bytes_ok_app, B; apply bytes_ok_rep0).
  rewrite (b64_encode_full _ M3). unfold b64_encode. rewrite len_map, (sextets_pad bs). fold k. f_equal. unfold take. symmetry. apply firstn_map.
Qed.
Lemma shown_map t : dts_shown t = b64_to_iso_8601 t.
Proof. rewrite b64_iso_map. reflexivity. Qed.

Lemma b64_encode_ascii_drop k bs : bytes_ok bs = true -> ascii_ok (drop k (b64_encode bs)) = true.
Proof. intros B. apply forallb_drop. apply b64_encode_ascii. exact B. Qed.
Lemma soft_ascii z size : ascii_ok (soft_of z size) = true.
Proof. apply all_b64_ascii. unfold soft_of. apply all_b64_chr, digits_lt. lia. Qed.
Section P.
Context `{P : Profile}.
Lemma qb64_starts m z q : get_sizage (m_code m) = Ok z -> bytes_ok (m_raw m) = true -> matter_qb64 m = Ok q -> ascii_ok q = true /\ hs z = len (m_code m) /\ hs z <= len q.
Proof.
  intros Hz B H. pose proof (get_sizage_zfacts _ _ Hz) as Z. destruct m as [c size raw]. cbn [m_code m_raw] in *.
  assert (Bc : ascii_ok c = true) by (apply all_b64_ascii; exact (zf_b64 _ _ Z)).
  pose proof (zf_len _ _ Z) as L. unfold matter_qb64 in H. destruct (variable z) eqn:V.
  - rewrite (infil_var c z) in H by auto. destruct (64 ^ ss z <=? size); [discriminate|]. destruct (pad_to_3 (len raw) =? ls z); [|discriminate]. apply Ok_inj in H. subst q.
    split; [|split; [auto|rewrite len_app; lia]]. rewrite !ascii_ok_app, Bc, soft_ascii, b64_encode_ascii; auto. rewrite bytes_ok_app, B, bytes_ok_rep0. reflexivity.
  - rewrite (infil_fixed c z) in H by auto. cbv zeta in H. destruct (pad_to_3 (len raw) =? cs_of z mod 4 + ls z); [|destruct (overflow_checks && _)%bool; discriminate]. apply Ok_inj in H. subst q.
    split; [|split; [auto|rewrite len_app; lia]]. rewrite !ascii_ok_app, Bc, b64_encode_ascii_drop; auto. rewrite bytes_ok_app, B, bytes_ok_rep0. reflexivity.
Qed.
End P.

(** C76: the sequence number of a Seqner with any fields: its first sixteen raw bytes, whatever its code and size; with fewer it panics *)
Lemma C76_seqner_pf : forall (m : matter),
  (len (m_raw m) < 16 -> seqner_sn m = Panic /\ seqner_snh m = Panic) /\
  (16 <= len (m_raw m) -> seqner_sn m = Ok (value 256 (take 16 (m_raw m))) /\
     exists h, seqner_snh m = Ok h /\ hex_canonical h /\ (bytes_ok (m_raw m) = true -> hex_input h (value 256 (take 16 (m_raw m))))).
Proof.
  intros m. unfold seqner_snh, seqner_sn, slice. split; intros L.
  - replace ((0 <=? 16) && (16 <=? len (m_raw m)))%bool with false by (symmetry; apply andb_false_iff; right; apply N.leb_gt; exact L). auto.
  - replace ((0 <=? 16) && (16 <=? len (m_raw m)))%bool with true by (symmetry; apply andb_true_iff; split; [reflexivity|apply N.leb_le; exact L]).
    cbn [obind]. rewrite drop_0, N.sub_0_r. rewrite from_be_value.
    split; [reflexivity|]. eexists. split; [reflexivity|]. split; [apply to_hex_canonical|]. intros B. apply to_hex_input.
    eapply N.lt_le_trans; [apply value_lt, bytes_ok_take, B|]. rewrite len_take. replace (N.min 16 (len (m_raw m))) with 16 by lia. apply N.leb_le. reflexivity.
Qed.
(** C76: the number of a Number with any fields: the raw bytes, if they are as many as its code says; a panic if not; an error for another code *)
Lemma C76_number_pf : forall (m : matter),
  (forall w, In (m_code m, w) number_widths -> len (m_raw m) = w -> number_num m = Ok (value 256 (m_raw m)) /\ number_positive m = Ok (0 <? value 256 (m_raw m)) /\
     exists h, number_numh m = Ok h /\ hex_canonical h /\ (bytes_ok (m_raw m) = true -> hex_input h (value 256 (m_raw m)))) /\
  (forall w, In (m_code m, w) number_widths -> len (m_raw m) <> w -> number_num m = Panic /\ number_positive m = Panic /\ number_numh m = Panic) /\
  (~ In (m_code m) (map fst number_widths) -> number_num m = Err E_UnexpectedCode /\ number_positive m = Err E_UnexpectedCode /\ number_numh m = Err E_UnexpectedCode).
Proof.
  intros m. split; [|split].
  - intros w I L. unfold number_positive, number_numh. rewrite (number_num_width m w I), L, N.eqb_refl. cbn [obind]. rewrite from_be_value. split; [reflexivity|]. split; [reflexivity|].
    eexists. split; [reflexivity|]. split; [apply to_hex_canonical|]. intros B. apply to_hex_input. eapply N.lt_le_trans; [apply value_lt, B|]. rewrite L.
    assert (Hw : w <= 16) by (clear - I; unfold number_widths in I; cbn [In] in I; decompose [or] I; try contradiction; match goal with E : _ = (_, w) |- _ => injection E as _ E; subst w end; apply N.leb_le; reflexivity).
    change (2 ^ 128) with (256 ^ 16). apply N.pow_le_mono_r; [discriminate|exact Hw].
  - intros w I L. unfold number_positive, number_numh. rewrite (number_num_width m w I). replace (len (m_raw m) =? w) with false by (symmetry; apply N.eqb_neq; exact L). auto.
  - intros I. unfold number_positive, number_numh. rewrite (number_num_other m I). auto.
Qed.
(** C76: the date of a Dater with any fields is its text without the code, translated; it fails as the text does *)
Lemma C76_dater_pf : forall (P : Profile) (m : matter), bytes_ok (m_raw m) = true ->
  dater_dts m = match matter_qb64 m with Ok q => Ok (dts_shown (drop (len (m_code m)) q)) | Err e => Err e | Panic => Panic end.
Proof.
  intros P m B. unfold dater_dts. destruct (get_sizage (m_code m)) as [z|e|] eqn:Hz; cbn [obind].
  - destruct (matter_qb64 m) as [q| |] eqn:Q; cbn [obind]; try reflexivity. destruct (qb64_starts m z q Hz B Q) as (A & L & Lq).
    rewrite str_slice_ascii by (auto; lia). cbn [obind]. rewrite take_all by (rewrite len_drop; lia). rewrite shown_map, L. reflexivity.
  - unfold matter_qb64, matter_infil. rewrite Hz. reflexivity.
  - unfold matter_qb64, matter_infil. rewrite Hz. reflexivity.
Qed.
(** C76: the text of a Bexter or Pather with any raw bytes and any size: the raw bytes after the lead bytes in Base64-URL, without the
    characters the lead bytes make, or without one leading 'A' if there are none; '=' is shown if the bytes do not fill the last group *)
Lemma C76_bext_pf : forall (code raw : bytes) (lead type size : N), lead <= 2 -> In type var_types ->
  code = small_var_code lead type \/ code = large_var_code lead type -> bytes_ok raw = true ->
  let t := b64_padded (rep 0 lead ++ raw) in
  bext_of (Mat code size raw) = Ok (if lead =? 0 then match t with c :: r => if c =? 65 then r else t | [] => [] end else drop (lead + 1) t) /\
  pad_to_3 (len (rep 0 lead ++ raw)) = pad_to_3 (lead + len raw).
Proof.
  intros code raw lead type size Hl Ht Hc B t. split; [|rewrite len_app, len_rep; reflexivity].
  assert (Hz : exists z, get_sizage code = Ok z /\ ls z = lead).
  { assert (L3 : lead = 0 \/ lead = 1 \/ lead = 2) by (clear - Hl; lia). cbn [var_types s2b In] in Ht.
    destruct Hc as [-> | ->]; destruct L3 as [->|[->| ->]]; vm_compute in Ht; destruct Ht as [<-|[<-|[]]]; eexists; (split; [vm_compute; reflexivity|reflexivity]). }
  destruct Hz as (z & Hz & El). rewrite (bext_of_eq _ z) by auto. cbv zeta. cbn [m_raw]. rewrite El.
  assert (Bb : bytes_ok (rep 0 lead ++ raw) = true) by (rewrite bytes_ok_app, B, bytes_ok_rep0; reflexivity).
  rewrite encode_padded by exact Bb. fold t. destruct (N.eqb_spec lead 0) as [E|E].
  - destruct t as [|c r] eqn:Et; [reflexivity|]. destruct (c =? 65); [|reflexivity]. rewrite len_cons. replace (1 <=? 1 + len r) with true by lia. reflexivity.
  - replace ((lead + 1) mod 4) with (lead + 1) by (clear - Hl E; lia).
    assert (L : lead + 1 <= len t). { unfold t. rewrite <- encode_padded by exact Bb. rewrite len_b64_encode, len_app, len_rep. clear - Hl E. lia. }
    replace (lead + 1 <=? len t) with true by lia. reflexivity.
Qed.

Lemma C76_accessors_ex_pf : forall P : Profile,
  seqner_sn (Mat (s2b "4A") 7 (rep 0 15 ++ [5; 9; 9])) = Ok 5 /\ seqner_snh (Mat (s2b "0A") 0 [1; 2; 3]) = Panic /\
  number_num (Mat (s2b "0H") 0 [0; 0; 1; 2]) = Ok 258 /\ number_numh (Mat (s2b "0H") 0 [0; 0; 1; 2]) = Ok (s2b "102") /\ number_num (Mat (s2b "0H") 0 [1; 2]) = Panic /\ number_num (Mat (s2b "E") 0 (rep 0 32)) = Err E_UnexpectedCode /\
  dater_dts (Mat (s2b "1AAG") 0 [1; 2; 115]) = Ok (s2b "AQJz") /\ dater_dts (Mat (s2b "1AAG") 0 [113; 215; 41]) = Ok (s2b ":.:+") /\ dater_dts (Mat (s2b "1AAG") 0 [1]) = Err E_InvalidCodeSize /\
  bext_of (Mat (s2b "4A") 9 [0; 16; 131; 255]) = Ok (s2b "BCD_w==") /\ bext_of (Mat (s2b "5A") 0 [255]) = Ok (s2b "8=") /\ bext_of (Mat (s2b "6A") 0 []) = Ok (s2b "=").
Proof. intros P. destruct P; vm_compute; repeat split. Qed.

(** C76: a digest with any fields: a check compares all its raw bytes with the digest of the data; for a code that is not a digest it is an error *)
Lemma C76_digest_pf : forall (C : Crypto) (m : matter) (ser : bytes),
  (In (m_code m) (map fst digest_sizes) -> exists b, diger_verify m ser = Ok b /\ (b = true <-> m_raw m = x_hash (m_code m) ser)) /\
  (~ In (m_code m) (map fst digest_sizes) -> diger_verify m ser = Err E_UnexpectedCode) /\
  (forall n, hash_contract C -> In (m_code m, n) digest_sizes -> len (m_raw m) <> n -> diger_verify m ser = Ok false).
Proof.
  intros C m ser. assert (IC : forall c, In c (map fst digest_sizes) <-> In c digest_codes) by (apply mem_iff; vm_compute; reflexivity).
  unfold diger_verify, digest. split; [|split].
  - intros I. apply IC, mem_code_In in I. rewrite I. cbn [obind]. eexists. split; [reflexivity|]. rewrite bytes_eqb_eq. split; auto.
  - intros I. destruct (mem_code (m_code m) digest_codes) eqn:E; [|reflexivity]. apply mem_code_In, IC in E. contradiction.
  - intros n K I L. assert (J : mem_code (m_code m) digest_codes = true) by (apply mem_code_In, IC; apply (in_map fst) in I; exact I). rewrite J. cbn [obind]. f_equal.
    destruct (bytes_eqb _ _) eqn:E; [|reflexivity]. apply bytes_eqb_eq in E. destruct (K _ _ ser I) as [Hn _]. exfalso. apply L. rewrite <- E. exact Hn.
Qed.
(** C76: a signature made without a key holds an empty key: its text and binary are errors, and checking any signature of any message under it is an error, never an answer *)
Lemma C76_no_key_pf : forall (P : Profile) (C : Crypto) (index ondex : option N) (code raw qb64b qb64 qb2 : option bytes) (k : matter),
  ((exists c, cigar_new None code raw qb64b qb64 qb2 = Ok c /\ k = cg_verfer c) \/ (exists s, siger_new None index ondex code raw qb64b qb64 qb2 = Ok s /\ k = sg_verfer s)) ->
  (forall sig ser, verfer_verify k sig ser = Err E_Crypto) /\ matter_qb64 k = Err E_InvalidCodeSize /\ matter_qb64b k = Err E_InvalidCodeSize /\ matter_qb2 k = Err E_InvalidCodeSize.
Proof.
  intros P C index ondex code raw qb64b qb64 qb2 k H. assert (E : k = verfer_default).
  { destruct H as [(c & H & ->)|(s & H & ->)].
    - unfold cigar_new in H. inv_bind H m Em. inv_bind H u Eu. apply Ok_inj in H. subst c. reflexivity.
    - unfold siger_new in H. inv_bind H m Em. inv_bind H u Eu. apply Ok_inj in H. subst s. reflexivity. }
  subst k. split; [intros sig ser; reflexivity|]. destruct P; vm_compute; auto.
Qed.
Lemma C76_no_key_ex_pf : forall P : Profile, exists c s, cigar_new None (Some (s2b "0B")) (Some (rep 3 64)) None None None = Ok c /\ siger_new None (Some 1) None (Some (s2b "A")) (Some (rep 3 64)) None None None = Ok s /\
  cg_matter c = Mat (s2b "0B") 0 (rep 3 64) /\ sg_indexer s = Idx (s2b "A") (rep 3 64) 1 1.
Proof. intros P. exists (Cig (Mat (s2b "0B") 0 (rep 3 64)) verfer_default), (Sg (Idx (s2b "A") (rep 3 64) 1 1) verfer_default). destruct P; vm_compute; auto. Qed.
(** C76: a key with any fields: checking a signature is an error for a code that is not a key, and for an Ed25519 key or signature of another length; it never panics *)
Lemma C76_key_pf : forall (P : Profile) (C : Crypto) (k : matter) (sig ser : bytes),
  verfer_verify k sig ser <> Panic /\
  (~ In (m_code k) key_codes -> verfer_verify k sig ser = Err E_UnexpectedCode) /\
  (In (m_code k) [s2b "B"; s2b "D"] -> len (m_raw k) <> 32 \/ len sig <> 64 -> verfer_verify k sig ser = Err E_Crypto).
Proof.
  intros P C k sig ser. assert (IC : forall c, In c key_codes <-> In c verfer_codes) by (apply mem_iff; vm_compute; reflexivity). unfold verfer_verify. split; [|split].
  - unfold validate. destruct (mem_code _ _); cbn [obind]; [|intros Z; discriminate Z]. unfold sign_verify, opt.
    destruct (suite_of _) as [[| |]|]; [destruct (_ && _)%bool; [destruct (x_verify _ _ _ _)|]|destruct (x_verify _ _ _ _)|destruct (x_verify _ _ _ _)|]; intros Z; discriminate Z.
  - intros I. rewrite validate_no; [reflexivity|]. intros J. apply I, IC, J.
  - intros I L. assert (W : suite_of (m_code k) = Some S_Ed25519 /\ In (m_code k) verfer_codes) by (destruct I as [<-|[<-|[]]]; vm_compute; auto). destruct W as [Es Iv].
    rewrite validate_yes by exact Iv. cbn [obind]. unfold sign_verify. rewrite Es. replace ((len (m_raw k) =? 32) && (len sig =? 64))%bool with false; [reflexivity|].
    symmetry. apply andb_false_iff. destruct L as [L|L]; [left|right]; apply N.eqb_neq; exact L.
Qed.
Lemma C76_key_ex_pf : forall P : Profile, verfer_verify (H := toy_crypto) (Mat (s2b "D") 0 (rep 1 31)) (rep 3 64) [] = Err E_Crypto /\ verfer_verify (H := toy_crypto) (Mat (s2b "E") 0 (rep 1 32)) (rep 3 64) [] = Err E_UnexpectedCode /\
  verfer_verify (H := toy_crypto) (Mat (s2b "D") 5 (rep 1 32)) (rep 1 32 ++ rep 0 32) [] = Ok true /\ diger_verify (H := toy_crypto) (Mat (s2b "E") 0 (rep 2 32)) [1; 1] = Ok true /\ diger_verify (H := toy_crypto) (Mat (s2b "E") 0 []) [1; 1] = Ok false.
Proof. intros P. vm_compute. auto. Qed.
(** C76: a Signer with any fields: it cannot sign with a code that is not a seed, nor with an Ed25519 seed of another length than 32 *)
Lemma C76_signer_pf : forall (P : Profile) (C : Crypto) (s : signer) (entropy index : N) (ondex : option N) (only : bool) (ser : bytes),
  (~ In (m_code (sn_matter s)) (map su_seed suites) -> sign_unindexed s entropy ser = Err E_UnexpectedCode /\ sign_indexed s entropy ser only index ondex = Err E_UnexpectedCode) /\
  (m_code (sn_matter s) = s2b "A" -> len (m_raw (sn_matter s)) <> 32 -> sign_unindexed s entropy ser = Err E_Crypto /\ sign_indexed s entropy ser only index ondex = Err E_Crypto).
Proof.
  intros P C [[c size raw] v] entropy index ondex only ser. cbn [sn_matter m_code m_raw]. unfold sign_unindexed, sign_indexed, pick3. cbn [sn_matter m_code m_raw]. split.
  - intros I. assert (W : bytes_eqb c (s2b "A") = false /\ bytes_eqb c (s2b "J") = false /\ bytes_eqb c (s2b "Q") = false).
    { split; [|split]; (destruct (bytes_eqb c _) eqn:E; [|reflexivity]; apply bytes_eqb_eq in E; exfalso; apply I; subst c; vm_compute; auto). }
    destruct W as (-> & -> & ->). cbn [obind]. destruct only, (index <? 64), (index =? unwrap_or ondex index); cbn [andb obind]; auto.
  - intros -> L. change (bytes_eqb (s2b "A") (s2b "A")) with true. cbv iota. cbn [obind]. unfold sign_sign. change (suite_of (s2b "A")) with (Some S_Ed25519). cbv iota.
    replace (len raw =? 32) with false by (symmetry; apply N.eqb_neq; exact L). cbn [obind].
    destruct only, (index <? 64), (index =? unwrap_or ondex index); cbn [andb obind]; auto.
Qed.
(** C76: the default objects of the types of fixed size hold no raw bytes: each of the encoders gives an error, but a default Dater has a text without a date; a default Signer cannot sign, a default Diger verifies nothing;
    the default Number and Seqner panic when asked for their number; the default Counter has no known code *)
Lemma C76_defaults_pf : forall (P : Profile) (C : Crypto),
  Forall (fun m => m_raw m = [] /\ m_size m = 0 /\ table_code (m_code m) /\ matter_qb64 m = Err E_InvalidCodeSize /\ matter_qb64b m = Err E_InvalidCodeSize /\ matter_qb2 m = Err E_InvalidCodeSize) empty_defaults /\
  indexer_qb64 (sg_indexer siger_default) = Err E_InvalidCodeSize /\ indexer_qb2 (sg_indexer siger_default) = Err E_InvalidCodeSize /\
  number_num number_default = Panic /\ seqner_sn seqner_default = Panic /\ matter_qb64 dater_default = Ok (s2b "1AAG") /\ dater_dts dater_default = Ok [] /\ matter_qb2 dater_default = Err E_InvalidCodeSize /\
  counter_qb64 counter_default = Err E_UnknownSizage /\ counter_qb2 counter_default = Err E_UnknownSizage /\ counter_full_size counter_default = Err E_UnknownSizage /\
  (hash_contract C -> forall ser, diger_verify diger_default ser = Ok false) /\
  (forall entropy ser, sign_unindexed signer_default entropy ser = Err E_Crypto) /\
  (forall sig ser, verfer_verify (sn_verfer signer_default) sig ser = Err E_Crypto).
Proof.
  intros P C. split.
  { assert (F : forallb (fun m => match m_raw m with [] => true | _ => false end && (m_size m =? 0) && mem_code (m_code m) (map fst fixed_codes) && match matter_qb64 m, matter_qb64b m, matter_qb2 m with Err E_InvalidCodeSize, Err E_InvalidCodeSize, Err E_InvalidCodeSize => true | _, _, _ => false end)%bool empty_defaults = true) by (destruct P; vm_compute; reflexivity).
    apply Forall_forall. intros m I. eapply forallb_forall in F; [|exact I]. splitb F. destruct (m_raw m); [|discriminate]. split; [reflexivity|]. split; [apply N.eqb_eq; assumption|]. split; [left; apply mem_code_In; assumption|].
    destruct (matter_qb64 m) as [|[]|]; try discriminate. destruct (matter_qb64b m) as [|[]|]; try discriminate. destruct (matter_qb2 m) as [|[]|]; try discriminate. auto. }
  assert (W : indexer_qb64 (sg_indexer siger_default) = Err E_InvalidCodeSize /\ indexer_qb2 (sg_indexer siger_default) = Err E_InvalidCodeSize /\
  number_num number_default = Panic /\ seqner_sn seqner_default = Panic /\ matter_qb64 dater_default = Ok (s2b "1AAG") /\ dater_dts dater_default = Ok [] /\ matter_qb2 dater_default = Err E_InvalidCodeSize /\
  counter_qb64 counter_default = Err E_UnknownSizage /\ counter_qb2 counter_default = Err E_UnknownSizage /\ counter_full_size counter_default = Err E_UnknownSizage) by (destruct P; vm_compute; repeat split).
  destruct W as (W1 & W2 & W3 & W4 & W5 & W6 & W7 & W8 & W9 & W10). repeat (split; [assumption|]). split; [|split].
  - intros K ser. apply (C76_digest_pf C diger_default ser) with (n := 32); [exact K|vm_compute; tauto|discriminate].
  - intros e ser. apply (C76_signer_pf P C signer_default e 0 None false ser); [reflexivity|discriminate].
  - reflexivity.
Qed.
(** C76: a default Bexter or Pather is the empty text *)
Lemma C76_empty_text_pf : forall (P : Profile), bexter_default = pather_default /\
  matter_qb64 bexter_default = Ok (s2b "4AAA") /\ matter_qb2 bexter_default = Ok [224; 0; 0] /\ bext_of bexter_default = Ok [] /\ bexter_of [] = Ok bexter_default /\
  parse_text (s2b "4AAA") = Ok bexter_default /\ pather_path pather_default = Err E_Value.
Proof. intros P. destruct P; vm_compute; repeat split. Qed.
(** C76: the default threshold shows one, yet it is met by no signatures at all, however many, and has no text *)
Lemma C76_threshold_pf : forall (P : Profile) (indices : list N),
  tholder_num tholder_default = Ok (Some 1) /\ tholder_sith tholder_default = Ok (VStr (s2b "1")) /\ th_size tholder_default = 1 /\
  satisfy tholder_default indices = Ok false /\ tholder_limen tholder_default = Err E_Value.
Proof. intros P indices. repeat split. Qed.
(** C76: a default Serder or Creder: an empty object with no bytes and no identifier; the accessors of optional entries answer that there are none,
    those of required entries panic *)
Lemma C76_message_pf : forall (P : Profile) (C : Crypto) (F : Floats) (ident : bytes), let s := sadder_default ident in
  sd_raw s = [] /\ sd_ked s = VObj [] /\ sd_ident s = ident /\ sd_kind s = s2b "JSON" /\ sd_size s = 0 /\ sd_version s = Ver 1 0 /\ sd_code s = s2b "E" /\
  sadder_said s = Err E_InvalidCodeSize /\ sadder_saidb s = Err E_InvalidCodeSize /\
  serder_verfers s = Ok [] /\ serder_digers s = Ok [] /\ serder_werfers s = Ok [] /\ serder_tholder s = Ok None /\ serder_ntholder s = Ok None /\ serder_fner s = Ok None /\ serder_fn s = Err E_Validation /\
  serder_sner s = Panic /\ serder_sn s = Panic /\ serder_pre s = Panic /\ serder_est s = Panic /\
  creder_status s = Ok None /\ creder_chains s = Ok (VObj []) /\ creder_issuer s = Panic /\ creder_schema s = Panic /\ creder_subject s = Panic /\
  sadder_pretty s None = Ok (s2b "{}").
Proof. intros P C F ident. destruct P; repeat split. Qed.
