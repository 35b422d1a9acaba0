(** Properties C26-C33 and C53: the typed primitives. *)
From Verif Require Import Base Utf8 Util MatterTables Matter IndexerTables Indexer StdStr Spec MatterDefs Crypto Prims PrimsDefs.
From Verif Require Import BaseFacts B64 B64Facts UtilFacts MatterFacts MatterFacts2 MatterFacts3 SpecFacts MatterFacts4 StdStrFacts MatterThms PrimsFacts PrimsFacts2.

(** C26: the digest codes are the ones reported as digestive; every code but the non-transferable
    keys is reported as transferable, and the code alone decides, so any parse of an encoding agrees *)
Lemma C26_code_classes_pf : forall (m : matter),
  (matter_digestive m = true <-> In (m_code m) (map fst digest_sizes)) /\
  (matter_transferable m = false <-> In (m_code m) (map s2b ["B"; "1AAA"; "1AAC"; "1AAI"]%string)).
Proof.
  intros m. split.
  - unfold matter_digestive. rewrite mem_code_In. unfold digestive_codes, digest_sizes. cbn [map app fst In]. tauto.
  - unfold matter_transferable. rewrite Bool.negb_false_iff, mem_code_In. reflexivity.
Qed.
Lemma C26_code_classes_ex_pf : matter_digestive (Mat (s2b "E") 0 (rep 0 32)) = true /\ matter_digestive (Mat (s2b "D") 0 (rep 0 32)) = false /\
  matter_transferable (Mat (s2b "D") 0 (rep 0 32)) = true /\ matter_transferable (Mat (s2b "B") 0 (rep 0 32)) = false.
Proof. vm_compute; auto. Qed.

(** C26: a Verfer is what the general constructor returns, if the code is a key code *)
Lemma C26_verfer_pf : forall (P : Profile) (code raw qb64b qb64 qb2 : option bytes),
  checked m_code key_codes (matter_new (Some (unwrap_or code (s2b "B"))) raw qb64b qb64 qb2) (verfer_new code raw qb64b qb64 qb2).
Proof. intros. apply checked_validate, mem_iff. vm_compute. reflexivity. Qed.
(** C26: a Cigar *)
Lemma C26_cigar_pf : forall (P : Profile) (verfer : option matter) (code raw qb64b qb64 qb2 : option bytes) (c : cigar),
  cigar_new verfer code raw qb64b qb64 qb2 = Ok c <->
  exists m, matter_new code raw qb64b qb64 qb2 = Ok m /\ In (m_code m) signature_codes /\ c = Cig m (unwrap_or verfer verfer_default).
Proof.
  intros. unfold cigar_new. assert (E : forall x, In x signature_codes <-> In x cigar_codes) by (apply mem_iff; vm_compute; reflexivity). split.
  - intros H. inv_bind H m Em. inv_bind H u Eu. destruct u. apply validate_ok in Eu. exists m. split; [auto|]. split; [apply E; auto|congruence].
  - intros [m [-> [I ->]]]. cbn [obind]. rewrite validate_yes by (apply E; auto). reflexivity.
Qed.
(** C26: a Siger *)
Lemma C26_siger_pf : forall (P : Profile) (verfer : option matter) (index ondex : option N) (code raw qb64b qb64 qb2 : option bytes) (s : siger),
  siger_new verfer index ondex code raw qb64b qb64 qb2 = Ok s <->
  exists x, indexer_new index ondex code raw qb64b qb64 qb2 = Ok x /\ In (x_code x) indexed_signature_codes /\ s = Sg x (unwrap_or verfer verfer_default).
Proof.
  intros. unfold siger_new. assert (E : forall x, In x indexed_signature_codes <-> In x siger_codes) by (apply mem_iff; vm_compute; reflexivity). split.
  - intros H. inv_bind H m Em. inv_bind H u Eu. destruct u. apply validate_ok in Eu. exists m. split; [auto|]. split; [apply E; auto|congruence].
  - intros [m [-> [I ->]]]. cbn [obind]. rewrite validate_yes by (apply E; auto). reflexivity.
Qed.
(** C26: a Diger: parsed or built as given if that works, otherwise the digest of
    the serialisation, always with a digest code *)
Lemma C26_diger_pf : forall (P : Profile) (C : Crypto) (ser code raw qb64b qb64 qb2 : option bytes) (d : matter),
  diger_new ser code raw qb64b qb64 qb2 = Ok d -> hash_contract C ->
  In (m_code d) (map fst digest_sizes) /\
  (matter_new code raw qb64b qb64 qb2 = Ok d \/
   exists s e, ser = Some s /\ matter_new code raw qb64b qb64 qb2 = Err e /\ m_code d = unwrap_or code (s2b "E") /\ m_raw d = x_hash (m_code d) s).
Proof.
  intros P C ser code raw qb64b qb64 qb2 d H HC. unfold diger_new in H.
  assert (E : forall x, In x (map fst digest_sizes) <-> In x diger_codes) by (apply mem_iff; vm_compute; reflexivity).
  destruct (matter_new code raw qb64b qb64 qb2) as [m|e|] eqn:Em; [| |discriminate].
  - inv_bind H u Eu. destruct u. apply validate_ok in Eu. injection H as <-. split; [apply E; auto|auto].
  - destruct ser as [ser|]; [|discriminate]. inv_bind H u Eu. destruct u. apply validate_ok in Eu. inv_bind H dig Ed.
    unfold digest in Ed. destruct (mem_code _ digest_codes); [|discriminate]. injection Ed as <-.
    set (c := unwrap_or code (s2b "E")) in *. apply E in Eu. apply in_map_iff in Eu as [[c' n] [Ec Hin]]. cbn [fst] in Ec. subst c'.
    destruct (HC c n ser Hin) as [Hl Hb].
    assert (If : exists f, In (c, (n, f)) fixed_codes).
    { assert (T : forallb (fun e => existsb (fun g => bytes_eqb (fst e) (fst g) && (snd e =? fst (snd g))) fixed_codes) digest_sizes = true) by (vm_compute; reflexivity).
      eapply forallb_forall in T; [|exact Hin]. apply existsb_exists in T as [[c' [n' f]] [I' T]]. cbn [fst snd] in T. apply andb_true_iff in T as [T1 T2].
      apply bytes_eqb_eq in T1. apply N.eqb_eq in T2. subst. eauto. }
    destruct If as [f If]. unfold matter_new in H. destruct (fixed_build_inv _ _ _ _ _ If H) as [-> _]. cbn [m_code m_raw]. split.
    + apply in_map_iff. exists (c, n). auto.
    + right. exists ser, e. rewrite take_all by lia. auto.
Qed.
(** C26: a Seqner *)
Lemma C26_seqner_pf : forall (P : Profile) (sn : option N) (snh code raw qb64b qb64 qb2 : option bytes) (m : matter),
  seqner_new sn snh code raw qb64b qb64 qb2 = Ok m -> m_code m = s2b "0A".
Proof.
  intros. unfold seqner_new in H. inv_bind H r Er. inv_bind H s Es. inv_bind H u Eu. destruct u. apply validate_ok in Eu. injection H as <-.
  destruct Eu as [E|[]]. auto.
Qed.
(** C26: a Dater *)
Lemma C26_dater_pf : forall (P : Profile) (now : bytes) (dts code raw qb64b qb64 qb2 : option bytes) (m : matter),
  dater_new now dts code raw qb64b qb64 qb2 = Ok m -> m_code m = s2b "1AAG".
Proof.
  intros. unfold dater_new in H. inv_bind H s Es. inv_bind H u Eu. destruct u. apply validate_ok in Eu. injection H as <-. destruct Eu as [E|[]]. auto.
Qed.
(** C26: a Bexter *)
Lemma C26_bexter_pf : forall (P : Profile) (bext code raw qb64b qb64 qb2 : option bytes) (m : matter),
  bexter_new bext code raw qb64b qb64 qb2 = Ok m -> In (m_code m) text_codes.
Proof.
  intros. unfold bexter_new in H. inv_bind H s Es. inv_bind H u Eu. destruct u. apply validate_ok in Eu. injection H as <-.
  revert Eu. apply mem_iff. vm_compute. reflexivity.
Qed.
(** C26: when raw bytes, text or binary are given, Seqner, Dater and Bexter are what the general
    constructor returns, if the code is theirs; a number, date or Base64 text beside them is ignored
    by Seqner and Dater and used by Bexter; without any of them Bexter is an error *)
Lemma C26_material_pf : forall (P : Profile) (sn : option N) (now : bytes) (snh dts bext code raw qb64b qb64 qb2 : option bytes),
  (raw, qb64b, qb64, qb2) <> (None, None, None, None) ->
  checked m_code [s2b "0A"] (matter_new (Some (unwrap_or code (s2b "0A"))) raw qb64b qb64 qb2) (seqner_new sn snh code raw qb64b qb64 qb2) /\
  checked m_code [s2b "1AAG"] (matter_new (Some (unwrap_or code (s2b "1AAG"))) raw qb64b qb64 qb2) (dater_new now dts code raw qb64b qb64 qb2) /\
  checked m_code text_codes (matter_new (Some (unwrap_or code (s2b "4A"))) raw qb64b qb64 qb2) (bexter_new None code raw qb64b qb64 qb2) /\
  (forall t, bexter_new (Some t) code raw qb64b qb64 qb2 = bexter_new (Some t) code None None None None) /\
  bexter_new None code None None None None = Err E_EmptyMaterial.
Proof.
  intros P sn now snh dts bext code raw qb64b qb64 qb2 Hg.
  assert (En : none raw && none qb64b && none qb64 && none qb2 = false).
  { destruct raw, qb64b, qb64, qb2; try reflexivity. contradiction. }
  unfold seqner_new, dater_new, bexter_new. rewrite En. cbn [none andb]. rewrite ?En. cbn [obind].
  split; [apply checked_validate; tauto|]. split; [apply checked_validate; tauto|]. split; [apply checked_validate|].
  - apply mem_iff. vm_compute. reflexivity.
  - split; auto.
Qed.
(** C26: a Diger with material that can be read is what the general constructor returns, if its code
    is a digest code; the serialisation is only hashed when it cannot *)
Lemma C26_diger_material_pf : forall (P : Profile) (C : Crypto) (ser code raw qb64b qb64 qb2 : option bytes),
  (forall d, matter_new code raw qb64b qb64 qb2 = Ok d -> checked m_code (map fst digest_sizes) (Ok d) (diger_new ser code raw qb64b qb64 qb2)) /\
  (forall e, matter_new code raw qb64b qb64 qb2 = Err e -> diger_new ser code raw qb64b qb64 qb2 =
     match ser with Some s => diger_of s code | None => Err E_Validation end) /\
  (matter_new code raw qb64b qb64 qb2 = Panic -> diger_new ser code raw qb64b qb64 qb2 = Panic).
Proof.
  intros P C ser code raw qb64b qb64 qb2. split; [|split].
  - intros d E. unfold diger_new. rewrite E. apply (checked_validate m_code _ diger_codes (Ok d)). apply mem_iff. vm_compute. reflexivity.
  - intros e E. unfold diger_of, diger_new. rewrite E. destruct ser; reflexivity.
  - intros E. unfold diger_new. rewrite E. reflexivity.
Qed.
(** accepted and rejected codes exist *)
Lemma C26_codes_ex_pf : forall P : Profile,
  verfer_new (Some (s2b "D")) (Some (rep 7 32)) None None None = Ok (Mat (s2b "D") 0 (rep 7 32)) /\
  verfer_new (Some (s2b "E")) (Some (rep 7 32)) None None None = Err E_UnexpectedCode /\
  verfer_new None None None (Some (s2b "MAAA")) None = Err E_UnexpectedCode /\
  cigar_new None (Some (s2b "0B")) (Some (rep 7 64)) None None None = Ok (Cig (Mat (s2b "0B") 0 (rep 7 64)) verfer_default) /\
  siger_new None (Some 3) None (Some (s2b "A")) (Some (rep 7 64)) None None None = Ok (Sg (Idx (s2b "A") (rep 7 64) 3 3) verfer_default) /\
  siger_new None (Some 3) None (Some (s2b "0A")) (Some (rep 7 114)) None None None = Err E_UnexpectedCode /\
  (exists m, bexter_new (Some (s2b "abc")) None None None None None = Ok m) /\
  bexter_new None (Some (s2b "4B")) (Some [1]) None None None = Err E_UnexpectedCode /\
  seqner_new None None None None None (Some (s2b "MAAA")) None = Err E_UnexpectedCode.
Proof.
  intros P. repeat (split; [vm_compute; reflexivity|]). split; [eexists; vm_compute; reflexivity|]. repeat (split; [vm_compute; reflexivity|]). vm_compute; reflexivity.
Qed.

(** C27: from a number, a hex string or raw bytes a Number has one of its four codes ... *)
Lemma C27_number_pf : forall (P : Profile) (m : matter),
  (forall n, n < 2 ^ 128 -> number_of n = Ok m -> In (m_code m) (map fst number_widths)) /\
  (forall s, number_of_hex s = Ok m -> In (m_code m) (map fst number_widths)) /\
  (forall raw code, number_of_raw raw code = Ok m -> m_code m = unwrap_or code (s2b "M") /\ In (m_code m) (map fst number_widths)).
Proof.
  intros P m.
  assert (H1 : forall n, n < 2 ^ 128 -> number_of n = Ok m -> In (m_code m) (map fst number_widths)).
  { intros n Hn H. rewrite number_of_ok in H by auto. injection H as <-. cbn [m_code]. pose proof (nw_cases n Hn) as X. destruct (nw n) as [c w].
    apply in_map_iff. exists (c, N.of_nat w). cbn. tauto. }
  split; [exact H1|]. split.
  - intros s H. unfold number_of_hex, number_new in H. cbn [none andb] in H. inv_bind H n En. apply (H1 n); [|exact H].
    destruct s; [injection En as <-; lia|]. apply parse_hex_iff in En as [d [_ [_ [_ L]]]]. exact L.
  - intros raw code H. unfold number_of_raw, number_new in H. cbn [none andb] in H. inv_bind H u Eu. destruct u. apply validate_ok in Eu.
    set (c := unwrap_or code (s2b "M")) in *. unfold matter_new in H. cbn in Eu.
    assert (If : exists rs f, In (c, (rs, f)) fixed_codes).
    { destruct Eu as [E|[E|[E|[E|[]]]]]; rewrite <- E; eexists _, _; vm_compute; tauto. }
    destruct If as [rs [f If]]. destruct (fixed_build_inv _ _ _ _ _ If H) as [-> _]. cbn [m_code]. split; auto.
Qed.
(** C27: with raw bytes, text or binary the code argument (Short by default) is checked before anything
    is read, and a number given beside them is ignored; a number wins over a hex string *)
Lemma C27_number_material_pf : forall (P : Profile) (num : option N) (numh code raw qb64b qb64 qb2 : option bytes),
  ((raw, qb64b, qb64, qb2) <> (None, None, None, None) ->
   (In (unwrap_or code (s2b "M")) (map fst number_widths) ->
      number_new num numh code raw qb64b qb64 qb2 = matter_new (Some (unwrap_or code (s2b "M"))) raw qb64b qb64 qb2) /\
   (~ In (unwrap_or code (s2b "M")) (map fst number_widths) -> number_new num numh code raw qb64b qb64 qb2 = Err E_UnexpectedCode)) /\
  (forall n, number_new (Some n) numh code None None None None = number_of n) /\
  (forall h, number_new None (Some h) code None None None None = number_of_hex h) /\
  number_new None None code None None None None = number_of 0 /\
  (forall n snh c, seqner_new (Some n) snh (Some (s2b "0A")) None None None None = seqner_of n /\ seqner_new None None c None None None None = seqner_new (Some 0) None c None None None None).
Proof.
  intros P num numh code raw qb64b qb64 qb2. split; [|repeat split; reflexivity].
  intros Hg. assert (En : none raw && none qb64b && none qb64 && none qb2 = false).
  { destruct raw, qb64b, qb64, qb2; try reflexivity. contradiction. }
  unfold number_new. rewrite En. split; intros I.
  - rewrite validate_yes by exact I. reflexivity.
  - rewrite validate_no by exact I. reflexivity.
Qed.
(** C27: ... but parsed text or bytes are taken with whatever code they have *)
Lemma C27_number_parse_unchecked_pf : forall (P : Profile) (t b : bytes),
  number_of_text t = parse_text t /\ number_of_text_bytes t = parse_text_bytes t /\ number_of_binary b = parse_binary b.
Proof. intros. repeat split; reflexivity. Qed.
(** C27: so a Number need not have a number code, and then has no value *)
Lemma C27_number_any_code_refuted_pf : exists t m, ~ In (m_code m) (map fst number_widths) /\ forall P : Profile,
  number_of_text t = Ok m /\ number_num m = Err E_UnexpectedCode.
Proof. exists (s2b "1AAFAAAA"), (Mat (s2b "1AAF") 0 [0; 0; 0]). split; [vm_compute; intuition discriminate|]. intros P; vm_compute; auto. Qed.

(** C28 *)
Lemma C28_number_pf : forall (P : Profile) (n : N), n < 2 ^ 128 ->
  exists m w, number_of n = Ok m /\ number_num m = Ok n /\ number_positive m = Ok (0 <? n) /\
    In (m_code m, w) number_widths /\ n < 256 ^ w /\ (forall c' w', In (c', w') number_widths -> n < 256 ^ w' -> w <= w') /\
    m_raw m = byte_numeral w n /\
    exists t b, matter_qb64 m = Ok t /\ matter_qb2 m = Ok b /\ number_of_text t = Ok m /\ number_of_text_bytes t = Ok m /\ number_of_binary b = Ok m.
Proof.
  intros P n Hn. pose proof (nw_cases n Hn) as X. rewrite (number_of_ok n Hn). destruct (nw n) as [c w]. destruct X as [X1 [X2 [X3 [f If]]]].
  cbn [fst snd]. exists (Mat c 0 (to_be w n)), (N.of_nat w). split; [reflexivity|].
  assert (Hv : number_num (Mat c 0 (to_be w n)) = Ok n).
  { rewrite (number_num_width _ (N.of_nat w)) by exact X1. cbn [m_raw]. rewrite len_to_be, N.eqb_refl, from_to_be by auto. reflexivity. }
  split; [exact Hv|]. split; [unfold number_positive; rewrite Hv; reflexivity|]. split; [exact X1|]. split; [exact X2|]. split; [exact X3|].
  split; [cbn [m_raw]; unfold byte_numeral; rewrite Nnat.Nat2N.id, to_be_digits, numeral_digits; reflexivity|].
  destruct (fixed_wire c _ f (to_be w n) If (len_to_be w n) (bytes_ok_to_be w n)) as [t [b [H1 [H2 [H3 [H4 [H5 [H6 [H7 H8]]]]]]]]].
  exists t, b. split; [exact H1|]. split; [exact H2|]. split; [exact H6|]. split; [|exact H7].
  unfold number_of_text_bytes, number_new. cbn [none andb unwrap_or]. unfold matter_new, matter_new_with_qb64b. rewrite validate_yes by (vm_compute; tauto). cbn [obind]. rewrite H8. exact H6.
Qed.
Lemma C28_number_ex_pf : 70000 < 2 ^ 128 /\ forall P : Profile, number_of 70000 = Ok (Mat (s2b "0H") 0 [0; 1; 17; 112]) /\
  matter_qb64 (Mat (s2b "0H") 0 [0; 1; 17; 112]) = Ok (s2b "0HAAARFw").
Proof. split; [lia|]. intros P; vm_compute; auto. Qed.

(** C29: exactly which strings are accepted, and with which value *)
Lemma C29_hex_input_pf : forall (P : Profile) (s : bytes) (n : N),
  hex_input s n -> number_of_hex s = number_of n /\ seqner_of_hex s = seqner_of n.
Proof.
  intros P s n H. pose proof H as H'. apply parse_hex_iff in H. unfold number_of_hex, number_of, seqner_of_hex, seqner_of, number_new, seqner_new.
  cbn [none andb]. destruct s as [|c r]; [destruct H' as [d [Hd [[<-|E] _]]]; congruence|]. rewrite H. split; reflexivity.
Qed.
Lemma C29_hex_rejected_pf : forall (P : Profile) (s : bytes), (forall n, ~ hex_input s n) ->
  (s <> [] -> number_of_hex s = Err E_ParseInt) /\ seqner_of_hex s = Err E_ParseInt.
Proof.
  intros P s H. apply parse_hex_err in H. unfold number_of_hex, seqner_of_hex, number_new, seqner_new. cbn [none andb]. rewrite H. split; [|reflexivity].
  intros Hs. destruct s; [congruence|]. reflexivity.
Qed.
(** C29: the empty string is zero for a Number *)
Lemma C29_empty_pf : forall (P : Profile), number_of_hex [] = number_of 0.
Proof. intros. reflexivity. Qed.
(** C29: numh prints a canonical numeral that is read back as the same number *)
Lemma C29_hex_round_trip_pf : forall (P : Profile) (n : N) (m : matter), n < 2 ^ 128 -> number_of n = Ok m ->
  exists h, number_numh m = Ok h /\ hex_numeral h n /\ hex_canonical h /\ number_of_hex h = Ok m.
Proof.
  intros P n m Hn H. destruct (C28_number_pf P n Hn) as [m' [w [E [Ev _]]]]. rewrite H in E. injection E as <-.
  exists (to_hex n). unfold number_numh. rewrite Ev. cbn [obind]. split; [reflexivity|]. pose proof (to_hex_input n Hn) as Hi.
  split; [|split; [apply to_hex_canonical|]].
  - apply hex_numeral_val. apply digits_val_radix; lia.
  - destruct (C29_hex_input_pf P _ _ Hi) as [-> _]. exact H.
Qed.
Lemma C29_hex_ex_pf : hex_input (s2b "+00fF") 255 /\ (forall n, ~ hex_input (s2b "-1") n) /\ (forall n, ~ hex_input (s2b "1g") n) /\
  (forall n, ~ hex_input (s2b "+") n) /\ forall P : Profile, number_of_hex (s2b "+00fF") = Ok (Mat (s2b "M") 0 [0; 255]) /\ number_numh (Mat (s2b "M") 0 [0; 255]) = Ok (s2b "ff").
Proof.
  split; [apply parse_hex_iff; vm_compute; reflexivity|]. repeat (split; [intros n H; apply parse_hex_iff in H; vm_compute in H; discriminate|]).
  intros P; vm_compute; auto.
Qed.

(** C30: num() never panics on a Number made from a number, hexadecimal, raw bytes or binary *)
Lemma number_wf_num m z : wf m z -> number_num m <> Panic.
Proof.
  intros W. destruct (In_code_dec (m_code m) (map fst number_widths)) as [I|I]; [|rewrite number_num_other by auto; discriminate].
  apply in_map_iff in I as [[c w] [Ec I]]. cbn [fst] in Ec. subst c. rewrite (number_num_width _ _ I).
  assert (E : len (m_raw m) = w).
  { destruct W as [Hz _ Hl]. cbn in I.
    repeat (destruct I as [[= E <-]|I]; [rewrite <- E in Hz; vm_compute in Hz; injection Hz as <-; unfold raw_len_ok in Hl; match type of Hl with context [variable ?z] => change (variable z) with false in Hl end; destruct Hl as [_ Hl]; rewrite Hl; reflexivity|]). contradiction. }
  rewrite E, N.eqb_refl. discriminate.
Qed.
Lemma C30_num_no_panic_pf : forall (P : Profile) (m : matter),
  (exists n, n < 2 ^ 128 /\ number_of n = Ok m) \/ (exists s, number_of_hex s = Ok m) \/
  (exists raw code, bytes_ok raw = true /\ number_of_raw raw code = Ok m) \/ (exists b, bytes_ok b = true /\ number_of_binary b = Ok m) ->
  number_num m <> Panic.
Proof.
  assert (A : forall (P : Profile) n m, n < 2 ^ 128 -> number_of n = Ok m -> number_num m <> Panic).
  { intros P n m Hn H. destruct (C28_number_pf P n Hn) as [m' [w [E [Ev _]]]]. rewrite H in E. injection E as <-. congruence. }
  intros P m [[n [Hn H]]|[[s H]|[[raw [code [Hb H]]]|[b [Hb H]]]]].
  - eapply A; eauto.
  - unfold number_of_hex, number_new in H. cbn [none andb] in H. inv_bind H n En. apply (A P n); [|exact H].
    destruct s; [injection En as <-; lia|]. apply parse_hex_iff in En as [d [_ [_ [_ L]]]]. exact L.
  - destruct (C27_number_pf P m) as [_ [_ H3]]. destruct (H3 _ _ H) as [E I].
    unfold number_of_raw, number_new in H. cbn [none andb] in H. inv_bind H u Eu. unfold matter_new in H. rewrite <- E in H.
    apply in_map_iff in I as [[c w] [Ec I]]. cbn [fst] in Ec. subst c.
    assert (Hz : exists z0, get_sizage (m_code m) = Ok z0).
    { cbn in I. repeat (destruct I as [[= E' _]|I]; [rewrite <- E'; eexists; vm_compute; reflexivity|]). contradiction. }
    destruct Hz as [z0 Hz]. destruct (new_wf _ _ _ _ Hz Hb H) as [z W]. eapply number_wf_num; eauto.
  - destruct (bexfil_inv b m Hb H) as [z [W _]]. eapply number_wf_num; eauto.
Qed.
(** C30: from text it panics exactly when the text has a number code and a '=' inside *)
Lemma C30_num_panics_iff_pf : forall (P : Profile) (t : bytes) (m : matter), number_of_text t = Ok m ->
  exists k, matter_full_size m = Ok k /\ (number_num m = Panic <-> In (m_code m) (map fst number_widths) /\ In 61 (take k t)).
Proof.
  intros P t m H. change (matter_exfil t = Ok m) in H. destruct (exfil_parsed _ _ H) as [z Hp]. exists (full_of z (m_size m)).
  split; [apply (full_size_parsed _ _ _ Hp)|]. split.
  - intros Hx. assert (I : In (m_code m) (map fst number_widths)).
    { destruct (In_code_dec (m_code m) (map fst number_widths)) as [I|I]; [exact I|]. rewrite number_num_other in Hx by auto. discriminate. }
    split; [exact I|]. destruct (in_dec N.eq_dec 61 (take (full_of z (m_size m)) t)) as [J|J]; [exact J|]. exfalso.
    assert (W : wf m z) by (eapply parsed_wf; eauto; apply no_pad_text_b64; auto). eapply number_wf_num; eauto.
  - intros [I J]. pose proof (parsed_pad _ _ _ Hp J) as Hm. apply in_map_iff in I as [[c w] [Ec I]]. cbn [fst] in Ec. subst c.
    rewrite (number_num_width _ _ I). destruct (N.eqb_spec (len (m_raw m)) w) as [E|E]; [exfalso|reflexivity].
    pose proof (pa_sz _ _ _ Hp) as Hz. rewrite E in Hm. cbn in I.
    repeat (destruct I as [[= E' <-]|I]; [rewrite <- E' in Hz; vm_compute in Hz; injection Hz as <-; apply Hm; vm_compute; reflexivity|]). contradiction.
Qed.
Lemma C30_num_panics_refuted_pf : exists t m, forall P : Profile, number_of_text t = Ok m /\ number_num m = Panic.
Proof. exists (s2b "MAA="), (Mat (s2b "M") 0 [0]). intros P; vm_compute; auto. Qed.

(** C31 *)
Lemma seqner_of_ok `{P : Profile} n : seqner_of n = Ok (Mat (s2b "0A") 0 (to_be 16 n)).
Proof.
  unfold seqner_of, seqner_new. cbn [none andb unwrap_or obind]. unfold matter_new.
  rewrite (fixed_build (s2b "0A") 16 24) by (try (vm_compute; tauto); rewrite len_to_be; cbn; lia).
  rewrite take_all by (rewrite len_to_be; cbn; lia). reflexivity.
Qed.
Lemma seqner_sn_ok n : n < 2 ^ 128 -> seqner_sn (Mat (s2b "0A") 0 (to_be 16 n)) = Ok n.
Proof.
  intros H. unfold seqner_sn. cbn [m_raw]. rewrite slice_prefix by (rewrite len_to_be; cbn; lia). cbn [obind].
  rewrite take_all by (rewrite len_to_be; cbn; lia). rewrite from_to_be by (change (256 ^ N.of_nat 16) with (2 ^ 128); auto). reflexivity.
Qed.
Lemma C31_sn_round_trip_pf : forall (P : Profile) (n : N), n < 2 ^ 128 ->
  exists m t b h, seqner_of n = Ok m /\ seqner_sn m = Ok n /\ seqner_snh m = Ok h /\ hex_numeral h n /\ hex_canonical h /\ seqner_of_hex h = Ok m /\
    matter_qb64 m = Ok t /\ len t = 24 /\ matter_qb2 m = Ok b /\ len b = 18 /\ seqner_of_text t = Ok m /\ seqner_of_binary b = Ok m.
Proof.
  intros P n Hn. exists (Mat (s2b "0A") 0 (to_be 16 n)).
  destruct (fixed_wire (s2b "0A") 16 24 (to_be 16 n)) as [t [b [H1 [H2 [H3 [H4 [H5 [H6 [H7 H8]]]]]]]]]; [vm_compute; tauto|rewrite len_to_be; reflexivity|apply bytes_ok_to_be|].
  exists t, b, (to_hex n). split; [apply seqner_of_ok|]. split; [apply seqner_sn_ok; auto|]. unfold seqner_snh. rewrite seqner_sn_ok by auto.
  split; [reflexivity|]. split; [apply hex_numeral_val, digits_val_radix; lia|]. split; [apply to_hex_canonical|].
  destruct (C29_hex_input_pf P _ _ (to_hex_input n Hn)) as [_ ->]. split; [apply seqner_of_ok|].
  split; [exact H1|]. split; [exact H3|]. split; [exact H2|]. split.
  - destruct (fixed_wf (s2b "0A") 16 24 (to_be 16 n)) as [z [W [Hf V]]]; [vm_compute; tauto|rewrite len_to_be; reflexivity|apply bytes_ok_to_be|].
    unfold matter_qb2 in H2. rewrite (binfil_wf _ _ W) in H2. apply Ok_inj in H2; rewrite <- H2. pose proof (len_bin _ _ W) as [L _]. cbn [m_size] in L. rewrite Hf in L. lia.
  - unfold seqner_of_text, seqner_of_binary, seqner_new. cbn [none andb unwrap_or obind]. unfold matter_new, matter_new_with_qb64, matter_new_with_qb2.
    rewrite H6, H7. split; reflexivity.
Qed.
(** C31: numeric order is the byte order of the binary forms *)
Lemma C31_order_pf : forall (P : Profile) (n1 n2 : N) (m1 m2 : matter) (b1 b2 : bytes), n1 < 2 ^ 128 -> n2 < 2 ^ 128 ->
  seqner_of n1 = Ok m1 -> seqner_of n2 = Ok m2 -> matter_qb2 m1 = Ok b1 -> matter_qb2 m2 = Ok b2 ->
  (n1 < n2 <-> lex_lt b1 b2).
Proof.
  intros P n1 n2 m1 m2 b1 b2 L1 L2 E1 E2 B1 B2. rewrite seqner_of_ok in E1, E2. apply Ok_inj in E1, E2. subst m1 m2.
  destruct (fixed_wf (s2b "0A") 16 24 (to_be 16 n1)) as [z1 [W1 _]]; [vm_compute; tauto|rewrite len_to_be; reflexivity|apply bytes_ok_to_be|].
  destruct (fixed_wf (s2b "0A") 16 24 (to_be 16 n2)) as [z2 [W2 _]]; [vm_compute; tauto|rewrite len_to_be; reflexivity|apply bytes_ok_to_be|].
  unfold matter_qb2 in *. rewrite (binfil_wf _ _ W1) in B1. rewrite (binfil_wf _ _ W2) in B2. apply Ok_inj in B1, B2. subst b1 b2.
  pose proof (wf_sz _ _ W1) as S1. pose proof (wf_sz _ _ W2) as S2. cbn [m_code] in S1, S2. rewrite S1 in S2. injection S2 as <-.
  unfold bin_of, both_of. cbn [m_code m_size m_raw]. rewrite lex_app, lex_app.
  rewrite (lex_val 256); [|lia|apply bytes_ok_Forall, bytes_ok_to_be|apply bytes_ok_Forall, bytes_ok_to_be|rewrite !len_to_be; reflexivity].
  rewrite !to_be_digits, !digits_small by (try lia; change (256 ^ N.of_nat 16) with (2 ^ 128); auto). tauto.
Qed.
(** C31: but not the character order of the texts *)
Lemma C31_text_order_refuted_pf : exists n1 n2 m1 m2 t1 t2, n1 < n2 /\ forall P : Profile, seqner_of n1 = Ok m1 /\ seqner_of n2 = Ok m2 /\
  matter_qb64 m1 = Ok t1 /\ matter_qb64 m2 = Ok t2 /\ lex_lt t2 t1.
Proof.
  exists 25, 52. eexists _, _, _, _. split; [lia|]. intros P. split; [vm_compute; reflexivity|]. split; [vm_compute; reflexivity|]. split; [vm_compute; reflexivity|].
  split; [vm_compute; reflexivity|]. repeat (first [apply lex_head; lia | apply lex_tail]).
Qed.

Lemma date_ascii c : date_char c -> c < 128.
Proof. intros H. apply (proj1 (d2b_low c)), is_b64_ascii, d2b_b64. exact H. Qed.
(** C32: a text whose first 32 characters are of the date alphabet is accepted
    and shown again (with ':' '.' '+' wherever 'c' 'd' 'p' was given); it
    survives the text and binary encodings *)
Lemma C32_accepts_pf : forall (P : Profile) (now t : bytes), utf8_valid t = true -> 32 <= len t -> (forall c, In c (take 32 t) -> date_char c) ->
  exists m q b, dater_of now t = Ok m /\ dater_dts m = Ok (dts_shown (take 32 t)) /\ matter_qb64 m = Ok q /\ matter_qb2 m = Ok b /\
    dater_of_text now q = Ok m /\ dater_of_binary now b = Ok m.
Proof.
  intros P now t Hu Hl Hd. rewrite (dater_of_eq now t Hu). replace (len t <? 32) with false by lia.
  assert (Ha : all_b64 (map d2b (take 32 t)) = true).
  { apply forallb_forall. intros x Hx. apply in_map_iff in Hx as [c [<- Hc]]. apply d2b_b64. auto. }
  assert (Hlu : len (map d2b (take 32 t)) = 32) by (rewrite len_map, len_take; lia).
  assert (B : boundary t 32 = true).
  { rewrite <- (take_drop_id 32 t). assert (L : len (take 32 t) = 32) by (rewrite len_take; lia). rewrite <- L at 3. apply boundary_after.
    assert (A : ascii_ok (take 32 t) = true). { apply forallb_forall. intros c Hc. specialize (Hd c Hc). apply date_ascii in Hd. lia. }
    clear - Hu A. rewrite <- (take_drop_id 32 t) in Hu. revert Hu A. generalize (take 32 t) (drop 32 t). intros a b.
    induction a as [|x a IH]; [auto|]. cbn [app utf8_valid]. intros Hu A. cbn in A. apply andb_true_iff in A as [A1 A2].
    replace (x <? 128) with true in Hu by lia. auto. }
  rewrite B. destruct (b64_decode_all _ Ha) as [r [Hr Hrl]]; [rewrite Hlu; reflexivity|]. rewrite Hr. cbn [obind].
  destruct (b64_decode_inv _ _ Hr) as [Hok He].
  destruct (fixed_wf (s2b "1AAG") 24 36 r) as [z [W [Hf V]]]; [vm_compute; tauto|lia|exact Hok|].
  assert (Ez : z = Sz 4 0 36 0). { pose proof (wf_sz _ _ W) as X. vm_compute in X. congruence. } subst z.
  assert (Et : text_of (Sz 4 0 36 0) (Mat (s2b "1AAG") 0 r) = s2b "1AAG" ++ map d2b (take 32 t)).
  { unfold text_of, both_of, soft_of. cbn [m_code m_size m_raw ss ls]. change (cs_of (Sz 4 0 36 0) mod 4) with 0. change (rep 0 (0 + 0)) with (@nil N). cbn [app]. rewrite drop_0, He. reflexivity. }
  exists (Mat (s2b "1AAG") 0 r), (s2b "1AAG" ++ map d2b (take 32 t)), (bin_of (Sz 4 0 36 0) (Mat (s2b "1AAG") 0 r)). split; [reflexivity|].
  assert (Q : matter_qb64 (Mat (s2b "1AAG") 0 r) = Ok (s2b "1AAG" ++ map d2b (take 32 t))) by (rewrite <- Et; apply infil_wf; auto).
  split; [rewrite (dater_dts_eq (Mat (s2b "1AAG") 0 r) _ eq_refl Q) by (apply all_b64_ascii; auto)|].
  { f_equal. unfold dts_shown. rewrite map_map. apply map_ext. intros c. rewrite b2d_d2b. reflexivity. }
  split; [exact Q|]. split; [apply binfil_wf; auto|]. pose proof (exfil_text _ _ [] W eq_refl) as X. rewrite app_nil_r, Et in X.
  pose proof (bexfil_bin _ _ [] W eq_refl) as Y. rewrite app_nil_r in Y.
  unfold dater_of_text, dater_of_binary, dater_new. cbn [none andb unwrap_or]. unfold matter_new, matter_new_with_qb64, matter_new_with_qb2. rewrite X, Y. split; reflexivity.
Qed.
(** C32: 32 characters without 'c', 'd', 'p' (every ISO-8601 time stamp) round-trip *)
Lemma C32_round_trip_pf : forall (P : Profile) (now t : bytes), len t = 32 -> (forall c, In c t -> date_char c /\ ~ In c (s2b "cdp")) ->
  exists m, dater_of now t = Ok m /\ dater_dts m = Ok t.
Proof.
  intros P now t Hl Hd. assert (Ht : take 32 t = t) by (apply take_all; lia).
  assert (Hu : utf8_valid t = true). { apply utf8_ascii, forallb_forall. intros c Hc. destruct (Hd c Hc) as [D _]. apply date_ascii in D. lia. }
  destruct (C32_accepts_pf P now t Hu) as [m [q [b [H1 [H2 _]]]]]; [lia|rewrite Ht; intros c Hc; apply Hd; auto|]. exists m. split; [exact H1|]. rewrite H2, Ht. f_equal.
  unfold dts_shown. rewrite <- (map_id t) at 2. apply map_ext_in. intros c Hc. destruct (Hd c Hc) as [_ X].
  assert (c <> 99 /\ c <> 100 /\ c <> 112) by (repeat split; intros ->; apply X; vm_compute; tauto).
  replace (c =? 99) with false by lia. replace (c =? 100) with false by lia. replace (c =? 112) with false by lia. reflexivity.
Qed.
(** C32: the current time is used when no text is given *)
Lemma C32_now_pf : forall (P : Profile) (now any : bytes), dater_now now = dater_of any now.
Proof. intros. reflexivity. Qed.
(** C32: no other text gives a readable date; shorter texts are rejected *)
Lemma C32_accepts_iff_pf : forall (P : Profile) (now t : bytes), utf8_valid t = true ->
  ((exists m d, dater_of now t = Ok m /\ dater_dts m = Ok d) <-> 32 <= len t /\ forall c, In c (take 32 t) -> date_char c) /\
  (len t < 32 -> dater_of now t = Err E_Shortage) /\ (dater_of now t = Panic <-> inside t 32).
Proof.
  intros P now t Hu. split; [split|split].
  - intros [m [d [H Hd]]]. pose proof H as H0. rewrite (dater_of_eq now t Hu) in H. destruct (N.ltb_spec (len t) 32); [discriminate|]. split; [auto|].
    destruct (boundary t 32); [|discriminate]. inv_bind H r Er. injection H as <-. unfold dater_dts in Hd. cbn [m_code] in Hd.
    change (get_sizage (s2b "1AAG")) with (@Ok sizage (Sz 4 0 36 0)) in Hd. cbn [obind] in Hd. inv_bind Hd q Eqq. clear Hd.
    pose proof (infil_buf_mod3 _ _ _ (eq_refl : get_sizage (m_code (Mat (s2b "1AAG") 0 r)) = Ok (Sz 4 0 36 0)) Eqq) as M. cbn [m_raw] in M.
    change (cs_of (Sz 4 0 36 0) mod 4) with 0 in M. cbn [ls] in M. rewrite !N.add_0_r in M.
    destruct (b64_decode_inv _ _ Er) as [Hok He]. pose proof (b64_encode_all r Hok M) as A. rewrite He in A.
    intros c Hc. apply d2b_b64. eapply forallb_forall in A; [exact A|]. apply in_map. auto.
  - intros [Hl Hc]. destruct (C32_accepts_pf P now t Hu Hl Hc) as [m [q [b [H1 [H2 _]]]]]. eauto.
  - intros Hl. rewrite (dater_of_eq now t Hu). replace (len t <? 32) with true by lia. reflexivity.
  - rewrite (dater_of_eq now t Hu). split.
    + destruct (N.ltb_spec (len t) 32); [discriminate|]. destruct (boundary t 32) eqn:B; [|intros _; apply inside_boundary in B; auto; lia].
      intros X. apply bind_panic in X as [X|[r [_ X]]]; [exfalso; eapply b64_decode_not_panic; eauto|discriminate].
    + intros I. pose proof (inside_len _ _ I). replace (len t <? 32) with false by lia. apply inside_boundary in I; [|lia|lia]. rewrite I. reflexivity.
Qed.
Lemma C32_ex_pf : let t := s2b "2020-08-22T17:50:09.988921+00:00" in len t = 32 /\ (forall c, In c t -> date_char c /\ ~ In c (s2b "cdp")) /\
  forall P : Profile, exists m, dater_of [] t = Ok m /\ matter_qb64 m = Ok (s2b "1AAG2020-08-22T17c50c09d988921p00c00").
Proof.
  cbv zeta. split; [reflexivity|]. split.
  - assert (X : forallb (fun c => is_b64 (d2b c) && negb (existsb (N.eqb c) (s2b "cdp"))) (s2b "2020-08-22T17:50:09.988921+00:00") = true) by (vm_compute; reflexivity).
    intros c Hc. eapply forallb_forall in X; eauto. apply andb_true_iff in X as [X1 X2]. split; [apply d2b_b64; auto|]. intros I. apply negb_true_iff in X2.
    assert (existsb (N.eqb c) (s2b "cdp") = true) by (apply existsb_exists; exists c; split; [auto|apply N.eqb_refl]). congruence.
  - intros P. eexists. split; [vm_compute; reflexivity|]. vm_compute; reflexivity.
Qed.
(** C32: the text is not checked to be a date *)
Lemma C32_not_a_date_refuted_pf : forall P : Profile, exists m, dater_of [] (s2b "this-is-not-a-date-at-all-really") = Ok m.
Proof. intros P. eexists. vm_compute. reflexivity. Qed.

(** C33: a Base64-URL text that fits is accepted; it is shown again except for the lost 'A' *)
Lemma C33_round_trip_pf : forall (P : Profile) (t : bytes), b64_text t -> len t <= 64 ^ 4 * 4 - 4 ->
  exists m q b, bexter_of t = Ok m /\ bext_of m = Ok (bext_shown t) /\ matter_qb64 m = Ok q /\ matter_qb2 m = Ok b /\
    bexter_of_text q = Ok m /\ bexter_of_binary b = Ok m.
Proof.
  intros P t Ht Hl. apply b64_text_all in Ht. destruct (rawify_ok t Ht) as [raw [Hr [Hb [He Hlen]]]].
  assert (Hq : (len t + 3) / 4 < 64 ^ 4) by (npow; lia).
  rewrite (bexter_of_eq t raw Ht Hr) by (auto; unfold U32; npow; lia). cbv zeta. replace (_ <? 64 ^ 4) with true by lia.
  destruct (bext_wf t raw Hlen Hb Hq) as [z [W Hz]].
  set (m := Mat _ _ raw) in *. exists m, (text_of z m), (bin_of z m). split; [reflexivity|].
  split; [apply bext_of_bexter; auto; exists z; split; [apply (wf_sz _ _ W)|auto]|]. split; [apply infil_wf; auto|]. split; [apply binfil_wf; auto|].
  pose proof (exfil_text _ _ [] W eq_refl) as X. rewrite app_nil_r in X. pose proof (bexfil_bin _ _ [] W eq_refl) as Y. rewrite app_nil_r in Y.
  unfold bexter_of_text, bexter_of_binary, bexter_new. cbn [none andb unwrap_or]. unfold matter_new, matter_new_with_qb64, matter_new_with_qb2. rewrite X, Y. cbn [obind].
  rewrite validate_yes; [split; reflexivity|]. cbn [m_code m]. assert (ls_of t = 0 \/ ls_of t = 1 \/ ls_of t = 2) as [E|[E|E]] by (unfold ls_of; lia);
   unfold bext_code; rewrite E; destruct (_ <? 64 ^ 2); vm_compute; tauto.
Qed.
(** C33: exactly the texts of a length a positive multiple of four that start with 'A' come back changed *)
Lemma C33_exact_iff_pf : forall (P : Profile) (t : bytes), b64_text t -> len t <= 64 ^ 4 * 4 - 4 ->
  (exists m, bexter_of t = Ok m /\ bext_of m = Ok t) <-> ~ (len t mod 4 = 0 /\ exists r, t = 65 :: r).
Proof.
  intros P t Ht Hl. destruct (C33_round_trip_pf P t Ht Hl) as [m [q [b [H1 [H2 _]]]]]. split.
  - intros [m' [E1 E2]] [Hm [r ->]]. rewrite H1 in E1. injection E1 as <-. rewrite H2 in E2. apply Ok_inj in E2. unfold bext_shown in E2.
    rewrite Hm in E2. change ((0 =? 0) && (65 =? 65)) with true in E2. cbv iota in E2. apply (f_equal len) in E2. rewrite len_cons in E2. lia.
  - intros N. exists m. split; [exact H1|]. rewrite H2. f_equal. unfold bext_shown. destruct t as [|c r]; [reflexivity|].
    destruct (N.eqb_spec (len (c :: r) mod 4) 0) as [E|]; [|reflexivity]. destruct (N.eqb_spec c 65) as [->|]; [|reflexivity]. exfalso. apply N. eauto.
Qed.
(** C33: two texts give the same object iff they are equal up to that 'A' *)
Lemma C33_same_object_pf : forall (P : Profile) (t1 t2 : bytes) (m1 m2 : matter), b64_text t1 -> b64_text t2 ->
  len t1 <= 64 ^ 4 * 4 - 4 -> len t2 <= 64 ^ 4 * 4 - 4 -> bexter_of t1 = Ok m1 -> bexter_of t2 = Ok m2 ->
  (m1 = m2 <-> t1 = t2 \/ (t1 = 65 :: t2 /\ len t1 mod 4 = 0) \/ (t2 = 65 :: t1 /\ len t2 mod 4 = 0)).
Proof.
  intros P t1 t2 m1 m2 B1 B2 L1 L2 E1 E2. pose proof B1 as A1. pose proof B2 as A2. apply b64_text_all in A1, A2.
  destruct (rawify_ok t1 A1) as [r1 [R1 [K1 [X1 Y1]]]]. destruct (rawify_ok t2 A2) as [r2 [R2 [K2 [X2 Y2]]]].
  assert (Q1 : (len t1 + 3) / 4 < 64 ^ 4) by (npow; lia). assert (Q2 : (len t2 + 3) / 4 < 64 ^ 4) by (npow; lia).
  rewrite (bexter_of_eq t1 r1 A1 R1) in E1 by (auto; unfold U32; npow; lia). cbv zeta in E1. replace (_ <? 64 ^ 4) with true in E1 by lia. apply Ok_inj in E1.
  rewrite (bexter_of_eq t2 r2 A2 R2) in E2 by (auto; unfold U32; npow; lia). cbv zeta in E2. replace (_ <? 64 ^ 4) with true in E2 by lia. apply Ok_inj in E2.
  split.
  - intros Em. rewrite <- Em in E2. rewrite <- E1 in E2. injection E2 as _ Eq Er. subst r2.
    assert (El : ls_of t1 = ls_of t2) by lia. rewrite El, X2 in X1.
    assert (C : ws_of t1 = ws_of t2 \/ (ws_of t1 = 0 /\ ws_of t2 = 1) \/ (ws_of t1 = 1 /\ ws_of t2 = 0)) by (unfold ls_of, ws_of in *; lia).
    destruct C as [C|[[C1 C2]|[C1 C2]]].
    + rewrite C in X1. apply app_inv_head in X1. auto.
    + right; left. rewrite C1, C2 in X1. change (rep 65 1) with [65] in X1. cbn in X1. split; [auto|unfold ws_of in C1; lia].
    + right; right. rewrite C1, C2 in X1. change (rep 65 1) with [65] in X1. cbn in X1. split; [auto|unfold ws_of in C2; lia].
  - assert (G : forall t1 t2 r1 r2, t1 = 65 :: t2 -> len t1 mod 4 = 0 -> bytes_ok r1 = true -> bytes_ok r2 = true ->
      b64_encode (rep 0 (ls_of t1) ++ r1) = rep 65 (ws_of t1) ++ t1 -> b64_encode (rep 0 (ls_of t2) ++ r2) = rep 65 (ws_of t2) ++ t2 ->
      r1 = r2 /\ ls_of t1 = ls_of t2 /\ (len t1 + 3) / 4 = (len t2 + 3) / 4).
    { clear. intros t1 t2 r1 r2 -> M K1 K2 X1 X2. rewrite len_cons in *.
      assert (W1 : ws_of (65 :: t2) = 0) by (unfold ws_of; rewrite len_cons; lia). assert (W2 : ws_of t2 = 1) by (unfold ws_of; lia).
      assert (S1 : ls_of (65 :: t2) = 0) by (unfold ls_of; rewrite len_cons; lia). assert (S2 : ls_of t2 = 0) by (unfold ls_of; lia).
      rewrite W1, S1 in X1. rewrite W2, S2 in X2. change (rep 65 1) with [65] in X2. cbn [rep app] in X1, X2. split; [|split; [lia|lia]].
      apply b64_encode_inj; auto. change (rep 0 0) with (@nil N) in *. cbn [app] in *. rewrite X1, X2. reflexivity. }
    intros [E|[[E M]|[E M]]].
    + subst t2. rewrite R1 in R2. injection R2 as <-. congruence.
    + destruct (G t1 t2 r1 r2 E M K1 K2 X1 X2) as [Er [Es Eq]]. subst r2. rewrite <- E1, <- E2, Es, Eq. reflexivity.
    + destruct (G t2 t1 r2 r1 E M K2 K1 X2 X1) as [Er [Es Eq]]. subst r2. rewrite <- E1, <- E2, Es, Eq. reflexivity.
Qed.
(** C33: other texts are rejected: not Base64-URL, or too long *)
Lemma C33_rejects_pf : forall (P : Profile) (t : bytes),
  (~ b64_text t -> bexter_of t = Err E_Value) /\
  (b64_text t -> 64 ^ 4 * 4 - 4 < len t -> len t < 2 ^ 32 -> bexter_of t = Err E_InvalidVarRawSize).
Proof.
  intros P t. split.
  - intros N. unfold bexter_of, bexter_new. cbn [none andb unwrap_or]. unfold reb64_match. destruct (forallb is_b64 t) eqn:E; [|reflexivity].
    exfalso. apply N, b64_text_all. exact E.
  - intros Ht L1 L2. apply b64_text_all in Ht. destruct (rawify_ok t Ht) as [raw [Hr [Hb [He Hlen]]]].
    rewrite (bexter_of_eq t raw Ht Hr); auto; [|unfold U32; npow; lia]. cbv zeta. replace (_ <? 64 ^ 4) with false; [reflexivity|].
    symmetry. apply N.ltb_ge. npow. lia.
Qed.
Lemma C33_ex_pf : forall P : Profile, b64_text (s2b "Hi_there") /\
  (exists m, bexter_of (s2b "Hi_there") = Ok m /\ matter_qb64 m = Ok (s2b "4AACHi_there") /\ bext_of m = Ok (s2b "Hi_there")) /\
  (exists m, bexter_of (s2b "AABC") = Ok m /\ bexter_of (s2b "ABC") = Ok m /\ bext_of m = Ok (s2b "ABC")) /\ ~ b64_text (s2b "a b").
Proof.
  intros P. split; [apply b64_text_all; vm_compute; reflexivity|]. split; [eexists; repeat (split; [vm_compute; reflexivity|]); vm_compute; reflexivity|].
  split; [eexists; repeat (split; [vm_compute; reflexivity|]); vm_compute; reflexivity|]. intros H. apply b64_text_all in H. vm_compute in H. discriminate.
Qed.

(** C53: a digest object made from a serialisation has the digest of its code,
    verifies exactly the messages with the same digest, and needs a digest code *)
Lemma C53_digest_pf : forall (P : Profile) (C : Crypto) (code ser : bytes) (n : N), hash_contract C -> In (code, n) digest_sizes ->
  exists d, diger_of ser (Some code) = Ok d /\ (code = s2b "E" -> diger_of ser None = Ok d) /\ is_diger d /\ m_code d = code /\ m_raw d = x_hash code ser /\
    forall ser', diger_verify d ser' = Ok (bytes_eqb (x_hash code ser') (x_hash code ser)).
Proof.
  intros P C code ser n HC Hin. destruct (HC code n ser Hin) as [Hl Hb].
  assert (If : exists f, In (code, (n, f)) fixed_codes).
  { assert (T : forallb (fun e => existsb (fun g => bytes_eqb (fst e) (fst g) && (snd e =? fst (snd g))) fixed_codes) digest_sizes = true) by (vm_compute; reflexivity).
    eapply forallb_forall in T; [|exact Hin]. apply existsb_exists in T as [[c' [n' f]] [I' T]]. cbn [fst snd] in T. apply andb_true_iff in T as [T1 T2].
    apply bytes_eqb_eq in T1. apply N.eqb_eq in T2. subst. eauto. }
  destruct If as [f If].
  assert (E : forall x, In x (map fst digest_sizes) <-> In x diger_codes) by (apply mem_iff; vm_compute; reflexivity).
  assert (E' : forall x, In x (map fst digest_sizes) <-> In x digest_codes) by (apply mem_iff; vm_compute; reflexivity).
  assert (Ic : In code (map fst digest_sizes)) by (apply in_map_iff; exists (code, n); auto).
  assert (Hd : forall s, digest code s = Ok (x_hash code s)). { intros s. unfold digest. apply E', mem_code_In in Ic. rewrite Ic. reflexivity. }
  assert (Hn : diger_of ser (Some code) = Ok (Mat code 0 (x_hash code ser))).
  { unfold diger_of, diger_new. cbn [matter_new unwrap_or]. rewrite validate_yes by (apply E; auto). cbn [obind]. rewrite Hd. cbn [obind].
    rewrite (fixed_build _ _ _ _ If) by lia. rewrite take_all by lia. reflexivity. }
  exists (Mat code 0 (x_hash code ser)). split; [exact Hn|]. split; [intros ->; exact Hn|]. split.
  - split; [|exact Ic]. exists code, (x_hash code ser). split; [left; apply in_map_iff; exists (code, (n, f)); auto|]. split; [exact Hb|].
    unfold build, matter_new. rewrite (fixed_build _ _ _ _ If) by lia. rewrite take_all by lia. reflexivity.
  - split; [reflexivity|]. split; [reflexivity|]. intros s. unfold diger_verify. cbn [m_code m_raw]. rewrite Hd. reflexivity.
Qed.
(** C53: verification is equality with the digest of the message *)
Lemma C53_verify_iff_pf : forall (C : Crypto) (d : matter) (ser : bytes), In (m_code d) (map fst digest_sizes) ->
  exists b, diger_verify d ser = Ok b /\ (b = true <-> m_raw d = x_hash (m_code d) ser).
Proof.
  intros C d ser I. assert (E' : forall x, In x (map fst digest_sizes) <-> In x digest_codes) by (apply mem_iff; vm_compute; reflexivity).
  apply E', mem_code_In in I. unfold diger_verify, digest. rewrite I. cbn [obind]. eexists. split; [reflexivity|]. rewrite bytes_eqb_eq. split; auto.
Qed.
(** C53: comparing two digests: equal, or of different algorithms and both of the same message *)
Lemma C53_compare_iff_pf : forall (P : Profile) (C : Crypto) (d1 d2 : matter) (ser : bytes), is_diger d1 -> is_diger d2 ->
  exists q2 b, matter_qb64b d2 = Ok q2 /\ diger_compare d1 ser None (Some d2) = Ok b /\ diger_compare d1 ser (Some q2) None = Ok b /\
    (b = true <-> d1 = d2 \/ (m_code d1 <> m_code d2 /\ m_raw d1 = x_hash (m_code d1) ser /\ m_raw d2 = x_hash (m_code d2) ser)).
Proof.
  intros P C d1 d2 ser [C1 I1] [C2 I2]. destruct (constructed_wf d1 C1) as [z1 W1]. destruct (constructed_wf d2 C2) as [z2 W2].
  pose proof (infil_wf _ _ W1) as T1. pose proof (infil_wf _ _ W2) as T2.
  destruct (C53_verify_iff_pf C d1 ser I1) as [v1 [V1 X1]]. destruct (C53_verify_iff_pf C d2 ser I2) as [v2 [V2 X2]].
  exists (text_of z2 d2). unfold diger_compare, diger_compare_dig, diger_compare_diger, matter_qb64b, matter_qb64. rewrite T1, T2. cbn [obind].
  pose proof (exfil_text z2 d2 [] W2 eq_refl) as X. rewrite app_nil_r in X.
  assert (U : from_utf8 (text_of z2 d2) = Ok (text_of z2 d2)) by (apply from_utf8_ascii, all_b64_ascii, all_b64_text; auto).
  unfold matter_new, matter_new_with_qb64b. rewrite U. cbn [obind]. rewrite X. cbn [obind]. rewrite V1, V2. cbn [obind].
  destruct (bytes_eqb (text_of z2 d2) (text_of z1 d1)) eqn:E.
  - apply bytes_eqb_eq in E. exists true. repeat (split; [reflexivity|]). split; [intros _; left|reflexivity].
    symmetry. eapply text_prefix_eq with (t := []); eauto. rewrite app_nil_r. auto.
  - destruct (bytes_eqb (m_code d2) (m_code d1)) eqn:Ec.
    + apply bytes_eqb_eq in Ec. exists false. repeat (split; [reflexivity|]). split; [discriminate|]. intros [->|[N _]]; [|congruence].
      assert (z1 = z2) by (pose proof (wf_sz _ _ W1); pose proof (wf_sz _ _ W2); congruence). subst. rewrite bytes_eqb_refl in E. discriminate.
    + apply bytes_eqb_neq in Ec. exists (v2 && v1). split; [reflexivity|]. split; [destruct v2, v1; reflexivity|]. split; [destruct v2, v1; reflexivity|].
      rewrite andb_true_iff, X1, X2. split; [intros [A B]; right; auto|]. intros [->|[_ [A B]]]; [congruence|auto].
Qed.
(** C53: without anything to compare with, an error *)
Lemma C53_compare_nothing_pf : forall (P : Profile) (C : Crypto) (d : matter) (ser : bytes), diger_compare d ser None None = Err E_Value.
Proof. intros. reflexivity. Qed.
(** a toy digest satisfies the contract *)
Lemma C53_ex_pf : hash_contract toy_crypto /\ forall P : Profile, exists d1 d2, diger_of (H := toy_crypto) (s2b "abc") (Some (s2b "E")) = Ok d1 /\ diger_of (H := toy_crypto) (s2b "abc") (Some (s2b "0G")) = Ok d2 /\
  diger_verify (H := toy_crypto) d1 (s2b "abcd") = Ok false /\ diger_compare (H := toy_crypto) d1 (s2b "abc") None (Some d2) = Ok true.
Proof.
  split.
  - intros code n ser I. cbn [x_hash toy_crypto]. unfold toy_hash. rewrite len_rep. split.
    + cbn in I. repeat (destruct I as [[= <- <-]|I]; [reflexivity|]). contradiction.
    + apply forallb_rep. unfold byte_ok. pose proof (N.mod_lt (len ser) 256). lia.
  - intros P. eexists _, _. repeat (split; [vm_compute; reflexivity|]). vm_compute; reflexivity.
Qed.
