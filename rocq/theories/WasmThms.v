From Verif Require Import Base Util MatterTables Matter IndexerTables Crypto Prims PrimsDefs StdStr Data Json Common DataDefs Saider Tholder TholderDefs Sadder Prefixer Signer SignerDefs Spec Wasm WasmDefs.
From Verif Require Import BaseFacts StdStrFacts UtilFacts MatterFacts MatterFacts2 MatterFacts3 PrimsFacts PrimsFacts2 PrimsThms DataFacts JsonFacts ImportFacts DataThms TholderFacts TholderThms SadderFacts SadderThms SaiderFacts SaiderThms.

Lemma split_halves n : n < 2 ^ 128 -> halves (u128_of_n n) n.
Proof.
  intros H. unfold halves, u128_of_n. cbn [low high]. rewrite N.shiftr_div_pow2.
  assert (n / 2 ^ 64 < 2 ^ 64) by (apply N.div_lt_upper_bound; [discriminate|exact H]).
  rewrite (N.mod_small (n / 2 ^ 64)) by assumption.
  repeat split; [apply N.mod_lt; discriminate|assumption|]. rewrite N.mul_comm. apply N.div_mod. discriminate.
Qed.
Lemma num_bound (m : matter) n : bytes_ok (m_raw m) = true -> number_num m = Ok n -> n < 2 ^ 128.
Proof.
  intros B H. unfold number_num in H. assert (Q : forall w, (if len (m_raw m) =? w then Ok (from_be (m_raw m)) else Panic) = Ok n -> w <= 16 -> n < 2 ^ 128).
  { intros w E Hw. destruct (N.eqb_spec (len (m_raw m)) w) as [L|]; [|discriminate]. apply Ok_inj in E. subst n. rewrite from_be_val.
    apply N.lt_le_trans with (256 ^ len (m_raw m)); [apply val_lt; [Lia.lia|apply bytes_ok_Forall; exact B]|].
    change (2 ^ 128) with (256 ^ 16). apply N.pow_le_mono_r; Lia.lia. }
  destruct (bytes_eqb (m_code m) (s2b "M")); [apply (Q 2); [exact H|Lia.lia]|].
  destruct (bytes_eqb (m_code m) (s2b "0H")); [apply (Q 4); [exact H|Lia.lia]|].
  destruct (bytes_eqb (m_code m) (s2b "N")); [apply (Q 8); [exact H|Lia.lia]|].
  destruct (bytes_eqb (m_code m) (s2b "0A")); [apply (Q 16); [exact H|Lia.lia]|discriminate].
Qed.
Lemma sn_bound (m : matter) n : bytes_ok (m_raw m) = true -> seqner_sn m = Ok n -> n < 2 ^ 128.
Proof.
  intros B H. unfold seqner_sn in H. inv_bind H r Hr. apply Ok_inj in H. subst n. rewrite from_be_val.
  unfold slice in Hr. destruct ((0 <=? 16) && (16 <=? len (m_raw m))) eqn:E; [|discriminate]. apply Ok_inj in Hr. subst r.
  match goal with |- val 256 ?x < _ => set (q := x) end.
  assert (Lq : len q <= 16) by (subst q; rewrite len_take; Lia.lia).
  assert (Bq : Forall (fun d => d < 256) q) by (subst q; apply bytes_ok_Forall in B; rewrite Forall_forall in *; intros x Hx; apply B; eapply In_drop, In_take; exact Hx).
  apply N.lt_le_trans with (256 ^ len q); [apply val_lt; [Lia.lia|exact Bq]|]. change (2 ^ 128) with (256 ^ 16). apply N.pow_le_mono_r; Lia.lia.
Qed.

(** C67: a number that is returned to JavaScript comes as its two 64 bit halves *)
Lemma C67_out_pf : forall (P : Profile) (C : Crypto) (F : Floats) (m : matter) (s : sadder) (n : N), bytes_ok (m_raw m) = true ->
  (number_num m = Ok n -> exists u, js_number_num m = Ok u /\ halves u n) /\
  (seqner_sn m = Ok n -> exists u, js_seqner_sn m = Ok u /\ halves u n) /\
  (serder_sn s = Ok n -> exists u, js_serder_sn s = Ok u /\ halves u n) /\
  (serder_fn s = Ok n -> exists u, js_serder_fn s = Ok u /\ halves u n).
Proof.
  intros P C F m s n B.
  assert (Q : n < 2 ^ 128 -> exists u, Ok (u128_of_n n) = Ok u /\ halves u n) by (intros L; eexists; split; [reflexivity|apply split_halves; exact L]).
  repeat split; intros H.
  - unfold js_number_num. rewrite H. cbn [obind]. apply Q. eapply num_bound; eauto.
  - unfold js_seqner_sn. rewrite H. cbn [obind]. apply Q. eapply sn_bound; eauto.
  - unfold js_serder_sn. rewrite H. cbn [obind]. apply Q. unfold serder_sn in H. inv_bind H x Hx. unfold serder_sner in Hx.
    inv_bind Hx v Hv. inv_bind Hx t Ht. assert (E : exists k, k < 2 ^ 128 /\ number_of k = Ok x).
    { unfold number_new in Hx. cbn [none andb] in Hx. inv_bind Hx k Hk. exists k. split; [|exact Hx].
      destruct t; [apply Ok_inj in Hk; subst k; reflexivity|]. apply parse_hex_iff in Hk as [d [_ [_ [_ L]]]]. exact L. }
    destruct E as (k & Lk & E). destruct (C28_number_pf P k Lk) as (x' & w & E' & Ev & _). rewrite E in E'. apply Ok_inj in E'. subst x'. congruence.
  - unfold js_serder_fn. rewrite H. cbn [obind]. apply Q. unfold serder_fn in H. inv_bind H x Hx. destruct x as [x|]; [|discriminate].
    unfold serder_fner in Hx. inv_bind Hx o Ho. destruct (contains_key (s2b "f") o); [|discriminate]. inv_bind Hx v Hv. inv_bind Hx t Ht. inv_bind Hx y Hy.
    apply Ok_inj in Hx. injection Hx as ->. change (matter_exfil t = Ok x) in Hy. destruct (exfil_parsed _ _ Hy) as [z Hp].
    eapply num_bound; [|exact H]. exact (pa_bytes _ _ _ Hp).
Qed.

Lemma lor_bound a b k : a < 2 ^ k -> b < 2 ^ k -> N.lor a b < 2 ^ k.
Proof.
  intros A B. destruct (N.eq_dec (N.lor a b) 0) as [->|Z]; [apply N.neq_0_lt_0; apply N.pow_nonzero; discriminate|].
  apply N.log2_lt_pow2; [Lia.lia|]. rewrite N.log2_lor.
  apply N.max_lub_lt; [destruct (N.eq_dec a 0) as [->|Na]|destruct (N.eq_dec b 0) as [->|Nb]]; try (apply N.log2_lt_pow2; Lia.lia).
  - cbn. destruct k; [|Lia.lia]. exfalso. apply Z. assert (b = 0) by (cbn in B; Lia.lia). subst b. reflexivity.
  - cbn. destruct k; [|Lia.lia]. exfalso. apply Z. assert (a = 0) by (cbn in A; Lia.lia). subst a. reflexivity.
Qed.

(** C67: a number that comes from JavaScript is read as the bitwise or of its halves, so it is
    the same number exactly if it is below 2^64; others silently become smaller numbers *)
Lemma C67_in_pf : forall (P : Profile) (u : u128) (n : N), halves u n -> exists k,
  js_number_new_with_num u = number_of k /\ js_seqner_new_with_sn u = seqner_of k /\
  (forall numh code, js_number_new (Some u) numh code None None None None = number_of k) /\
  (forall snh, js_seqner_new (Some u) snh None None None None None = seqner_of k) /\
  k < 2 ^ 64 /\ (k = n <-> n < 2 ^ 64) /\ (forall i, i < 64 -> N.testbit k i = N.testbit n i || N.testbit n (i + 64)).
Proof.
  intros P u n (L & Hh & E). exists (n_of_u128 u). unfold n_of_u128.
  assert (K : N.lor (high u) (low u) < 2 ^ 64) by (apply lor_bound; assumption).
  repeat split; try exact K.
  - intros <-. exact K.
  - intros Hn. assert (Z : high u = 0) by (rewrite E in Hn; change (2 ^ 64) with 18446744073709551616 in Hn; Lia.lia). rewrite Z in E |- *. rewrite N.lor_0_l, E, N.mul_0_l, N.add_0_l. reflexivity.
  - intros i Hi. rewrite N.lor_spec, orb_comm. f_equal.
    + rewrite E, <- N.shiftl_mul_pow2. assert (S : N.shiftl (high u) 64 + low u = N.lor (N.shiftl (high u) 64) (low u)).
      { rewrite <- N.lxor_lor; [apply N.add_nocarry_lxor|]; apply N.bits_inj_0; intros j; rewrite N.land_spec;
        (destruct (N.ltb_spec j 64) as [J|J]; [rewrite N.shiftl_spec_low by exact J; reflexivity|]);
        (replace (N.testbit (low u) j) with false; [apply andb_false_r|]); symmetry; destruct (N.eq_dec (low u) 0) as [->|]; try apply N.bits_0; apply N.bits_above_log2; (apply N.lt_le_trans with 64; [apply N.log2_lt_pow2; [Lia.lia|exact L]|exact J]). }
      rewrite S, N.lor_spec, N.shiftl_spec_low by exact Hi. reflexivity.
    + rewrite E, <- N.shiftl_mul_pow2, <- N.shiftr_spec'. f_equal. rewrite N.shiftr_div_pow2, N.shiftl_mul_pow2, N.div_add_l by discriminate. rewrite (N.div_small (low u)) by exact L. Lia.lia.
Qed.

Lemma C67_out_ex_pf : forall (P : Profile) (C : Crypto) (F : Floats), number_of (2 ^ 64 + 5) = Ok (Mat (s2b "0A") 0 (to_be 16 (2 ^ 64 + 5))) /\
  js_number_num (Mat (s2b "0A") 0 (to_be 16 (2 ^ 64 + 5))) = Ok (Halves 5 1) /\ halves (Halves 5 1) (2 ^ 64 + 5).
Proof. intros. repeat split; vm_compute; reflexivity. Qed.

(** so different numbers become the same, and a Number is not rebuilt from its own value *)
Lemma C67_rebuild_refuted_pf : forall (P : Profile), exists m u m', number_of (2 ^ 64) = Ok m /\ js_number_num m = Ok u /\ js_number_new_with_num u = Ok m' /\ number_num m' = Ok 1.
Proof. intros P. exists (Mat (s2b "0A") 0 (to_be 16 (2 ^ 64))), (Halves 0 1), (Mat (s2b "M") 0 [0; 1]). repeat split; vm_compute; reflexivity. Qed.

(** C67: the same as a round trip: a Number made of [n], and a Seqner, is rebuilt from the value it gives to JavaScript exactly if [n] is below 2^64 *)
Lemma C67_rebuild_pf : forall (P : Profile) (n : N) (m s : matter), n < 2 ^ 128 -> number_of n = Ok m -> seqner_of n = Ok s ->
  exists u v m' s', js_number_num m = Ok u /\ js_number_new_with_num u = Ok m' /\ (m' = m <-> n < 2 ^ 64) /\
    js_seqner_sn s = Ok v /\ js_seqner_new_with_sn v = Ok s' /\ (s' = s <-> n < 2 ^ 64).
Proof.
  intros P n m s L Hm Hs.
  destruct (C28_number_pf P n L) as (m0 & w & E & Ev & _). rewrite Hm in E. apply Ok_inj in E. subst m0.
  rewrite seqner_of_ok in Hs. apply Ok_inj in Hs. subst s. pose proof (seqner_sn_ok n L) as Es.
  pose proof (split_halves n L) as U. destruct (C67_in_pf P _ _ U) as (k & A & B & _ & _ & Lk & Ek & _).
  assert (Lk' : k < 2 ^ 128) by (apply N.lt_trans with (2 ^ 64); [exact Lk|reflexivity]).
  destruct (C28_number_pf P k Lk') as (m' & w' & E' & Ev' & _).
  exists (u128_of_n n), (u128_of_n n), m', (Mat (s2b "0A") 0 (to_be 16 k)).
  unfold js_number_num, js_seqner_sn. rewrite Ev, Es. cbn [obind]. rewrite A, B, E', seqner_of_ok.
  split; [reflexivity|]. split; [reflexivity|]. split; [|split; [reflexivity|split; [reflexivity|]]].
  - rewrite <- Ek. split; [intros ->; congruence|intros ->; congruence].
  - rewrite <- Ek. split; [|intros ->; reflexivity]. intros X. pose proof (seqner_sn_ok k Lk') as Y. rewrite X, Es in Y. apply Ok_inj in Y. congruence.
Qed.

Lemma C67_rebuild_ex_pf : forall (P : Profile), number_of 300 = Ok (Mat (s2b "M") 0 [1; 44]) /\ seqner_of 300 = Ok (Mat (s2b "0A") 0 (to_be 16 300)) /\ 300 < 2 ^ 64.
Proof. intros. repeat split; vm_compute; reflexivity. Qed.

Lemma import_no_err {F : Floats} j e : import j <> Err e.
Proof. destruct (import_total j) as [[_ E]|[_ [v E]]]; rewrite E; discriminate. Qed.
Lemma value_ok (F : Floats) s v : from_json s = Ok v -> value_of_text s = Ok v.
Proof. unfold from_json, value_of_text. destruct (json_from_str s); cbn; [auto|discriminate|discriminate]. Qed.
Lemma value_bad (F : Floats) s : (forall v, from_json s <> Ok v) -> value_of_text s = Panic.
Proof.
  unfold from_json, value_of_text. intros H. destruct (json_from_str s) as [j| |]; cbn in *; auto.
  pose proof (import_no_err j) as N. destruct (import j); [exfalso; eapply H; reflexivity|exfalso; eapply N; reflexivity|reflexivity].
Qed.
Lemma names_ok a l : names a l -> names_of_array a = l.
Proof.
  destruct a as [a|], l as [l|]; cbn; try contradiction; auto. intros H. f_equal. induction H as [|x y a l [-> | [-> ->]] _ IH]; cbn; [reflexivity| |]; rewrite IH; reflexivity.
Qed.

(** C68: a value passed as JSON text is handed to the library as the value the text reads as; names as they are, except that what is not a string is the empty name *)
Lemma C68_values_pf : forall (P : Profile) (C : Crypto) (F : Floats) (s : bytes) (v : data) (a : option (list (option bytes))) (l : option (list bytes)), from_json s = Ok v -> names a l ->
  (js_tholder_new_with_thold s = tholder_of_thold v /\ js_tholder_new_with_sith s = tholder_of_sith v) /\
  (forall limen, js_tholder_new (Some s) limen None = tholder_new (Some v) limen None /\ js_tholder_new None limen (Some s) = tholder_new None limen (Some v) /\ js_tholder_new None limen None = tholder_new None limen None) /\
  (forall s' v' limen, from_json s' = Ok v' -> js_tholder_new (Some s) limen (Some s') = tholder_new (Some v) limen (Some v')) /\
  (forall label kind code raw qb64b qb64 qb2, js_saider_new (Some s) label kind a code raw qb64b qb64 qb2 = saider_new (Some v) label kind l code raw qb64b qb64 qb2 /\
     js_saider_new None label kind a code raw qb64b qb64 qb2 = saider_new None label kind l code raw qb64b qb64 qb2) /\
  (forall label kind code, js_saider_new_with_sad s label kind a code = saider_new (Some v) label kind l code None None None None) /\
  (forall self prefixed versioned kind label, js_said_verify self s prefixed versioned kind label a = said_verify self v prefixed versioned kind label l) /\
  (forall code raw kind sad, js_serder_new code raw kind (Some s) sad = serder_new code raw kind (Some v) sad /\ js_serder_new code raw kind None sad = serder_new code raw kind None sad) /\
  (forall code kind, js_serder_new_with_ked s code kind = serder_new code None kind (Some v) None) /\
  (forall code raw qb64b qb64 qb2, js_prefixer_new (Some s) a code raw qb64b qb64 qb2 = prefixer_new (Some v) l code raw qb64b qb64 qb2 /\ js_prefixer_new None a code raw qb64b qb64 qb2 = prefixer_new None l code raw qb64b qb64 qb2) /\
  (forall code, js_prefixer_new_with_ked s a code = prefixer_new (Some v) l code None None None None) /\
  (forall self prefixed, js_prefixer_verify self s prefixed = prefixer_verify self v prefixed).
Proof.
  intros P C F s v a l Hv Hn. apply value_ok in Hv. apply names_ok in Hn.
  unfold js_tholder_new_with_thold, js_tholder_new_with_sith, js_tholder_new, js_saider_new, js_saider_new_with_sad, js_said_verify, js_serder_new, js_serder_new_with_ked, js_prefixer_new, js_prefixer_new_with_ked, js_prefixer_verify, value_of_opt.
  rewrite Hv, Hn. repeat split; intros; try (apply value_ok in H; rewrite H); reflexivity.
Qed.

(** C68: a text that does not read as a value is a crash, not an error, in every one of these calls, even beside material that would be used instead *)
Lemma C68_invalid_pf : forall (P : Profile) (C : Crypto) (F : Floats) (s : bytes) (a : option (list (option bytes))), (forall v, from_json s <> Ok v) ->
  (js_tholder_new_with_thold s = Panic /\ js_tholder_new_with_sith s = Panic) /\
  (forall limen o, js_tholder_new (Some s) limen o = Panic /\ js_tholder_new o limen (Some s) = Panic) /\
  (forall label kind code raw qb64b qb64 qb2, js_saider_new (Some s) label kind a code raw qb64b qb64 qb2 = Panic) /\
  (forall label kind code, js_saider_new_with_sad s label kind a code = Panic) /\
  (forall self prefixed versioned kind label, js_said_verify self s prefixed versioned kind label a = Panic) /\
  (forall code kind label, js_saidify s code kind label a = Panic) /\
  (forall code raw kind sad, js_serder_new code raw kind (Some s) sad = Panic) /\
  (forall code kind, js_serder_new_with_ked s code kind = Panic) /\
  (forall code raw qb64b qb64 qb2, js_prefixer_new (Some s) a code raw qb64b qb64 qb2 = Panic) /\
  (forall code, js_prefixer_new_with_ked s a code = Panic) /\
  (forall self prefixed, js_prefixer_verify self s prefixed = Panic).
Proof.
  intros P C F s a Hv. apply value_bad in Hv.
  unfold js_tholder_new_with_thold, js_tholder_new_with_sith, js_tholder_new, js_saidify, js_saider_new, js_saider_new_with_sad, js_said_verify, js_serder_new, js_serder_new_with_ked, js_prefixer_new, js_prefixer_new_with_ked, js_prefixer_verify, value_of_opt.
  rewrite Hv. repeat split; intros; try reflexivity. destruct o as [o|]; [|reflexivity]. unfold value_of_text. destruct (json_from_str o) as [j| |]; try reflexivity.
  pose proof (import_no_err j) as N. destruct (import j) as [d|e|]; cbn; [reflexivity|exfalso; eapply N; reflexivity|reflexivity].
Qed.

(** the hypotheses are met by a text with white space and an array with a number in it, and by texts that are not JSON, or hold too large a number *)
Lemma C68_values_ex_pf : forall (P : Profile) (F : Floats), from_json (s2b " [ ""1/2"", ""1/2""] ") = Ok (VArr [VStr (s2b "1/2"); VStr (s2b "1/2")]) /\
  names (Some [Some (s2b "a"); None]) (Some [s2b "a"; []]) /\ (forall v, from_json (s2b "{") <> Ok v) /\ (forall v, from_json (s2b "9223372036854775808") <> Ok v) /\ from_json (s2b "{") = Err E_Json.
Proof.
  intros P F. repeat split; try (vm_compute; reflexivity); try (intros v X; vm_compute in X; discriminate X).
  cbn. constructor; [left; reflexivity|]. constructor; [right; auto|constructor].
Qed.

Lemma roundtrip (F : Floats) v : DataDefs.good (fun t => float_text t /\ In 46 t /\ float_of_text t = Some t) v -> depth v <= 127 -> value_of_text (to_json v) = Ok v.
Proof. intros G D. apply value_ok. apply (proj1 (C46_json_round_trip_pf F v G) D). Qed.
Lemma sith_reads (P : Profile) (F : Floats) v t : tholder_of_sith v = Ok t -> (forall n, v = VInt n -> (- 2 ^ 63 <= n < 2 ^ 63)%Z) -> value_of_text (to_json v) = Ok v.
Proof.
  intros S I. destruct (C42_sith_lists_pf P F) as (_ & _ & _ & C). destruct (C _ _ S) as [[n Q]|[[s Q]|(ts & _ & [Q|(ts' & _ & Q)])]]; rewrite Q.
  - apply roundtrip; [constructor; apply I; exact Q|cbn; Lia.lia].
  - apply roundtrip; [constructor|cbn; Lia.lia].
  - destruct (clauses_good (fun t => float_text t /\ In 46 t /\ float_of_text t = Some t) ts) as [Gd Dp]. apply roundtrip; [exact Gd|Lia.lia].
  - destruct (texts_good (fun t => float_text t /\ In 46 t /\ float_of_text t = Some t) ts') as [Gd Dp]. apply roundtrip; [exact Gd|Lia.lia].
Qed.

(** C68: a threshold is rebuilt from its thold text, always, and from its sith text, if it has a clause *)
Lemma C68_threshold_pf : forall (P : Profile) (F : Floats) (t : tholder), made_tholder P F t ->
  js_tholder_new_with_thold (js_tholder_thold t) = Ok t /\
  (th_thold t <> VArr [] -> exists s, js_tholder_sith t = Ok s /\ js_tholder_new_with_sith s = Ok t).
Proof.
  intros P F t M. destruct (C44_rebuilt_pf P F t M) as [A B]. unfold js_tholder_new_with_thold, js_tholder_new_with_sith, js_tholder_thold, js_tholder_sith. split.
  - rewrite (roundtrip F (th_thold t)); [exact A| |].
    + destruct (th_weighted t) eqn:W.
      * destruct (C39_weights_pf P F t M W) as (cs & (_ & E & _) & _). rewrite E. apply clauses_good.
      * destruct (C38_satisfied_pf P F t M W) as (n & L & E & _). rewrite E. constructor. Lia.lia.
    + destruct (th_weighted t) eqn:W.
      * destruct (C39_weights_pf P F t M W) as (cs & (_ & E & _) & _). rewrite E. unfold clauses_value. destruct (clauses_good (fun t => True) (map (map show) cs)) as [_ D]. Lia.lia.
      * destruct (C38_satisfied_pf P F t M W) as (n & L & E & _). rewrite E. cbn. Lia.lia.
  - intros Hne. destruct (B Hne) as (s & E & S). exists (to_json s). rewrite E. cbn [obind]. split; [reflexivity|].
    rewrite (sith_reads P F s t S); [exact S|]. intros n ->. exfalso.
    unfold tholder_sith in E. destruct (th_weighted t) eqn:W; [|inv_bind E x Hx; discriminate E].
    destruct (C39_weights_pf P F t M W) as (cs & (_ & Ec & _) & _). rewrite Ec in E. unfold clauses_value, clause_texts in E. cbn [to_vec obind] in E.
    destruct cs as [|c [|d cs]]; [discriminate E|discriminate E|]. match type of E with (if ?b then _ else _) = _ => destruct b; discriminate E end.
Qed.

Lemma C68_threshold_ex_pf : forall (P : Profile) (F : Floats), exists t, made_tholder P F t /\ js_tholder_sith t = Ok (s2b "[[""1/2"",""1/2"",""1/3""],[""1"",""0""]]") /\ js_tholder_thold t = s2b "[[""1/2"",""1/2"",""1/3""],[""1"",""0""]]" /\ exists u, made_tholder P F u /\ js_tholder_thold u = s2b "2" /\ js_tholder_sith u = Ok (s2b """2""").
Proof.
  intros P F. destruct (two_clauses_made P F) as (t & E & M & W). exists t. split; [exact M|]. vm_compute in E. apply Ok_inj in E. subst t.
  split; [vm_compute; reflexivity|]. split; [vm_compute; reflexivity|]. assert (X : exists u, tholder_of_thold (VInt 2) = Ok u) by (eexists; vm_compute; reflexivity).
  destruct X as [u X]. exists u. split; [exists (Some (VInt 2)), None, None; exact X|]. vm_compute in X. apply Ok_inj in X. subst u. split; vm_compute; reflexivity.
Qed.

Lemma vset_obj v k x w : vset v k x = Ok w -> exists o, w = VObj o.
Proof. destruct v; cbn; try discriminate. intros [= <-]. eauto. Qed.
Lemma saidify_obj (P : Profile) (C : Crypto) sad code kind label ignore r : saidify sad code kind label ignore = Ok r -> exists o, snd r = VObj o.
Proof.
  unfold saidify. intros H. destruct r as [m d]. cbn [snd].
  repeat match type of H with
  | (if ?b then _ else _) = _ => destruct b; [discriminate H|]
  | obind ?x _ = _ => let y := fresh "y" in let E := fresh "E" in destruct x as [y| |] eqn:E; cbn [obind] in H; try discriminate H
  | (let '(_, _) := ?p in _) = _ => destruct p
  end. apply Ok_inj in H. injection H as <- <-. eapply vset_obj; eassumption.
Qed.

(** C69: saidify never returns its result: where the library's saidify succeeds it crashes *)
Lemma C69_saidify_pf : forall (P : Profile) (C : Crypto) (F : Floats) (s : bytes) (code kind label : option bytes) (a : option (list (option bytes))),
  (forall r, js_saidify s code kind label a <> Ok r) /\ (forall v l, from_json s = Ok v -> names a l ->
    (forall e, js_saidify s code kind label a = Err e <-> saidify v code kind label l = Err e) /\ (js_saidify s code kind label a = Panic <-> (exists r, saidify v code kind label l = Ok r) \/ saidify v code kind label l = Panic)).
Proof.
  intros P C F s code kind label a. unfold js_saidify. split.
  - intros r. destruct (value_of_text s) as [v| |]; cbn [obind]; try discriminate.
    destruct (saidify v code kind label (names_of_array a)) as [x| |] eqn:E; cbn [obind]; try discriminate.
    destruct (saidify_obj _ _ _ _ _ _ _ _ E) as [o ->]. cbn. discriminate.
  - intros v l Hv Hn. apply value_ok in Hv. apply names_ok in Hn. rewrite Hv, Hn. cbn [obind].
    destruct (saidify v code kind label l) as [x|e|] eqn:E; cbn [obind].
    + destruct (saidify_obj _ _ _ _ _ _ _ _ E) as [o ->]. cbn. split; [split; discriminate|]. split; [eauto|reflexivity].
    + split; [intros e2; split; intros [= ->]; reflexivity|]. split; [discriminate|intros [[r Q]|Q]; discriminate Q].
    + split; [split; discriminate|]. tauto.
Qed.

Lemma C69_saidify_ex_pf : forall (P : Profile) (F : Floats), let s := s2b "{""d"":"""",""x"":7}" in
  from_json s = Ok (VObj [(s2b "d", VStr []); (s2b "x", VInt 7)]) /\ (exists r, saidify (H0 := toy_crypto) (VObj [(s2b "d", VStr []); (s2b "x", VInt 7)]) None None None None = Ok r) /\ js_saidify (C := toy_crypto) s None None None None = Panic.
Proof. intros P F. split; [vm_compute; reflexivity|]. split; [eexists; vm_compute; reflexivity|vm_compute; reflexivity]. Qed.

Lemma populate_said_obj (P : Profile) (C : Crypto) self ked : snd (populate_said self ked) = Ok tt -> sd_ked self = ked -> exists o, sd_ked (fst (populate_said self ked)) = VObj o.
Proof.
  unfold populate_said. intros H E. destruct (vget ked (s2b "d")) as [v| |] eqn:G; cbn [obind] in *; try discriminate.
  destruct (to_string v) as [t| |]; cbn [obind] in *; try discriminate. destruct (saider_new _ _ _ _ _ _ _ _ _) as [x| |]; cbn in *; try discriminate.
  rewrite E. destruct ked; try discriminate G. eauto.
Qed.
Lemma js_serder_obj (P : Profile) (C : Crypto) (F : Floats) s : js_serder P C F s -> exists o, sd_ked s = VObj o.
Proof.
  induction 1 as [code raw kind ked sad s _ IH H]. unfold js_serder_new in H. inv_bind H k Hk. unfold serder_new in H. inv_bind H x Hx.
  destruct (bytes_eqb (sd_ident x) (s2b "KERI")); [|discriminate]. apply Ok_inj in H. subst x. unfold sadder_new in Hx.
  destruct raw as [raw|].
  - unfold done in Hx. inv_bind Hx u Hu. destruct u. apply Ok_inj in Hx. rewrite <- Hx. unfold populate_from_raw in *. destruct (inhale raw) as [[k' r]| |]; cbn [snd] in Hu; try discriminate Hu.
    destruct (slice raw 0 (vp_size r)) as [p| |]; cbn [snd] in Hu; try discriminate Hu. apply populate_said_obj; [exact Hu|reflexivity].
  - destruct k as [k|].
    + unfold done in Hx. inv_bind Hx u Hu. destruct u. apply Ok_inj in Hx. rewrite <- Hx. unfold populate_from_ked in *. destruct (exhale k kind) as [r| |]; cbn [snd] in Hu; try discriminate Hu.
      apply populate_said_obj; [exact Hu|reflexivity].
    + destruct sad as [y|]; [|discriminate]. apply Ok_inj in Hx. subst y. apply IH. reflexivity.
Qed.

(** C69: neither does ked, for any Serder *)
Lemma C69_ked_pf : forall (P : Profile) (C : Crypto) (F : Floats) (s : sadder), js_serder P C F s -> js_serder_ked s = Panic.
Proof. intros P C F s H. destruct (js_serder_obj _ _ _ _ H) as [o E]. unfold js_serder_ked. rewrite E. reflexivity. Qed.

Lemma C69_ked_ex_pf : forall (P : Profile), exists s, js_serder P toy_crypto toy_floats s.
Proof.
  intros P. assert (X : exists s, js_serder_new (C := toy_crypto) (F := toy_floats) None (Some (s2b "{""v"":""KERI10JSON00004c_"",""d"":""EFJSUlJSUlJSUlJSUlJSUlJSUlJSUlJSUlJSUlJSUlJS""}")) None None None = Ok s) by (eexists; vm_compute; reflexivity).
  destruct X as [s X]. exists s. econstructor; [|exact X]. discriminate.
Qed.

Lemma array_prefix {A} (l : list A) k : (k <= length l)%nat -> fold_left (js_array_set l) (seq 0 k) (repeat None (length l)) = map Some (firstn k l) ++ repeat None (length l - k).
Proof.
  induction k as [|k IH]; intros L; [cbn; rewrite Nat.sub_0_r; reflexivity|].
  replace (S k) with (k + 1)%nat by Lia.lia. rewrite seq_app, fold_left_app, IH by Lia.lia. cbn [seq fold_left plus].
  destruct (nth_error l k) as [x|] eqn:E; [|apply nth_error_None in E; Lia.lia].
  assert (Sp : (length l - k = S (length l - (k + 1)))%nat) by Lia.lia. rewrite Sp. cbn [repeat].
  assert (F1 : firstn (k + 1) l = firstn k l ++ [x]).
  { apply nth_error_split in E as (a & b & -> & La). subst k. rewrite !firstn_app, Nat.sub_diag, !firstn_all2 by Lia.lia. replace (length a + 1 - length a)%nat with 1%nat by Lia.lia. rewrite firstn_O, app_nil_r, firstn_all. reflexivity. }
  rewrite F1, map_app. cbn [map]. unfold js_array_set. rewrite E.
  assert (Q : forall (a b : list (option A)) y z, list_set (fun _ => y) (length a) (a ++ z :: b) = Some (a ++ y :: b)).
  { intros a. clear. induction a as [|w a IHa]; intros b y z; cbn; [reflexivity|]. rewrite IHa. reflexivity. }
  replace k with (length (map (@Some A) (firstn k l))) at 1 by (rewrite map_length, firstn_length; Lia.lia).
  rewrite Q, <- app_assoc. reflexivity.
Qed.
Lemma array_all {A} (l : list A) : js_array l = map Some l.
Proof. unfold js_array. rewrite array_prefix by Lia.lia. rewrite firstn_all, Nat.sub_diag. cbn. apply app_nil_r. Qed.

(** C70: the keys, digests and witnesses of an event come as an array with every entry in its place *)
Lemma C70_arrays_pf : forall (P : Profile) (C : Crypto) (s : sadder),
  (forall l, serder_verfers s = Ok l -> js_serder_verfers s = Ok (map Some l)) /\ (forall l, serder_digers s = Ok l -> js_serder_digers s = Ok (map Some l)) /\ (forall l, serder_werfers s = Ok l -> js_serder_werfers s = Ok (map Some l)) /\ (forall e, (serder_verfers s = Err e <-> js_serder_verfers s = Err e) /\ (serder_digers s = Err e <-> js_serder_digers s = Err e) /\ (serder_werfers s = Err e <-> js_serder_werfers s = Err e)).
Proof.
  intros P C s. unfold js_serder_verfers, js_serder_digers, js_serder_werfers. repeat split; intros; try (rewrite H; cbn [obind]; try rewrite array_all; reflexivity).
  - destruct (serder_verfers s); cbn in H; congruence.
  - destruct (serder_digers s); cbn in H; congruence.
  - destruct (serder_werfers s); cbn in H; congruence.
Qed.

Lemma C70_arrays_ex_pf : forall (P : Profile) (C : Crypto), let key := s2b "D" ++ rep 65 43 in let wit := s2b "B" ++ rep 65 43 in
  let s := Sdr (s2b "E") [] (VObj [(s2b "k", VArr [VStr key; VStr wit])]) (s2b "KERI") (s2b "JSON") 0 (Common.Ver 1 0) (Mat (s2b "E") 0 []) in
  js_serder_verfers s = Ok [Some (Mat (s2b "D") 0 (rep 0 32)); Some (Mat (s2b "B") 0 (rep 0 32))].
Proof. intros P C. vm_compute. reflexivity. Qed.

(** C70: the signer at a position of a list of signers *)
Lemma C70_signers_pf : forall (before after : list signer) (s : signer) (l : list signer) (i : N),
  js_signers_get (before ++ s :: after) (len before) = Some s /\ (js_signers_get l i = None <-> len l <= i).
Proof.
  intros before after s l i. unfold js_signers_get. split.
  - destruct (N.ltb_spec (len before) (len (before ++ s :: after))) as [_|X]; [|exfalso; unfold len in X; rewrite app_length in X; cbn in X; Lia.lia].
    unfold len. rewrite Nat2N.id, nth_error_app2, Nat.sub_diag by Lia.lia. reflexivity.
  - destruct (N.ltb_spec i (len l)) as [L|L]; [|split; auto]. split; [|Lia.lia]. intros X. apply nth_error_None in X. unfold len in *. Lia.lia.
Qed.

Definition all_matter : list matter_codex := [M_Ed25519Seed; M_Ed25519N; M_X25519; M_Ed25519; M_Blake3_256; M_Blake2b_256; M_Blake2s_256; M_SHA3_256; M_SHA2_256; M_ECDSA_256k1_Seed; M_Ed448_Seed; M_X448; M_Short; M_Big; M_X25519_Private; M_X25519_Cipher_Seed; M_Salt_128; M_Ed25519_Sig; M_ECDSA_256k1_Sig; M_Blake3_512; M_Blake2b_512; M_SHA3_512; M_SHA2_512; M_Long; M_ECDSA_256k1N; M_ECDSA_256k1; M_Ed448N; M_Ed448; M_Ed448_Sig; M_Tern; M_DateTime; M_X25519_Cipher_Salt; M_TBD1; M_TBD2; M_StrB64_L0; M_StrB64_L1; M_StrB64_L2; M_StrB64_Big_L0; M_StrB64_Big_L1; M_StrB64_Big_L2; M_Bytes_L0; M_Bytes_L1; M_Bytes_L2; M_Bytes_Big_L0; M_Bytes_Big_L1; M_Bytes_Big_L2].
Definition all_indexer : list indexer_codex := [X_Ed25519; X_Ed25519_Crt; X_ECDSA_256k1; X_ECDSA_256k1_Crt; X_Ed448; X_Ed448_Crt; X_Ed25519_Big; X_Ed25519_Big_Crt; X_ECDSA_256k1_Big; X_ECDSA_256k1_Big_Crt; X_Ed448_Big; X_Ed448_Big_Crt; X_TBD0; X_TBD1; X_TBD4].
Lemma all_matter_in a : In a all_matter. Proof. destruct a; cbn; tauto. Qed.
Lemma all_indexer_in a : In a all_indexer. Proof. destruct a; cbn; tauto. Qed.
Lemma codex_covers {A} (f : A -> bytes) (all : list A) (t r : list bytes) :
  forallb (fun c => mem_code c r || existsb (fun a => bytes_eqb (f a) c) all) t = true -> forallb (fun a => mem_code (f a) t && negb (mem_code (f a) r)) all = true -> (forall a, In a all) ->
  forall c, (exists a, f a = c) <-> In c t /\ ~ In c r.
Proof.
  intros H1 H2 Ha c. rewrite forallb_forall in H1, H2. split.
  - intros [a <-]. specialize (H2 a (Ha a)). apply andb_true_iff in H2 as [X Y]. split; [apply mem_code_In; exact X|]. intros I. apply mem_code_In in I. rewrite I in Y. discriminate Y.
  - intros [I J]. specialize (H1 c I). apply orb_true_iff in H1 as [X|X]; [exfalso; apply J, mem_code_In; exact X|]. apply existsb_exists in X as (a & _ & E). exists a. apply bytes_eqb_eq. exact E.
Qed.
Lemma codex_inj {A} (f : A -> bytes) (all : list A) : NoDup (map f all) -> (forall a, In a all) -> forall a b, f a = f b -> a = b.
Proof.
  intros N Ha a b. generalize (Ha a) (Ha b). clear Ha. revert a b. induction all as [|c l IH]; [contradiction|]. inversion N as [|? ? X Y]; subst.
  intros a b [->|Ia] [->|Ib] E; auto.
  - exfalso. apply X. rewrite E. apply in_map. exact Ib.
  - exfalso. apply X. rewrite <- E. apply in_map. exact Ia.
Qed.
Fixpoint nodup_b (l : list bytes) : bool := match l with [] => true | x :: r => negb (mem_code x r) && nodup_b r end.
Lemma nodup_b_ok l : nodup_b l = true -> NoDup l.
Proof. induction l as [|x l IH]; cbn; [constructor|]. intros H. apply andb_true_iff in H as [X Y]. constructor; [|auto]. intros I. apply mem_code_In in I. rewrite I in X. discriminate X. Qed.

(** C70: the named codes are distinct, and are all codes of the tables but the secp256r1 ones *)
Lemma C70_codex_pf :
  (forall a b : matter_codex, matter_codex_code a = matter_codex_code b -> a = b) /\ (forall a b : indexer_codex, indexer_codex_code a = indexer_codex_code b -> a = b) /\ (forall c, (exists a, matter_codex_code a = c) <-> In c (map fst sizage_table) /\ ~ In c r1_codes) /\ (forall c, (exists a, indexer_codex_code a = c) <-> In c (map fst i_sizage_table) /\ ~ In c r1_indexer_codes).
Proof.
  split; [apply (codex_inj _ all_matter); [apply nodup_b_ok; vm_compute; reflexivity|exact all_matter_in]|].
  split; [apply (codex_inj _ all_indexer); [apply nodup_b_ok; vm_compute; reflexivity|exact all_indexer_in]|].
  split; [apply (codex_covers _ all_matter); [vm_compute; reflexivity|vm_compute; reflexivity|exact all_matter_in]|apply (codex_covers _ all_indexer); [vm_compute; reflexivity|vm_compute; reflexivity|exact all_indexer_in]].
Qed.
Lemma C70_codex_ex_pf : matter_codex_code M_Blake3_256 = s2b "E" /\ indexer_codex_code X_Ed25519_Big_Crt = s2b "2B" /\ In (s2b "1AAJ") r1_codes.
Proof. repeat split; try (vm_compute; reflexivity). cbn. tauto. Qed.

(** C70: the names stand for what they say: the codes of the two named signature suites, the integer codes by width, the digest codes by size, the variable size codes by lead bytes *)
Lemma C70_roles_pf :
  (let m := matter_codex_code in let x := indexer_codex_code in
   nth_error suites 0 = Some (Suite (m M_Ed25519Seed) (m M_Ed25519) (m M_Ed25519N) (m M_Ed25519_Sig) (x X_Ed25519) (x X_Ed25519_Crt) (x X_Ed25519_Big) (x X_Ed25519_Big_Crt) 32 S_Ed25519) /\
   nth_error suites 1 = Some (Suite (m M_ECDSA_256k1_Seed) (m M_ECDSA_256k1) (m M_ECDSA_256k1N) (m M_ECDSA_256k1_Sig) (x X_ECDSA_256k1) (x X_ECDSA_256k1_Crt) (x X_ECDSA_256k1_Big) (x X_ECDSA_256k1_Big_Crt) 33 S_256k1) /\
   number_widths = [(m M_Short, 2); (m M_Long, 4); (m M_Big, 8); (m M_Salt_128, 16)] /\
   (forall c n, In (c, n) digest_sizes <-> n = 32 /\ In c (map m [M_Blake3_256; M_Blake2b_256; M_Blake2s_256; M_SHA3_256; M_SHA2_256]) \/ n = 64 /\ In c (map m [M_Blake3_512; M_Blake2b_512; M_SHA3_512; M_SHA2_512])) /\
   map m [M_StrB64_L0; M_StrB64_L1; M_StrB64_L2] = map (fun lead => small_var_code lead 65) [0; 1; 2] /\ map m [M_StrB64_Big_L0; M_StrB64_Big_L1; M_StrB64_Big_L2] = map (fun lead => large_var_code lead 65) [0; 1; 2] /\
   map m [M_Bytes_L0; M_Bytes_L1; M_Bytes_L2] = map (fun lead => small_var_code lead 66) [0; 1; 2] /\ map m [M_Bytes_Big_L0; M_Bytes_Big_L1; M_Bytes_Big_L2] = map (fun lead => large_var_code lead 66) [0; 1; 2]).
Proof.
  repeat apply conj; try (vm_compute; reflexivity). intros c n. split.
  - intros I. vm_compute in I. repeat (destruct I as [I|I]; [injection I as <- <-; vm_compute; tauto|]). destruct I.
  - intros [[-> I]|[-> I]]; vm_compute in I; repeat (destruct I as [<-|I]; [vm_compute; tauto|]); destruct I.
Qed.
