(** Lemmas about the typed primitives. *)
From Verif Require Import Base Utf8 B64 Util MatterTables Matter IndexerTables Indexer StdStr Spec MatterDefs Crypto Prims PrimsDefs.
From Verif Require Import BaseFacts B64Facts UtilFacts MatterFacts MatterFacts2 MatterFacts3 SpecFacts MatterFacts4 StdStrFacts MatterThms.

Lemma validate_ok codes c : validate codes c = Ok tt <-> In c codes.
Proof. unfold validate. rewrite <- mem_code_In. destruct (mem_code c codes); split; intros; congruence. Qed.
Lemma validate_yes codes c : In c codes -> validate codes c = Ok tt.
Proof. apply validate_ok. Qed.
Lemma validate_no codes c : ~ In c codes -> validate codes c = Err E_UnexpectedCode.
Proof. unfold validate. rewrite <- mem_code_In. destruct (mem_code c codes); congruence. Qed.
Lemma In_code_dec (c : bytes) l : {In c l} + {~ In c l}.
Proof. apply in_dec, bytes_eq_dec. Qed.

Lemma checked_validate {A} (f : A -> bytes) codes codes' r : (forall c, In c codes <-> In c codes') ->
  checked f codes r (v <- r ;; _ <- validate codes' (f v) ;; Ok v).
Proof.
  intros E. destruct r as [v|e|]; cbn [obind].
  - destruct (In_code_dec (f v) codes) as [I|I].
    + rewrite validate_yes by (apply E; auto). cbn [obind]. split; [|split].
      * intros w. split; [intros [= <-]; auto|intros [[= <-] _]; auto].
      * intros e. split; [discriminate|]. intros [H|[[w [[= <-] H]] _]]; [discriminate|contradiction].
      * split; discriminate.
    + rewrite validate_no by (rewrite <- E; auto). cbn [obind]. split; [|split].
      * intros w. split; [discriminate|intros [[= <-] H]; contradiction].
      * intros e. split; [intros [= <-]; right; eauto|]. intros [H|[_ ->]]; [discriminate|auto].
      * split; discriminate.
  - split; [|split].
    + intros w. split; [discriminate|intros [H _]; discriminate].
    + intros e'. split; [intros [= <-]; auto|]. intros [H|[[w [H _]] _]]; [congruence|discriminate].
    + split; discriminate.
  - split; [|split].
    + intros w. split; [discriminate|intros [H _]; discriminate].
    + intros e'. split; [discriminate|]. intros [H|[[w [H _]] _]]; discriminate.
    + split; auto.
Qed.
Lemma mem_iff (l l' : list bytes) : forallb (fun c => mem_code c l') l && forallb (fun c => mem_code c l) l' = true -> forall c, In c l <-> In c l'.
Proof.
  intros H c. apply andb_true_iff in H as [H1 H2]. split; intros I.
  - eapply forallb_forall in H1; eauto. apply mem_code_In; auto.
  - eapply forallb_forall in H2; eauto. apply mem_code_In; auto.
Qed.

(** a primitive made with a fixed size code from enough raw bytes *)
Lemma fixed_build `{P : Profile} code rs f raw : In (code, (rs, f)) fixed_codes -> rs <= len raw ->
  matter_new_with_code_and_raw code raw = Ok (Mat code 0 (take rs raw)).
Proof.
  intros Hi Hl. destruct (fixed_code_sizage _ _ _ Hi) as [z [Hz [V [_ Hr]]]]. rewrite (new_fixed _ _ _ Hz V), Hr.
  replace (len raw <? rs) with false by lia. reflexivity.
Qed.
Lemma fixed_build_inv `{P : Profile} code rs f raw m : In (code, (rs, f)) fixed_codes ->
  matter_new_with_code_and_raw code raw = Ok m -> m = Mat code 0 (take rs raw) /\ rs <= len raw.
Proof.
  intros Hi H. destruct (fixed_code_sizage _ _ _ Hi) as [z [Hz [V [_ Hr]]]]. rewrite (new_fixed _ _ _ Hz V), Hr in H.
  destruct (len raw <? rs) eqn:E; [discriminate|]. injection H as <-. split; auto. lia.
Qed.
Lemma fixed_wf code rs f raw : In (code, (rs, f)) fixed_codes -> len raw = rs -> bytes_ok raw = true ->
  exists z, wf (Mat code 0 raw) z /\ full_of z 0 = f /\ variable z = false.
Proof.
  intros Hi Hl Hb. destruct (fixed_code_sizage _ _ _ Hi) as [z [Hz [V [Hf Hr]]]]. exists z. split.
  - constructor; cbn [m_code m_size m_raw]; auto. unfold raw_len_ok. rewrite V. split; [reflexivity|lia].
  - split; [|exact V]. unfold full_of. rewrite V. exact Hf.
Qed.
(** the wire forms of such a primitive and their parsing *)
Lemma fixed_wire `{P : Profile} code rs f raw : In (code, (rs, f)) fixed_codes -> len raw = rs -> bytes_ok raw = true ->
  exists t b, matter_qb64 (Mat code 0 raw) = Ok t /\ matter_qb2 (Mat code 0 raw) = Ok b /\ len t = f /\ all_b64 t = true /\ bytes_ok b = true /\
    matter_exfil t = Ok (Mat code 0 raw) /\ matter_bexfil b = Ok (Mat code 0 raw) /\ from_utf8 t = Ok t.
Proof.
  intros Hi Hl Hb. destruct (fixed_wf _ _ _ _ Hi Hl Hb) as [z [W [Hf V]]]. exists (text_of z (Mat code 0 raw)), (bin_of z (Mat code 0 raw)).
  split; [apply infil_wf; auto|]. split; [apply binfil_wf; auto|]. split; [rewrite (len_text _ _ W); auto|].
  pose proof (all_b64_text _ _ W) as Ha. split; [auto|]. split; [apply bytes_ok_bin; auto|].
  pose proof (exfil_text z (Mat code 0 raw) [] W eq_refl) as X. rewrite app_nil_r in X. split; [exact X|].
  pose proof (bexfil_bin z (Mat code 0 raw) [] W eq_refl) as Y. rewrite app_nil_r in Y. split; [exact Y|].
  apply from_utf8_ascii, all_b64_ascii; auto.
Qed.

(** ** numbers *)
Definition nw (n : N) : bytes * nat :=
  if n <? 256 ^ 2 then (s2b "M", 2%nat) else if n <? 256 ^ 4 then (s2b "0H", 4%nat) else if n <? 256 ^ 8 then (s2b "N", 8%nat) else (s2b "0A", 16%nat).
Lemma nw_cases n : n < 2 ^ 128 -> let '(c, w) := nw n in
  In (c, N.of_nat w) number_widths /\ n < 256 ^ N.of_nat w /\ (forall c' w', In (c', w') number_widths -> n < 256 ^ w' -> N.of_nat w <= w') /\
  exists f, In (c, (N.of_nat w, f)) fixed_codes.
Proof.
  intros Hn. unfold nw. destruct (N.ltb_spec n (256 ^ 2)); [|destruct (N.ltb_spec n (256 ^ 4)); [|destruct (N.ltb_spec n (256 ^ 8))]];
   (split; [vm_compute; tauto|]; split; [change (N.of_nat 16) with 16; npow; lia|]; split;
    [intros c' w' I L; cbn in I; repeat (destruct I as [[= <- <-]|I]; [npow; lia|]); contradiction|
     eexists; vm_compute; tauto]).
Qed.
Lemma from_to_be k n : n < 256 ^ N.of_nat k -> from_be (to_be k n) = n.
Proof. intros H. rewrite from_be_val, to_be_digits. apply digits_small; [lia|auto]. Qed.
Lemma number_num_width m w : In (m_code m, w) number_widths -> number_num m = if len (m_raw m) =? w then Ok (from_be (m_raw m)) else Panic.
Proof. unfold number_num. intros I. cbn in I. repeat (destruct I as [[= E <-]|I]; [rewrite <- E; reflexivity|]). contradiction. Qed.
Lemma number_num_other m : ~ In (m_code m) (map fst number_widths) -> number_num m = Err E_UnexpectedCode.
Proof.
  intros I. unfold number_num.
  destruct (bytes_eqb (m_code m) (s2b "M")) eqn:E1; [apply bytes_eqb_eq in E1; exfalso; apply I; rewrite E1; vm_compute; tauto|].
  destruct (bytes_eqb (m_code m) (s2b "0H")) eqn:E2; [apply bytes_eqb_eq in E2; exfalso; apply I; rewrite E2; vm_compute; tauto|].
  destruct (bytes_eqb (m_code m) (s2b "N")) eqn:E3; [apply bytes_eqb_eq in E3; exfalso; apply I; rewrite E3; vm_compute; tauto|].
  destruct (bytes_eqb (m_code m) (s2b "0A")) eqn:E4; [apply bytes_eqb_eq in E4; exfalso; apply I; rewrite E4; vm_compute; tauto|].
  reflexivity.
Qed.
Lemma number_of_eq `{P : Profile} n : number_of n = matter_new_with_code_and_raw (fst (nw n)) (to_be (snd (nw n)) n).
Proof.
  unfold number_of, number_new, nw. cbn [none andb obind]. destruct (n <? 256 ^ 2); [reflexivity|]. destruct (n <? 256 ^ 4); [reflexivity|].
  destruct (n <? 256 ^ 8); reflexivity.
Qed.
Lemma number_of_ok `{P : Profile} n : n < 2 ^ 128 -> number_of n = Ok (Mat (fst (nw n)) 0 (to_be (snd (nw n)) n)).
Proof.
  intros Hn. rewrite number_of_eq. pose proof (nw_cases n Hn) as H. destruct (nw n) as [c w]. cbn [fst snd]. destruct H as [_ [_ [_ [f If]]]].
  rewrite (fixed_build _ _ _ _ If) by (rewrite len_to_be; lia). rewrite take_all by (rewrite len_to_be; lia). reflexivity.
Qed.

(** ** hexadecimal *)
Lemma hex_digit_val c d : hex_digit c d <-> digit_val 16 c = Some d.
Proof.
  unfold hex_digit, digit_val. destruct ((48 <=? c) && (c <=? 57)) eqn:E1; [|destruct ((97 <=? c) && (c <=? 122)) eqn:E2; [|destruct ((65 <=? c) && (c <=? 90)) eqn:E3]];
   try (match goal with |- context [?v <? 16] => destruct (N.ltb_spec v 16) end); split; intros HX; try discriminate; try injection HX as <-; try lia; f_equal; lia.
Qed.
Lemma Forall2_imp {A B} (R S : A -> B -> Prop) l m : (forall a b, R a b -> S a b) -> Forall2 R l m -> Forall2 S l m.
Proof. intros H. induction 1; constructor; auto. Qed.
Lemma value_val_eq b l : value b l = val b l.
Proof. induction l as [|x l IH]; [reflexivity|]. cbn [value]. rewrite val_cons, IH. reflexivity. Qed.
Lemma hex_numeral_val s n : hex_numeral s n <-> StdStr.digits_val 16 s 0 = Some n.
Proof.
  unfold hex_numeral. split.
  - intros [ds [F ->]]. rewrite value_val_eq. apply digits_val_ok. eapply Forall2_imp; [|exact F]. intros a b. apply hex_digit_val.
  - intros H. apply digits_val_some in H as [ds [F ->]]. exists ds. rewrite value_val_eq. split; auto. eapply Forall2_imp; [|exact F]. intros a b. apply hex_digit_val.
Qed.
Lemma hex_not_plus r n : ~ hex_numeral (43 :: r) n.
Proof. intros H. apply hex_numeral_val in H. discriminate. Qed.
Lemma parse_uint_plus radix max r : parse_uint radix max (43 :: r) = match r with [] => None | _ =>
  match StdStr.digits_val radix r 0 with Some n => if n <=? max then Some n else None | None => None end end.
Proof. reflexivity. Qed.
Lemma parse_hex_iff s n : parse_hex_u128 s = Ok n <-> hex_input s n.
Proof.
  unfold parse_hex_u128, hex_input. destruct s as [|c r].
  - split; [discriminate|]. intros [d [Hd [[<-|H] _]]]; [congruence|discriminate].
  - destruct (N.eq_dec c 43) as [->|Hc].
    + rewrite parse_uint_plus. destruct r as [|c' r].
      * split; [discriminate|]. intros [d [Hd [[<-|[= <-]] [Hn _]]]]; [exfalso; eapply hex_not_plus; eauto|congruence].
      * destruct (StdStr.digits_val 16 (c' :: r) 0) as [v|] eqn:E.
        -- destruct (N.leb_spec v (U128 - 1)) as [L|L]; split.
           ++ intros [= <-]. exists (c' :: r). repeat split; auto; [discriminate|apply hex_numeral_val; auto|unfold U128 in *; lia].
           ++ intros [d [Hd [[<-|[= <-]] [Hn _]]]]; [exfalso; eapply hex_not_plus; eauto|]. apply hex_numeral_val in Hn. congruence.
           ++ discriminate.
           ++ intros [d [Hd [[<-|[= <-]] [Hn Hl]]]]; [exfalso; eapply hex_not_plus; eauto|]. apply hex_numeral_val in Hn. rewrite E in Hn. injection Hn as <-. unfold U128 in *. lia.
        -- split; [discriminate|]. intros [d [Hd [[<-|[= <-]] [Hn Hl]]]]; [exfalso; eapply hex_not_plus; eauto|]. apply hex_numeral_val in Hn. congruence.
    + rewrite parse_uint_digits by auto. destruct (StdStr.digits_val 16 (c :: r) 0) as [v|] eqn:E.
      * destruct (N.leb_spec v (U128 - 1)) as [L|L]; split.
        -- intros [= <-]. exists (c :: r). repeat split; auto; [discriminate|apply hex_numeral_val; auto|unfold U128 in *; lia].
        -- intros [d [Hd [[<-|[= -> _]] [Hn _]]]]; [|congruence]. apply hex_numeral_val in Hn. congruence.
        -- discriminate.
        -- intros [d [Hd [[<-|[= -> _]] [Hn Hl]]]]; [|congruence]. apply hex_numeral_val in Hn. rewrite E in Hn. injection Hn as <-. unfold U128 in *. lia.
      * split; [discriminate|]. intros [d [Hd [[<-|[= -> _]] [Hn Hl]]]]; [|congruence]. apply hex_numeral_val in Hn. congruence.
Qed.
Lemma parse_hex_err s : (forall n, ~ hex_input s n) -> parse_hex_u128 s = Err E_ParseInt.
Proof.
  intros H. destruct (parse_hex_u128 s) as [n|e|] eqn:E.
  - exfalso. eapply H. apply parse_hex_iff; eauto.
  - unfold parse_hex_u128 in E. destruct (parse_uint _ _ _); congruence.
  - unfold parse_hex_u128 in E. destruct (parse_uint _ _ _); discriminate.
Qed.
Lemma hex_input_fun s n n' : hex_input s n -> hex_input s n' -> n = n'.
Proof. rewrite <- !parse_hex_iff. congruence. Qed.
Lemma to_hex_input n : n < 2 ^ 128 -> hex_input (to_hex n) n.
Proof.
  intros H. apply parse_hex_iff. unfold parse_hex_u128, to_hex. rewrite parse_uint_radix by lia.
  replace (n <=? U128 - 1) with true; [reflexivity|]. unfold U128. symmetry. apply N.leb_le. lia.
Qed.
Lemma to_hex_canonical n : hex_canonical (to_hex n).
Proof.
  split.
  - intros c I. apply to_radix_chars in I as [d [Hd ->]]; try lia. apply digit_char_range; auto.
  - unfold to_hex. destruct (to_radix_spec 16 n) as [ds [E [F [V [_ [Hnz Hz]]]]]]; try lia. rewrite E. destruct (N.eq_dec n 0) as [->|Hn].
    + left. rewrite (Hz eq_refl). reflexivity.
    + right. destruct (Hnz Hn) as [h [t [-> Hh]]]. cbn [map]. eexists _, _. split; [reflexivity|].
      unfold digit_char. destruct (h <? 10) eqn:Eh; lia.
Qed.

(** ** lexicographic order *)
Lemma lex_irrefl l : ~ lex_lt l l.
Proof. induction l as [|x l IH]; intros H; inversion H; subst; [lia|auto]. Qed.
Lemma lex_app p a b : lex_lt (p ++ a) (p ++ b) <-> lex_lt a b.
Proof.
  induction p as [|x p IH]; [tauto|]. cbn [app]. split; intros H.
  - inversion H; subst; [lia|]. apply IH; auto.
  - apply lex_tail. apply IH; auto.
Qed.
Lemma lex_val b l : 0 < b -> forall l', Forall (fun d => d < b) l -> Forall (fun d => d < b) l' -> len l = len l' ->
  (lex_lt l l' <-> val b l < val b l').
Proof.
  intros Hb. induction l as [|x l IH]; intros [|y l'] F F' E; try (rewrite ?len_cons in E; change (len (@nil N)) with 0 in E; lia).
  - split; [intros H; inversion H|change (val b []) with 0; lia].
  - inversion F; inversion F'; subst. rewrite !len_cons in E. assert (E' : len l = len l') by lia. specialize (IH l' H2 H6 E').
    rewrite !val_cons, E'. pose proof (val_lt b l Hb H2) as L1. pose proof (val_lt b l' Hb H6) as L2. rewrite E' in L1. set (B := b ^ len l') in *.
    split.
    + intros H. inversion H; subst; [|apply IH in H3; lia].
      assert (x * B + B <= y * B) by (replace (x * B + B) with ((x + 1) * B) by lia; apply N.mul_le_mono_r; lia). lia.
    + intros H. destruct (N.lt_trichotomy x y) as [L|[->|L]]; [constructor 2; auto|constructor 3; apply IH; lia|].
      exfalso. assert (y * B + B <= x * B) by (replace (y * B + B) with ((y + 1) * B) by lia; apply N.mul_le_mono_r; lia). lia.
Qed.
