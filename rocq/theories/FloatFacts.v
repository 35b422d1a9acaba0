From Verif Require Import Base BaseFacts StdStr StdStrFacts Data Json DataDefs JsonFacts MatterFacts3 Float FloatDefs.
Ltac lia := Lia.lia.
Ltac nia := Lia.nia.

(** ** rounding *)
Lemma half_even_def a b : half_even a b = (let q := a / b in let r := a mod b in if 2 * r <? b then q else if b <? 2 * r then q + 1 else if N.even q then q else q + 1).
Proof. unfold half_even, N.div, N.modulo. destruct (N.div_eucl a b). reflexivity. Qed.
Lemma half_even_spec a b : b <> 0 -> let r := half_even a b in (a / b <= r <= a / b + 1) /\
  forall j, dist a (r * b) <= dist a (j * b) /\ (j <> r -> dist a (j * b) = dist a (r * b) -> N.even r = true).
Proof.
  intros Hb. cbv zeta. rewrite half_even_def. cbv zeta. pose proof (N.div_mod' a b) as E. pose proof (N.mod_lt a b Hb) as L. set (q := a / b) in *. set (r := a mod b) in *. clearbody q r.
  assert (D : forall j, (j <= q /\ dist a (j * b) = r + (q - j) * b) \/ (q < j /\ dist a (j * b) = (j - q) * b - r /\ r < (j - q) * b)).
  { intros j. unfold dist. destruct (N.le_gt_cases j q) as [H|H]; [left|right]; (split; [exact H|]).
    - replace q with (j + (q - j)) in E at 1 by lia. nia.
    - replace j with (q + (j - q)) in * by lia. replace (q + (j - q) - q) with (j - q) in * by lia. set (i := j - q) in *. assert (1 <= i) by lia. clearbody i. replace ((q + i) * b) with (q * b + i * b) by lia. nia. }
  assert (Dq : dist a (q * b) = r) by (destruct (D q) as [[_ ->]|[? _]]; lia).
  assert (Dq1 : dist a ((q + 1) * b) = b - r) by (destruct (D (q + 1)) as [[? _]|[_ [-> _]]]; [lia|]; replace (q + 1 - q) with 1 by lia; lia).
  destruct (N.ltb_spec (2 * r) b) as [H1|H1]; [|destruct (N.ltb_spec b (2 * r)) as [H2|H2]; [|destruct (N.even q) eqn:Ev]]; (split; [lia|]); intros j; rewrite ?Dq, ?Dq1.
  - destruct (D j) as [[Hj ->]|[Hj [-> Hx]]].
    + split; [nia|]. intros Nj X. assert (1 <= q - j) by lia. nia.
    + assert (1 <= j - q) by lia. split; [nia|]. intros _ X. nia.
  - destruct (D j) as [[Hj ->]|[Hj [-> Hx]]].
    + split; [nia|]. intros Nj X. nia.
    + assert (1 <= j - q) by lia. split; [nia|]. intros Nj X. assert (2 <= j - q) by lia. nia.
  - destruct (D j) as [[Hj ->]|[Hj [-> Hx]]]; (split; [|auto]); [nia|]. assert (1 <= j - q) by lia. nia.
  - assert (Eq : N.even (q + 1) = true) by (rewrite N.even_add, Ev; reflexivity). destruct (D j) as [[Hj ->]|[Hj [-> Hx]]]; (split; [|auto]); [nia|]. assert (1 <= j - q) by lia. nia.
Qed.
Lemma half_even_scale a b c : b <> 0 -> c <> 0 -> half_even (a * c) (b * c) = half_even a b.
Proof.
  intros Hb Hc. rewrite !half_even_def. cbv zeta. rewrite N.div_mul_cancel_r, N.mul_mod_distr_r by auto.
  replace (2 * (a mod b * c) <? b * c) with (2 * (a mod b) <? b). 2:{ destruct (N.ltb_spec (2 * (a mod b)) b), (N.ltb_spec (2 * (a mod b * c)) (b * c)); auto; nia. }
  replace (b * c <? 2 * (a mod b * c)) with (b <? 2 * (a mod b)). 2:{ destruct (N.ltb_spec b (2 * (a mod b))), (N.ltb_spec (b * c) (2 * (a mod b * c))); auto; nia. }
  reflexivity.
Qed.
Lemma pow_nz n : 2 ^ n <> 0. Proof. apply N.pow_nonzero. discriminate. Qed.
Lemma pow10_nz n : 10 ^ n <> 0. Proof. apply N.pow_nonzero. discriminate. Qed.
Lemma round_scale a b c : b <> 0 -> c <> 0 -> round_f64 (a * c) (b * c) = round_f64 a b.
Proof.
  intros Hb Hc. unfold round_f64. rewrite N.div_mul_cancel_r by auto. set (u := 2 ^ _). assert (u <> 0) by apply pow_nz. replace (b * c * u) with (b * u * c) by lia. rewrite half_even_scale; auto. nia.
Qed.
Lemma round_cross a b a' b' : b <> 0 -> b' <> 0 -> a * b' = a' * b -> round_f64 a b = round_f64 a' b'.
Proof. intros Hb Hb' E. rewrite <- (round_scale a b b'), <- (round_scale a' b' b) by auto. rewrite E. f_equal. lia. Qed.

Lemma round_nearest a b : b <> 0 -> nearest (round_f64 a b) a b.
Proof.
  intros Hb. unfold round_f64. set (v := a / b). set (e := N.log2 v - 52). set (u := 2 ^ e). assert (Hu : u <> 0) by apply pow_nz. assert (HD : b * u <> 0) by nia.
  destruct (half_even_spec a (b * u) HD) as [Hr Hn]. set (r := half_even a (b * u)) in *. cbv zeta in *.
  assert (Hv : v < 2 ^ 53 * u).
  { unfold u. rewrite <- N.pow_add_r. destruct (N.eq_dec v 0) as [->|Nv]; [pose proof (pow_nz (53 + e)); lia|]. apply N.log2_lt_pow2; lia. }
  assert (Hr53 : r <= 2 ^ 53).
  { assert (a / (b * u) < 2 ^ 53); [|lia]. rewrite <- N.div_div by auto. fold v. apply N.div_lt_upper_bound; [auto|]. lia. }
  assert (Hlow : e = 0 \/ 2 ^ 52 * u * b <= a).
  { destruct (N.eq_dec e 0) as [->|Ne]; [auto|right]. assert (2 ^ 52 * u <= v). { unfold u. rewrite <- N.pow_add_r. replace (52 + e) with (N.log2 v) by lia. apply N.log2_spec. destruct (N.eq_dec v 0) as [Z|]; [|lia]. unfold e in Ne. rewrite Z in Ne. cbn in Ne. lia. }
    pose proof (N.mul_div_le a b Hb). fold v in H0. nia. }
  assert (Hdist : forall j, dist a (r * u * b) <= dist a (j * u * b) /\ (j <> r -> dist a (j * u * b) = dist a (r * u * b) -> N.even r = true)).
  { intros j. specialize (Hn j). replace (r * u * b) with (r * (b * u)) by lia. replace (j * u * b) with (j * (b * u)) by lia. exact Hn. }
  split.
  - destruct (N.eq_dec r (2 ^ 53)) as [->|Nr]; [exists (2 ^ 52), (e + 1)|exists r, e]; (split; [|auto; try lia]).
    + unfold u. rewrite N.pow_add_r. change (2 ^ 53) with (2 ^ 52 * 2). lia.
    + reflexivity.
  - intros x (m & e' & -> & Hm).
    assert (Hcase : (exists j, m * 2 ^ e' = j * u) \/ (m * 2 ^ e' < 2 ^ 52 * u /\ 2 ^ 52 * u * b <= a)).
    { destruct (N.le_gt_cases e e') as [L|L].
      - left. exists (m * 2 ^ (e' - e)). unfold u. rewrite <- N.mul_assoc, <- N.pow_add_r. do 2 f_equal. lia.
      - destruct Hlow as [Z|Hlow]; [lia|]. right. split; [|exact Hlow]. apply N.lt_le_trans with (2 ^ 53 * 2 ^ e'); [apply N.mul_lt_mono_pos_r; [pose proof (pow_nz e'); lia|exact Hm]|].
        unfold u. rewrite <- !N.pow_add_r. apply N.pow_le_mono_r; lia. }
    destruct Hcase as [(j & ->)|[Hx Ha]].
    + destruct (Hdist j) as [D1 D2]. split; [exact D1|]. intros Nj De. assert (Ev : N.even r = true) by (apply D2; [intros ->; apply Nj; reflexivity|exact De]).
      apply N.even_spec in Ev as [h Eh]. destruct (N.eq_dec r (2 ^ 53)) as [->|Nr].
      * unfold u. rewrite <- N.pow_add_r. rewrite N.log2_pow2 by lia. exists (2 ^ (53 + e - (53 + e - 52 + 1))). rewrite <- N.pow_add_r. f_equal. lia.
      * destruct (N.eq_dec r 0) as [->|Nz]; [apply N.divide_0_r|]. assert (Hl : N.log2 (r * u) - 52 <= e).
        { unfold u. rewrite N.log2_mul_pow2 by lia. assert (N.log2 r < 53); [|lia]. apply N.log2_lt_pow2; lia. }
        exists (h * 2 ^ (e + 1 - (N.log2 (r * u) - 52 + 1))). rewrite <- N.mul_assoc, <- N.pow_add_r. replace (e + 1 - (N.log2 (r * u) - 52 + 1) + (N.log2 (r * u) - 52 + 1)) with (e + 1) by lia.
        rewrite N.pow_add_r, N.pow_1_r, Eh. fold u. lia.
    + destruct (Hdist (2 ^ 52)) as [D1 _]. set (x := m * 2 ^ e') in *. clearbody x. assert (dist a (2 ^ 52 * u * b) < dist a (x * b)). { set (y := 2 ^ 52 * u) in *. clearbody y. unfold dist. assert (x * b < y * b) by (apply N.mul_lt_mono_pos_r; lia). lia. }
      split; [lia|]. intros _ De. lia.
Qed.
(** rounding is exact where it can be *)
Lemma round_exact k b : b <> 0 -> is_f64 k -> round_f64 (k * b) b = k.
Proof.
  intros Hb Hk. destruct (round_nearest (k * b) b Hb) as [_ N]. destruct (N k Hk) as [D _]. unfold dist in D. set (r := round_f64 (k * b) b) in *. clearbody r. assert (r * b = k * b) by lia. nia.
Qed.
Lemma round_bound a b : b <> 0 -> round_f64 a b <= 2 * (a / b) + 1.
Proof.
  intros Hb. unfold round_f64. set (v := a / b). set (e := N.log2 v - 52). assert (Hu : 2 ^ e <> 0) by apply pow_nz. destruct (half_even_spec a (b * 2 ^ e)) as [[_ H] _]; [nia|]. rewrite <- N.div_div in H by auto. fold v in H.
  pose proof (N.mul_div_le v (2 ^ e) Hu). assert (2 ^ e <= v + 1).
  { destruct (N.eq_dec e 0) as [->|Ne]; [rewrite N.pow_0_r; lia|]. assert (2 ^ e <= 2 ^ N.log2 v) by (apply N.pow_le_mono_r; lia). assert (v <> 0) by (intros Z; unfold e in Ne; rewrite Z in Ne; cbn in Ne; lia). pose proof (N.log2_spec v ltac:(lia)). lia. }
  nia.
Qed.
(** ulp of an f64, and the next one *)
Lemma is_f64_multiple k : is_f64 k -> (2 ^ (N.log2 k - 52) | k).
Proof.
  intros (m & e & -> & Hm). destruct (N.eq_dec m 0) as [->|Nm]; [apply N.divide_0_r|]. rewrite N.log2_mul_pow2 by lia. assert (N.log2 m < 53) by (apply N.log2_lt_pow2; lia).
  exists (m * 2 ^ (e - (e + N.log2 m - 52))). rewrite <- N.mul_assoc, <- N.pow_add_r. do 2 f_equal. lia.
Qed.
Lemma is_f64_next k : is_f64 k -> is_f64 (k + 2 ^ (N.log2 k - 52)).
Proof.
  intros Hk. destruct (is_f64_multiple k Hk) as [m Em]. set (e := N.log2 k - 52) in *. assert (Hm : m < 2 ^ 53).
  { destruct (N.eq_dec k 0) as [->|Nk]; [pose proof (pow_nz e); assert (m = 0) by nia; subst m; reflexivity|]. pose proof (N.log2_spec k ltac:(lia)) as [_ L]. assert (k < 2 ^ 53 * 2 ^ e). { eapply N.lt_le_trans; [exact L|]. rewrite <- N.pow_add_r. apply N.pow_le_mono_r; lia. }
    rewrite Em in H. apply N.mul_lt_mono_pos_r in H; [exact H|]. pose proof (pow_nz e). lia. }
  replace (k + 2 ^ e) with ((m + 1) * 2 ^ e) by lia. destruct (N.eq_dec (m + 1) (2 ^ 53)) as [->|]; [exists (2 ^ 52), (e + 1)|exists (m + 1), e; split; [reflexivity|lia]].
  split; [rewrite N.pow_add_r; change (2 ^ 53) with (2 ^ 52 * 2); lia|reflexivity].
Qed.
Lemma nearest_lt k k' a b : b <> 0 -> nearest k a b -> nearest k' a b -> ~ k < k'.
Proof.
  intros Hb [Fk N] [Fk' N'] L. assert (De : dist a (k * b) = dist a (k' * b)) by (pose proof (proj1 (N k' Fk')); pose proof (proj1 (N' k Fk)); lia).
  pose proof (proj2 (N k' Fk') ltac:(lia) ltac:(lia)) as [h Eh]. pose proof (proj2 (N' k Fk) ltac:(lia) ltac:(lia)) as [h' Eh'].
  set (e := N.log2 k - 52) in *. set (e' := N.log2 k' - 52) in *. assert (Le : e <= e') by (pose proof (N.log2_le_mono k k'); lia). replace (e' + 1) with (e' - e + 1 + e) in Eh' by lia. rewrite N.pow_add_r in Eh, Eh'. rewrite N.pow_add_r in Eh'.
  pose proof (pow_nz e). set (u := 2 ^ e) in *. assert (Hx : k + u < k').
  { rewrite !N.pow_1_r in *. set (w := h' * 2 ^ (e' - e)). assert (E : k' = 2 * w * u) by (unfold w; lia). assert (E0 : k = 2 * h * u) by lia. clearbody w. clear - E E0 L H. assert (h < w) by (apply N.lt_nge; intros Q; assert (2 * w * u <= 2 * h * u) by nia; lia). assert (2 * (h + 1) * u <= 2 * w * u) by nia. lia. }
  pose proof (proj1 (N _ (is_f64_next k Fk))) as D. fold e in D. fold u in D. unfold dist in D, De. assert ((k + u) * b < k' * b) by nia. assert (k * b < (k + u) * b) by nia. lia.
Qed.
Lemma nearest_unique k k' a b : b <> 0 -> nearest k a b -> nearest k' a b -> k = k'.
Proof. intros Hb H H'. pose proof (nearest_lt k k' a b Hb H H'). pose proof (nearest_lt k' k a b Hb H' H). lia. Qed.

(** ** decimals *)
Lemma ratio_of c q a b : decimal_ratio c q a b <-> a = dec_num c q /\ b = dec_den q.
Proof.
  unfold decimal_ratio, dec_num, dec_den, f64_one. destruct (Z.leb_spec 0 q).
  - replace (Z.to_N (- q)) with 0 by lia. rewrite N.pow_0_r. reflexivity.
  - replace (Z.to_N q) with 0 by lia. rewrite N.pow_0_r, N.mul_1_r. reflexivity.
Qed.
Lemma dec_den_nz q : dec_den q <> 0. Proof. apply pow10_nz. Qed.
Lemma nearest_dec k c q : nearest_decimal k c q <-> k = dec_round c q.
Proof.
  unfold nearest_decimal. split.
  - intros H. apply (nearest_unique _ _ (dec_num c q) (dec_den q)); [apply dec_den_nz|apply H, ratio_of; auto|apply round_nearest, dec_den_nz].
  - intros -> a b R. apply ratio_of in R as [-> ->]. apply round_nearest, dec_den_nz.
Qed.
Lemma dec_round_shift c q j : dec_round (c * 10 ^ j) (q - Z.of_N j) = dec_round c q.
Proof.
  apply round_cross; [apply dec_den_nz|apply dec_den_nz|]. unfold dec_num, dec_den. generalize f64_one. intros w.
  transitivity (c * w * (10 ^ j * 10 ^ Z.to_N (q - Z.of_N j) * 10 ^ Z.to_N (- q))); [lia|]. transitivity (c * w * (10 ^ Z.to_N q * 10 ^ Z.to_N (- (q - Z.of_N j)))); [|lia]. f_equal. rewrite <- !N.pow_add_r. f_equal. lia.
Qed.
Lemma dec_round_0 q : dec_round 0 q = 0.
Proof. pose proof (round_exact 0 (dec_den q) (dec_den_nz q)) as H. unfold dec_round, dec_num. rewrite !N.mul_0_l in *. apply H. exists 0, 0. split; reflexivity. Qed.
Lemma dec_round_exact k : is_f64 k -> dec_round (k * 5 ^ 1074) (-1074) = k.
Proof.
  intros Hk. unfold dec_round, dec_num, dec_den, f64_one. change (Z.to_N (-1074)) with 0. change (Z.to_N (- -1074)) with 1074. rewrite N.pow_0_r, N.mul_1_r. generalize 1074. intros n.
  rewrite <- N.mul_assoc, <- N.pow_mul_l. change (5 * 2) with 10. apply round_exact; [apply pow10_nz|exact Hk].
Qed.

(** ** printing *)
Lemma shortest_from_rounds k p : is_f64 k -> forall fuel n c q, shortest_from fuel k p n = (c, q) -> dec_round c q = k.
Proof.
  intros Hk. induction fuel as [|f IH]; intros n c q; cbn [shortest_from].
  - intros [= <- <-]. apply dec_round_exact, Hk.
  - set (near := half_even _ _). set (other := if near =? _ then _ else _). destruct (N.eqb_spec (dec_round near (p - n)) k) as [E|_]; [intros [= <- <-]; exact E|].
    destruct (N.eqb_spec (dec_round other (p - n)) k) as [E|_]; [intros [= <- <-]; exact E|]. apply IH.
Qed.
Lemma strip_zeros_rounds : forall fuel c q c' q', strip_zeros fuel c q = (c', q') -> dec_round c' q' = dec_round c q.
Proof.
  induction fuel as [|f IH]; intros c q c' q'; cbn [strip_zeros]; [intros [= <- <-]; reflexivity|]. destruct ((c mod 10 =? 0) && negb (c =? 0)) eqn:E; [|intros [= <- <-]; reflexivity].
  intros H. rewrite (IH _ _ _ _ H). apply andb_prop in E as [E _]. apply N.eqb_eq in E. rewrite <- (dec_round_shift (c / 10) (q + 1) 1). f_equal; [|lia]. rewrite N.pow_1_r. pose proof (N.div_mod' c 10). lia.
Qed.
Lemma shortest_rounds k c q : is_f64 k -> shortest k = (c, q) -> dec_round c q = k.
Proof.
  intros Hk. unfold shortest. destruct (shortest_from _ _ _ _) as [c1 q1] eqn:E. intros H. rewrite (strip_zeros_rounds _ _ _ _ _ H). apply (shortest_from_rounds k _ Hk _ _ _ _ E).
Qed.
Lemma fold_digits d : forall a, fold_left (fun a c => 10 * a + (c - 48)) d a = a * 10 ^ len d + digits_value d.
Proof.
  induction d as [|c d IH]; intros a.
  - cbn [fold_left]. unfold digits_value. cbn [fold_left]. change (len []) with 0. rewrite N.pow_0_r. lia.
  - unfold digits_value. cbn [fold_left]. rewrite IH. rewrite (IH (10 * 0 + (c - 48))). rewrite len_cons, N.pow_add_r, N.pow_1_r. lia.
Qed.
Lemma digits_value_app a b : digits_value (a ++ b) = digits_value a * 10 ^ len b + digits_value b.
Proof. unfold digits_value at 1. rewrite fold_left_app. fold (digits_value a). apply fold_digits. Qed.
Lemma digits_value_cons c b : digits_value (c :: b) = (c - 48) * 10 ^ len b + digits_value b.
Proof. change (c :: b) with ([c] ++ b). rewrite digits_value_app. reflexivity. Qed.
Lemma dec_value_digits d : (forall c, In c d -> digit c) -> dec_value d = digits_value d.
Proof.
  intros H. unfold dec_value. assert (X : forall a, StdStr.digits_val 10 d a = Some (fold_left (fun a c => 10 * a + (c - 48)) d a)).
  { induction d as [|c d IH]; intros a; [reflexivity|]. cbn [digits_val fold_left]. pose proof (H c (or_introl eq_refl)) as Hc. unfold digit in Hc. unfold digit_val. replace ((48 <=? c) && (c <=? 57)) with true by (symmetry; apply andb_true_intro; split; apply N.leb_le; lia).
    cbv zeta. replace (c - 48 <? 10) with true by (symmetry; apply N.ltb_lt; lia). replace (a * 10 + (c - 48)) with (10 * a + (c - 48)) by lia. apply IH. intros; apply H; right; auto. }
  rewrite X. reflexivity.
Qed.
Lemma digits_value_dec n : digits_value (to_dec n) = n.
Proof. rewrite <- dec_value_digits; [apply dec_value_to_dec|]. apply to_dec_int_part. Qed.
Lemma digits_value_zeros n : digits_value (rep 48 n) = 0.
Proof. unfold rep. induction (N.to_nat n) as [|m IH]; [reflexivity|]. cbn [repeat]. rewrite digits_value_cons, IH. lia. Qed.

(** what a printed f64 looks like *)
Lemma f64_text_parts neg k : is_f64 k -> exists d f frac ex x, f64_text neg k = (if neg then [45] else []) ++ d ++ frac ++ ex /\ int_part d /\ (forall h, In h f -> digit h) /\
  (frac = [] /\ f = [] \/ frac = 46 :: f /\ f <> []) /\
  (ex = [] /\ x = 0%Z \/ exists s y, ex = 101 :: s ++ y /\ y <> [] /\ (forall h, In h y -> digit h) /\ (s = [] /\ x = Z.of_N (digits_value y) \/ s = [45] /\ x = (- Z.of_N (digits_value y))%Z)) /\
  (frac <> [] \/ ex <> []) /\ dec_round (digits_value (d ++ f)) (x - Z.of_N (len f)) = k /\ (k <> 0 -> exists j, digits_value (d ++ f) = fst (shortest k) * 10 ^ j).
Proof.
  intros Hk. unfold f64_text. destruct (N.eqb_spec k 0) as [->|Nk].
  { exists [48], [48], [46; 48], [], 0%Z. split; [reflexivity|]. split; [apply (to_dec_int_part 0)|]. split; [intros h [<-|[]]; split; discriminate|]. split; [right; split; [reflexivity|discriminate]|]. split; [auto|]. split; [left; discriminate|]. split; [apply dec_round_0|congruence]. }
  destruct (shortest k) as [c q] eqn:Es. pose proof (shortest_rounds k c q Hk Es) as R. assert (Nc : c <> 0) by (intros ->; rewrite dec_round_0 in R; congruence).
  pose proof (to_dec_int_part c) as I. pose proof (digits_value_dec c) as V. set (d := to_dec c) in *. set (kk := (Z.of_N (len d) + q)%Z). pose proof I as (Ne & Hd & Hz). assert (L1 : 1 <= len d) by (destruct d; [congruence|rewrite len_cons; lia]).
  assert (Z48 : forall n h, In h (rep 48 n) -> digit h) by (intros n h Hh; apply repeat_spec in Hh; subst h; split; discriminate).
  assert (Hex : forall z, exists s y, 101 :: show_int z = 101 :: s ++ y /\ y <> [] /\ (forall h, In h y -> digit h) /\ (s = [] /\ z = Z.of_N (digits_value y) \/ s = [45] /\ z = (- Z.of_N (digits_value y))%Z)).
  { intros z. unfold show_int. destruct (Z.ltb_spec z 0); [exists [45], (to_dec (Z.to_N (- z)))|exists [], (to_dec (Z.to_N z))]; (split; [reflexivity|]); pose proof (to_dec_int_part (Z.to_N (- z))) as (A & B & _); pose proof (to_dec_int_part (Z.to_N z)) as (A' & B' & _); rewrite digits_value_dec; (split; [assumption|]); (split; [assumption|]); [right|left]; split; auto; lia. }
  assert (Ht : forall n, 1 <= n -> n <= len d -> int_part (take n d)).
  { intros n Hn Hn2. split; [intros E; apply (f_equal len) in E; rewrite len_take in E; change (len (@nil N)) with 0 in E; lia|]. split; [intros h Hh; apply Hd; eapply In_take; exact Hh|].
    intros r Er. destruct d as [|h d']; [congruence|]. assert (h = 48). { clear - Er Hn. unfold take in Er. destruct (N.to_nat n) eqn:En; [lia|]. cbn [firstn] in Er. congruence. } subst h. rewrite (Hz d' eq_refl) in *. apply (f_equal len) in Er. rewrite len_take, !len_cons in Er. change (len (@nil N)) with 0 in Er. destruct r as [|h' r]; [reflexivity|]. rewrite len_cons in Er. lia. }
  destruct ((0 <=? q)%Z && (kk <=? 16)%Z) eqn:B1; [|destruct ((0 <? kk)%Z && (kk <=? 16)%Z) eqn:B2; [|destruct ((-5 <? kk)%Z && (kk <=? 0)%Z) eqn:B3; [|destruct (Z.of_N (len d) =? 1)%Z eqn:B4]]].
  - exists (d ++ rep 48 (Z.to_N q)), [48], [46; 48], [], 0%Z. apply andb_prop in B1 as [B1 _]. apply Z.leb_le in B1.
    split; [rewrite <- !app_assoc; reflexivity|]. split.
    { split; [destruct d; [congruence|discriminate]|]. split; [intros h Hh; apply in_app_or in Hh as [Hh|Hh]; [auto|eapply Z48; eauto]|]. intros r Er. destruct d as [|h d']; [congruence|]. cbn [app] in Er. injection Er as -> Er. exfalso. apply Nc. rewrite <- V, (Hz d' eq_refl). reflexivity. }
    split; [intros h [<-|[]]; split; discriminate|]. split; [right; split; [reflexivity|discriminate]|]. split; [auto|]. split; [left; discriminate|].
    rewrite digits_value_app, digits_value_app, digits_value_zeros, V, len_rep. change (len [48]) with 1. change (digits_value [48]) with 0. rewrite !N.add_0_r. rewrite <- N.mul_assoc, <- N.pow_add_r. split; [rewrite <- R; rewrite <- (dec_round_shift c q (Z.to_N q + 1)); f_equal; lia|intros _; exists (Z.to_N q + 1); reflexivity].
  - apply andb_prop in B2 as [B2 B2']. apply Z.ltb_lt in B2. apply Z.leb_le in B2'. assert (Q : (q < 0)%Z). { apply andb_false_iff in B1 as [B1|B1]; apply Z.leb_gt in B1; lia. }
    exists (take (Z.to_N kk) d), (drop (Z.to_N kk) d), (46 :: drop (Z.to_N kk) d), [], 0%Z. split; [rewrite app_nil_r; reflexivity|]. split; [apply Ht; lia|]. split; [intros h Hh; apply Hd; eapply In_drop; exact Hh|].
    split; [right; split; [reflexivity|]; intros E; apply (f_equal len) in E; rewrite len_drop in E; change (len (@nil N)) with 0 in E; lia|]. split; [auto|]. split; [left; discriminate|].
    rewrite take_drop_id, V, len_drop. (split; [rewrite <- R; f_equal; lia|intros _; exists 0; cbn [fst]; rewrite N.pow_0_r; lia]).
  - apply andb_prop in B3 as [B3 B3']. apply Z.ltb_lt in B3. apply Z.leb_le in B3'.
    exists [48], (rep 48 (Z.to_N (- kk)) ++ d), (46 :: rep 48 (Z.to_N (- kk)) ++ d), [], 0%Z. split; [rewrite app_nil_r; reflexivity|]. split; [apply (to_dec_int_part 0)|].
    split; [intros h Hh; apply in_app_or in Hh as [Hh|Hh]; [eapply Z48; eauto|auto]|]. split; [right; split; [reflexivity|]; destruct d; [congruence|]; intros E; apply app_eq_nil in E as [_ E]; discriminate|]. split; [auto|]. split; [left; discriminate|].
    cbn [app]. rewrite digits_value_cons, digits_value_app, digits_value_zeros, V, len_app, len_rep. (split; [rewrite <- R; f_equal; lia|intros _; exists 0; cbn [fst]; rewrite N.pow_0_r; lia]).
  - apply Z.eqb_eq in B4. destruct (Hex (kk - 1)%Z) as (s & y & E & Y1 & Y2 & Y3). exists d, [], [], (101 :: s ++ y), (kk - 1)%Z. split; [rewrite <- E; reflexivity|]. split; [exact I|]. split; [intros h []|]. split; [auto|].
    split; [right; exists s, y; auto|]. split; [right; discriminate|]. rewrite app_nil_r, V. change (len []) with 0. (split; [rewrite <- R; f_equal; lia|intros _; exists 0; cbn [fst]; rewrite N.pow_0_r; lia]).
  - apply Z.eqb_neq in B4. destruct (Hex (kk - 1)%Z) as (s & y & E & Y1 & Y2 & Y3). exists (take 1 d), (drop 1 d), (46 :: drop 1 d), (101 :: s ++ y), (kk - 1)%Z. split; [rewrite <- E; reflexivity|]. split; [apply Ht; lia|].
    split; [intros h Hh; apply Hd; eapply In_drop; exact Hh|]. split; [right; split; [reflexivity|]; intros E'; apply (f_equal len) in E'; rewrite len_drop in E'; change (len (@nil N)) with 0 in E'; lia|].
    split; [right; exists s, y; auto|]. split; [left; discriminate|]. rewrite take_drop_id, V, len_drop. (split; [rewrite <- R; f_equal; lia|intros _; exists 0; cbn [fst]; rewrite N.pow_0_r; lia]).
Qed.

(** ** reading *)
Definition exp_value (ex : bytes) : Z :=
  match ex with [] => 0%Z | _ :: r => match r with 43 :: d => Z.of_N (dec_value d) | 45 :: d => (- Z.of_N (dec_value d))%Z | _ => Z.of_N (dec_value r) end end.
Lemma plain_sign (A : Type) (y : bytes) (f g : bytes -> A) (h : A) : y <> [] -> (forall c, In c y -> digit c) -> match y with 43 :: d => f d | 45 :: d => g d | _ => h end = h.
Proof.
  destruct y as [|c y]; [congruence|]. intros _ H. pose proof (H c (or_introl eq_refl)) as Hc. unfold digit in Hc. destruct c as [|p]; [reflexivity|]. do 6 (destruct p as [p|p|]; try reflexivity; try (exfalso; lia)).
Qed.
Lemma plain_minus (A : Type) (y : bytes) (g : bytes -> A) (h : A) : y <> [] -> (forall c, In c y -> digit c) -> match y with 45 :: d => g d | _ => h end = h.
Proof.
  destruct y as [|c y]; [congruence|]. intros _ H. pose proof (H c (or_introl eq_refl)) as Hc. unfold digit in Hc. destruct c as [|p]; [reflexivity|]. do 6 (destruct p as [p|p|]; try reflexivity; try (exfalso; lia)).
Qed.
Lemma denotes_numeral_len t neg c q x : denotes t neg c q x -> exists d f ex, len d + len f <= len t /\ numeral t = Some (neg, d, f, ex) /\ d <> [] /\ (forall h, In h (d ++ f) -> digit h) /\
  c = digits_value (d ++ f) /\ q = (x - Z.of_N (len f))%Z /\ x = exp_value ex.
Proof.
  intros (d & f & frac & ex & -> & Nd & Hdf & Hf & He & -> & ->). exists d, f, ex. split; [destruct Hf as [[-> ->]|[-> _]]; rewrite !len_app, ?len_cons; change (len (@nil N)) with 0; lia|].
  assert (Hd : forall h, In h d -> digit h) by (intros; apply Hdf, in_or_app; auto). assert (Hff : forall h, In h f -> digit h) by (intros; apply Hdf, in_or_app; auto).
  assert (He' : ex = [] \/ exists e s y, ex = e :: s ++ y /\ (e = 101 \/ e = 69) /\ (s = [] \/ s = [43] \/ s = [45]) /\ y <> [] /\ (forall h, In h y -> digit h)).
  { destruct He as [[-> _]|(e & s & y & -> & E & Ny & Hy & S)]; [auto|right]. exists e, s, y. split; [reflexivity|]. split; [exact E|]. split; [|split; assumption]. destruct S as [[[-> | ->] _]|[-> _]]; auto. }
  assert (S1 : no_digit ex) by (destruct He' as [->|(e & s & y & -> & [-> | ->] & _)]; cbn; lia).
  assert (S0 : no_digit (frac ++ ex)) by (destruct Hf as [[-> _]|[-> _]]; [exact S1|cbn; lia]).
  split; [|split; [exact Nd|split; [exact Hdf|split; [reflexivity|split; [reflexivity|]]]]].
  - unfold numeral. assert (Es : split_sign ((if neg then [45] else []) ++ d ++ frac ++ ex) = (neg, d ++ frac ++ ex)).
    { destruct neg; [reflexivity|]. destruct d as [|h d]; [congruence|]. cbn [app]. unfold split_sign. pose proof (Hd h (or_introl eq_refl)) as Hh. unfold digit in Hh. destruct h as [|p]; [reflexivity|]. do 6 (destruct p as [p|p|]; try reflexivity; try (exfalso; lia)). }
    rewrite Es. rewrite span_digits_app by auto. destruct d as [|h0 d0] eqn:Ed; [congruence|]. rewrite <- Ed in *. clear Ed.
    assert (Ef : read_frac (frac ++ ex) = Some (frac, ex)).
    { destruct Hf as [[-> ->]|[-> Nf]]; [|apply read_frac_some; auto]. apply read_frac_none. destruct He' as [->|(e & s & y & -> & [-> | ->] & _)]; cbn; auto; lia. }
    rewrite Ef. assert (Ee : read_exp ex = Some (ex, [])).
    { destruct He' as [->|(e & s & y & -> & E & S & Ny & Hy)]; [reflexivity|]. rewrite <- (app_nil_r (s ++ y)) at 1. apply read_exp_some; auto. exact I. }
    rewrite Ee. destruct Hf as [[-> ->]|[-> Nf]]; reflexivity.
  - destruct He as [[-> ->]|(e & s & y & -> & E & Ny & Hy & S)]; [reflexivity|]. rewrite <- (dec_value_digits y Hy) in S. unfold exp_value. destruct S as [[[-> | ->] ->]|[-> ->]]; cbn [app]; try reflexivity. symmetry. apply plain_sign; auto.
Qed.
Lemma denotes_numeral t neg c q x : denotes t neg c q x -> exists d f ex, numeral t = Some (neg, d, f, ex) /\ d <> [] /\ (forall h, In h (d ++ f) -> digit h) /\
  c = digits_value (d ++ f) /\ q = (x - Z.of_N (len f))%Z /\ x = exp_value ex.
Proof. intros H. apply denotes_numeral_len in H as (d & f & ex & _ & H). exists d, f, ex. exact H. Qed.
Lemma denotes_fun t neg c q x neg' c' q' x' : denotes t neg c q x -> denotes t neg' c' q' x' -> neg = neg' /\ c = c' /\ q = q' /\ x = x'.
Proof.
  intros H H'. apply denotes_numeral in H as (d & f & ex & E & _ & _ & -> & -> & ->). apply denotes_numeral in H' as (d' & f' & ex' & E' & _ & _ & -> & -> & ->). rewrite E in E'. injection E' as -> -> -> ->. auto.
Qed.
Lemma digits_value_bound a b : digits_value a <= digits_value (a ++ b).
Proof. rewrite digits_value_app. pose proof (pow10_nz (len b)). nia. Qed.
Lemma collect_int_all d : forall s, s * 10 ^ len d + digits_value d < 2 ^ 64 -> collect_int s d = (s * 10 ^ len d + digits_value d, 0).
Proof.
  induction d as [|c d IH]; intros s; cbn [collect_int].
  - intros _. change (len []) with 0. rewrite N.pow_0_r. change (digits_value []) with 0. f_equal. lia.
  - rewrite digits_value_cons, len_cons, N.pow_add_r, N.pow_1_r. intros H. pose proof (pow10_nz (len d)). assert (E : s * (10 * 10 ^ len d) + ((c - 48) * 10 ^ len d + digits_value d) = (s * 10 + (c - 48)) * 10 ^ len d + digits_value d) by lia. rewrite E in *.
    destruct (N.leb_spec (2 ^ 64) (s * 10 + (c - 48))) as [L|L]; [|apply IH, H]. exfalso. nia.
Qed.
Lemma collect_frac_all d : forall s, s * 10 ^ len d + digits_value d < 2 ^ 64 -> collect_frac s d = (s * 10 ^ len d + digits_value d, len d).
Proof.
  induction d as [|c d IH]; intros s; cbn [collect_frac].
  - intros _. change (len []) with 0. rewrite N.pow_0_r. change (digits_value []) with 0. f_equal. lia.
  - rewrite digits_value_cons, len_cons, N.pow_add_r, N.pow_1_r. intros H. pose proof (pow10_nz (len d)). assert (E : s * (10 * 10 ^ len d) + ((c - 48) * 10 ^ len d + digits_value d) = (s * 10 + (c - 48)) * 10 ^ len d + digits_value d) by lia. rewrite E in *.
    destruct (N.leb_spec (2 ^ 64) (s * 10 + (c - 48))) as [L|L]; [exfalso; nia|]. rewrite (IH _ H). f_equal. lia.
Qed.
Lemma is_f64_small m e : m < 2 ^ 53 -> is_f64 (m * 2 ^ e). Proof. intros H. exists m, e. auto. Qed.
Lemma of_int_exact m e : m < 2 ^ 53 -> f64_of_int (m * 2 ^ e) = m * 2 ^ e * f64_one.
Proof.
  intros H. unfold f64_of_int. rewrite <- (N.mul_1_r (m * 2 ^ e * f64_one)) at 1. apply round_exact; [discriminate|]. unfold f64_one. generalize 1074. intros n. rewrite <- N.mul_assoc, <- N.pow_add_r. apply is_f64_small, H.
Qed.
Lemma pow10_exact n : n <= 22 -> pow10 n = 10 ^ n * f64_one.
Proof.
  intros H. unfold pow10. change 10 with (5 * 2). rewrite N.pow_mul_l. apply of_int_exact. apply N.le_lt_trans with (5 ^ 22); [apply N.pow_le_mono_r; lia|reflexivity].
Qed.
Lemma f64_one_nz : f64_one <> 0. Proof. apply pow_nz. Qed.
Lemma from_parts_short fuel c q : c < 2 ^ 53 -> (-22 <= q <= 22)%Z -> from_parts fuel (f64_of_int c) q = Some (dec_round c q).
Proof.
  intros Hc Hq. pose proof (of_int_exact c 0 Hc) as X. rewrite N.pow_0_r, N.mul_1_r in X. rewrite X. pose proof f64_one_nz as Ho.
  assert (Y : from_parts fuel (c * f64_one) q = if (0 <=? q)%Z then let g := fmul (c * f64_one) (pow10 (Z.to_N q)) in if f64_inf <=? g then None else Some g else Some (fdiv (c * f64_one) (pow10 (Z.to_N (- q))))).
  { destruct fuel; cbn [from_parts]; replace (Z.abs q <=? 308)%Z with true by (symmetry; apply Z.leb_le; lia); reflexivity. }
  rewrite Y. destruct (Z.leb_spec 0 q) as [L|L].
  - cbv zeta. unfold fmul. rewrite pow10_exact by lia. assert (E : round_f64 (c * f64_one * (10 ^ Z.to_N q * f64_one)) f64_one = dec_round c q).
    { apply round_cross; [exact Ho|apply dec_den_nz|]. unfold dec_num, dec_den. replace (Z.to_N (- q)) with 0 by lia. rewrite N.pow_0_r. generalize f64_one. intros w. lia. }
    rewrite E. destruct (N.leb_spec f64_inf (dec_round c q)) as [B|B]; [exfalso|reflexivity]. revert B. apply N.lt_nge. unfold dec_round. eapply N.le_lt_trans; [apply round_bound, dec_den_nz|].
    assert (dec_num c q / dec_den q <= 2 ^ 53 * 10 ^ 22 * f64_one).
    { unfold dec_num, dec_den. replace (Z.to_N (- q)) with 0 by lia. rewrite N.pow_0_r, N.div_1_r. apply N.mul_le_mono_r. apply N.mul_le_mono; [lia|]. apply N.pow_le_mono_r; lia. }
    eapply N.le_lt_trans; [apply N.add_le_mono_r, N.mul_le_mono_l; exact H|]. vm_compute. reflexivity.
  - f_equal. unfold fdiv. rewrite pow10_exact by lia. apply round_cross; [pose proof (pow10_nz (Z.to_N (- q))); nia|apply dec_den_nz|]. unfold dec_num, dec_den. replace (Z.to_N q) with 0 by lia. rewrite N.pow_0_r. generalize f64_one. intros w. lia.
Qed.
Lemma f64_read_short t neg c q x : denotes t neg c q x -> c < 2 ^ 53 -> (-22 <= q <= 22)%Z -> (Z.abs x < 2 ^ 31)%Z -> f64_read t = Some (neg, dec_round c q).
Proof.
  intros H Hc Hq Hx. apply denotes_numeral in H as (d & f & ex & E & Nd & Hdf & Ec & Eq & Ex). unfold f64_read. rewrite E.
  assert (B : digits_value (d ++ f) < 2 ^ 64) by (apply N.lt_le_trans with (2 ^ 53); [lia|apply N.pow_le_mono_r; lia]). assert (B1 : 0 * 10 ^ len d + digits_value d < 2 ^ 64) by (pose proof (digits_value_bound d f); lia).
  rewrite (collect_int_all d 0 B1). rewrite N.mul_0_l, N.add_0_l. rewrite digits_value_app in B, Ec. rewrite (collect_frac_all f _ B). rewrite <- Ec. change (Z.of_N 0) with 0%Z.
  assert (W : with_exponent c (0 - Z.of_N (len f)) ex = Some (dec_round c q)); [|rewrite W; reflexivity].
  destruct ex as [|e r]; [unfold exp_value in Ex; subst x; unfold with_exponent; rewrite from_parts_short; [do 2 f_equal; lia|exact Hc|lia]|].
  unfold with_exponent. unfold exp_value in Ex.
  assert (P : exists positive y, match r with 43 :: d => (true, d) | 45 :: d => (false, d) | _ => (true, r) end = (positive, y) /\ x = if positive then Z.of_N (dec_value y) else (- Z.of_N (dec_value y))%Z).
  { destruct r as [|h r']; [exists true, []; split; [reflexivity|exact Ex]|]. destruct (N.eq_dec h 43) as [->|N1]; [exists true, r'; split; [reflexivity|exact Ex]|]. destruct (N.eq_dec h 45) as [->|N2]; [exists false, r'; split; [reflexivity|exact Ex]|].
    exists true, (h :: r'). assert (M : forall (A : Type) (f g : bytes -> A) (z : A), match h :: r' with 43 :: d => f d | 45 :: d => g d | _ => z end = z). { intros A f0 g0 z. clear - N1 N2. destruct h as [|p]; [reflexivity|]. do 6 (destruct p as [p|p|]; try reflexivity; try (exfalso; congruence)). }
    split; [apply (M _ (fun d => (true, d)) (fun d => (false, d)))|rewrite Ex; apply (M _ (fun d => Z.of_N (dec_value d)) (fun d => (- Z.of_N (dec_value d))%Z))]. }
  destruct P as (positive & y & -> & Px). assert (Hy : dec_value y < 2 ^ 31) by (change (2 ^ 31)%Z with (Z.of_N (2 ^ 31)) in Hx; destruct positive; lia).
  destruct (N.leb_spec (2 ^ 31) (dec_value y)) as [L|L]; [lia|]. rewrite <- (from_parts_short 8 c q Hc Hq). f_equal. unfold sat_i32. change (2 ^ 31)%Z with 2147483648%Z. destruct positive; lia.
Qed.
