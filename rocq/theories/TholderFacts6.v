(** Thresholds: sums never come out too large, whatever overflows. *)
From Coq Require Import QArith Lia Znumtheory Zpow_facts.
From Verif Require Import Base Utf8 MatterTables Matter StdStr Data Json Prims Spec Tholder TholderDefs BaseFacts UtilFacts StdStrFacts PrimsFacts PrimsFacts2 PrimsThms TholderFacts TholderFacts2 TholderFacts3 TholderFacts4.
Open Scope Z_scope.

Definition plain (r : ratio) : Prop := 0 <= numer r /\ 0 < denom r /\ small r.
(** at most [k] over [D] *)
Definition at_most (r : ratio) (k D : Z) : Prop := numer r * D <= k * denom r.

Lemma pow_divides_lcm a b g : 0 < a -> 0 < b -> a < 2 ^ 31 -> b < 2 ^ 31 -> g = Z.gcd a b -> ~ (2 ^ 31 | a * (b ÷ g)).
Proof.
  intros Ha Hb La Lb Eg H. assert (Hg : 0 < g). { pose proof (Z.gcd_nonneg a b). destruct (Z.eq_dec g 0) as [X|]; [rewrite X in Eg; symmetry in Eg; apply Z.gcd_eq_0 in Eg; Lia.lia|Lia.lia]. }
  destruct (Z.gcd_divide_l a b) as [a' Ea]. destruct (Z.gcd_divide_r a b) as [b' Eb]. rewrite <- Eg in Ea, Eb.
  assert (Qb : b ÷ g = b') by (rewrite Eb; apply Z.quot_mul; Lia.lia). rewrite Qb in H.
  assert (G : Z.gcd a' b' = 1). { pose proof (Z.gcd_div_gcd a b g ltac:(Lia.lia) Eg) as X. rewrite Ea, Eb in X. rewrite !Z.div_mul in X by Lia.lia. exact X. }
  assert (Odd : forall x y, (2 ^ 31 | x * y) -> Z.gcd 2 y = 1 -> (2 ^ 31 | x)).
  { intros x y D C. apply (Z.gauss _ y); [rewrite Z.mul_comm; exact D|]. apply Zgcd_1_rel_prime. apply rel_prime_sym. apply rel_prime_Zpower_r; [Lia.lia|]. apply rel_prime_sym. apply Zgcd_1_rel_prime. exact C. }
  assert (Par : forall y, Z.gcd 2 y = 1 \/ (2 | y)). { intros y. destruct (Z.even y) eqn:E; [right; apply Zeven_bool_iff in E; apply Zeven_ex_iff in E as [q ->]; exists q; ring|]. left. apply Zgcd_1_rel_prime. apply prime_rel_prime; [exact prime_2|]. intros [q Q]. rewrite Q, Z.mul_comm, Z.even_mul in E. discriminate E. }
  destruct (Par b') as [C|C].
  - apply Odd in H; [|exact C]. apply Z.divide_pos_le in H; Lia.lia.
  - destruct (Par a') as [D|D].
    + replace (a * b') with (b * a') in H by (rewrite Ea, Eb; ring). apply Odd in H; [|exact D]. apply Z.divide_pos_le in H; Lia.lia.
    + assert (X : (2 | Z.gcd a' b')) by (apply Z.gcd_greatest; assumption). rewrite G in X. apply Z.divide_pos_le in X; Lia.lia.
Qed.
Lemma reduce_at_most `{Profile} n m k D : 0 < m -> 0 <= n -> n < 2 ^ 31 -> m < 2 ^ 31 -> n * D <= k * m -> exists s, ratio_reduce n m = Ok s /\ plain s /\ at_most s k D.
Proof.
  intros Hm Hn Ln Lm E. destruct (reduce_ok n m Hm Hn) as (s & Es & (S1 & S2 & _) & Ev & B1 & B2). exists s. split; [exact Es|]. split; [repeat split; Lia.lia|].
  unfold at_most. apply (Z.mul_le_mono_pos_r _ _ m Hm). replace (numer s * D * m) with (numer s * m * D) by ring. rewrite Ev. replace (n * denom s * D) with (n * D * denom s) by ring. replace (k * denom s * m) with (k * m * denom s) by ring. apply Z.mul_le_mono_nonneg_r; Lia.lia.
Qed.
Lemma wrap_range z : - 2 ^ 31 <= wrap32 z < 2 ^ 31 /\ (2 ^ 31 | wrap32 z - z).
Proof.
  unfold wrap32. pose proof (Z.mod_pos_bound (z + 2 ^ 31) (2 ^ 32) ltac:(Lia.lia)) as B. change (2 ^ 32) with 4294967296 in *. change (2 ^ 31) with 2147483648 in *. split; [Lia.lia|].
  pose proof (Z.div_mod (z + 2147483648) 4294967296 ltac:(Lia.lia)) as E. exists (- 2 * ((z + 2147483648) / 4294967296)). Lia.lia.
Qed.
Lemma i32_any `{Profile} z : i32 z = Panic \/ exists y, i32 z = Ok y /\ - 2 ^ 31 <= y < 2 ^ 31 /\ (2 ^ 31 | y - z).
Proof.
  unfold i32. destruct (_ && _) eqn:E.
  - right. exists z. apply andb_true_iff in E as [A B]. apply Z.leb_le in A. apply Z.ltb_lt in B. split; [reflexivity|]. split; [auto|]. exists 0. Lia.lia.
  - destruct overflow_checks; [auto|]. right. exists (wrap32 z). split; [reflexivity|]. apply wrap_range.
Qed.
Lemma add_at_most `{Profile} a b ka kb D : plain a -> plain b -> 0 < D -> at_most a ka D -> at_most b kb D -> ka + kb < D ->
  ratio_add a b = Panic \/ exists s, ratio_add a b = Ok s /\ plain s /\ at_most s (ka + kb) D.
Proof.
  intros (Na & Da & Sa1 & Sa2) (Nb & Db & Sb1 & Sb2) HD Ea Eb Hk. unfold ratio_add, at_most in *. destruct (Z.eqb_spec (denom a) (denom b)) as [Ed|Ed].
  - right. rewrite <- Ed in *. assert (X : (numer a + numer b) * D <= (ka + kb) * denom a) by Lia.lia. assert (Y : numer a + numer b < denom a) by (clear - X Hk HD Da; nia).
    rewrite i32_ok by Lia.lia. cbn [obind]. destruct (reduce_at_most (numer a + numer b) (denom a) (ka + kb) D) as (s & R); auto; try Lia.lia. exists s. exact R.
  - cbv zeta. remember (Z.gcd (denom a) (denom b)) as g eqn:Eg. pose proof (pow_divides_lcm _ _ _ Da Db Sa2 Sb2 Eg) as ND. set (L := denom a * (denom b ÷ g)) in *.
    destruct (i32_any L) as [-> | (m0 & -> & R0 & D0)]; [left; reflexivity|]. cbn [obind].
    assert (M0 : m0 <> - 2 ^ 31). { intros ->. apply ND. destruct D0 as [q Hq]. exists (- q - 1). Lia.lia. }
    rewrite i32_ok by Lia.lia. cbn [obind]. set (m := Z.abs m0). assert (Rm : 0 <= m < 2 ^ 31) by (unfold m; Lia.lia). clearbody m. clear m0 R0 D0 M0 ND.
    destruct (Z.eq_dec m 0) as [->|Hm0].
    { left. rewrite !Z.quot_0_l by Lia.lia. rewrite !Z.mul_0_r. rewrite i32_ok by Lia.lia. cbn [obind]. rewrite i32_ok by Lia.lia. reflexivity. }
    assert (Hm : 0 < m) by Lia.lia. clear Hm0. rewrite !Z.quot_div_nonneg by Lia.lia. 
    assert (Pa : 0 <= m / denom a) by (apply Z.div_pos; Lia.lia). assert (Pb : 0 <= m / denom b) by (apply Z.div_pos; Lia.lia).
    assert (Qa : denom a * (m / denom a) <= m) by (apply Z.mul_div_le; Lia.lia). assert (Qb : denom b * (m / denom b) <= m) by (apply Z.mul_div_le; Lia.lia).
    set (pa := m / denom a) in *. set (pb := m / denom b) in *. clearbody pa pb.
    assert (Ka : 0 <= ka) by (clear - Ea Na Da HD; nia). assert (Kb : 0 <= kb) by (clear - Eb Nb Db HD; nia).
    assert (La : numer a * pa * D <= ka * m). { apply Z.le_trans with (ka * (denom a * pa)); [|apply Z.mul_le_mono_nonneg_l; auto]. replace (numer a * pa * D) with (numer a * D * pa) by ring. replace (ka * (denom a * pa)) with (ka * denom a * pa) by ring. apply Z.mul_le_mono_nonneg_r; auto. }
    assert (Lb : numer b * pb * D <= kb * m). { apply Z.le_trans with (kb * (denom b * pb)); [|apply Z.mul_le_mono_nonneg_l; auto]. replace (numer b * pb * D) with (numer b * D * pb) by ring. replace (kb * (denom b * pb)) with (kb * denom b * pb) by ring. apply Z.mul_le_mono_nonneg_r; auto. }
    assert (A0 : 0 <= numer a * pa) by (apply Z.mul_nonneg_nonneg; auto). assert (B0 : 0 <= numer b * pb) by (apply Z.mul_nonneg_nonneg; auto). set (l := numer a * pa) in *. set (r := numer b * pb) in *. clearbody l r.
    assert (X : (l + r) * D <= (ka + kb) * m) by Lia.lia. assert (Y : l + r < m) by (clear - X Hk HD Hm; nia).
    right. rewrite i32_ok by Lia.lia. cbn [obind]. rewrite i32_ok by Lia.lia. cbn [obind]. rewrite i32_ok by Lia.lia. cbn [obind]. destruct (reduce_at_most (l + r) m (ka + kb) D) as (s & R); auto; try Lia.lia. exists s. exact R.
Qed.
Lemma sum_over_nonneg D ws : 0 < D -> Forall good ws -> Forall (fun w => (Z.of_N (snd w) | D)) ws -> 0 <= sum_over D ws.
Proof. intros HD G C. induction ws as [|w ws IH]; [cbn; Lia.lia|]. inversion C; inversion G; subst. cbn [sum_over fold_right]. fold (sum_over D ws). specialize (IH H6 H2). destruct H5. pose proof (over_bounds D w HD H H0 H1). Lia.lia. Qed.
Lemma sum_at_most `{Profile} D c ws acc k0 : Forall2 stands_for c ws -> common D ws -> plain acc -> at_most acc k0 D -> k0 + sum_over D ws < D ->
  ratio_sum acc c = Panic \/ exists s, ratio_sum acc c = Ok s /\ plain s /\ at_most s (k0 + sum_over D ws) D.
Proof.
  intros F. revert acc k0. induction F as [|r w c ws Hr F IH]; intros acc k0 [HD C] Pa Ea Hk.
  - right. exists acc. cbn [ratio_sum sum_over fold_right]. rewrite Z.add_0_r. auto.
  - inversion C as [|? ? Cw C']; subst. pose proof (stands_over r w D Hr HD Cw) as Er. pose proof Hr as ((Hd & Hn & _) & Sr & _).
    pose proof (sum_over_nonneg D ws HD (stands_good c ws F) C') as S0. cbn [sum_over fold_right] in Hk. fold (sum_over D ws) in Hk.
    cbn [ratio_sum]. destruct (add_at_most acc r k0 (over D w) D) as [-> | (s & -> & Ps & Es)]; auto; [repeat split; auto; apply Sr|unfold at_most; unfold is_over in Er; Lia.lia|Lia.lia|]. cbn [obind].
    destruct (IH s (k0 + over D w) (conj HD C') Ps Es ltac:(Lia.lia)) as [-> | (s' & -> & Ps' & Es')]; [auto|]. right. exists s'. split; [reflexivity|]. split; [exact Ps'|]. cbn [sum_over fold_right]. fold (sum_over D ws). rewrite Z.add_assoc. exact Es'.
Qed.
Lemma sel_sum_safe `{Profile} idx pos c ws s : Forall2 stands_for c ws -> ratio_sum (Rat 0 1) (sel idx pos c) = Ok s -> ratio_lt_one s = false -> (1 <= weight_at idx pos ws)%Q.
Proof.
  intros F E R. pose proof (stands_good c ws F) as G. pose proof (cden_common ws (good_pos ws G)) as [HD CD].
  rewrite sel_total, (total_over (cden ws)); [|split; [exact HD|apply sel_Forall; exact CD]|apply sel_Forall, good_pos; exact G]. apply one_le_over; [exact HD|].
  destruct (Z.le_gt_cases (cden ws) (sum_over (cden ws) (sel idx pos ws))) as [|X]; [assumption|]. exfalso.
  destruct (sum_at_most (cden ws) (sel idx pos c) (sel idx pos ws) (Rat 0 1) 0) as [Y|(s' & Y & (P1 & P2 & _) & M)]; auto.
  - apply sel_Forall2. exact F.
  - split; [exact HD|apply sel_Forall; exact CD].
  - repeat split; cbn; Lia.lia.
  - unfold at_most. cbn. Lia.lia.
  - rewrite Y in E. discriminate.
  - rewrite Y in E. apply Ok_inj in E. subst s'. unfold ratio_lt_one in R. apply Z.ltb_ge in R. unfold at_most in M. rewrite Z.add_0_l in M. set (k := sum_over _ _) in *. set (D := cden ws) in *. clearbody k D. clear - M R X P2 HD P1. nia.
Qed.
Lemma satisfy_clauses_safe `{Profile} sats idx rs cs : (forall i, (i < len sats)%N -> index_at sats i = Ok (chosen idx i)) -> Forall2 (Forall2 stands_for) rs cs ->
  forall pos, (pos + len (concat cs) <= len sats)%N -> satisfy_clauses sats pos rs = Ok true -> all_reach idx pos cs.
Proof.
  intros H0 F. induction F as [|c ws rs cs Hc F IH]; intros pos L; cbn [satisfy_clauses all_reach]; [auto|].
  cbn [concat] in L. rewrite len_app in L. assert (Lc : len c = len ws) by (unfold len; f_equal; eapply Forall2_length; eauto).
  rewrite (clause_weight_eq sats idx) by (auto; Lia.lia). destruct (ratio_sum (Rat 0 1) (sel idx pos c)) as [s| |] eqn:E; cbn [obind]; try discriminate. destruct (ratio_lt_one s) eqn:R; [discriminate|]. rewrite Lc. intros X. split; [eapply sel_sum_safe; eauto|]. apply IH; [Lia.lia|exact X].
Qed.
Lemma check_clause_safe `{Profile} c ws : Forall2 stands_for c ws -> check_clause c = Ok tt -> (1 <= total ws)%Q.
Proof.
  intros F. unfold check_clause. set (idx := map N.of_nat (seq 0 (length c))).
  assert (X : forall A (d : list A), length d = length c -> sel idx 0 d = d).
  { intros A d Hd. assert (Y : forall d pos l, (forall i, N.to_nat pos <= i < N.to_nat pos + length d -> In i l)%nat -> sel (map N.of_nat l) pos d = d :> list A).
    { clear. induction d as [|x c IH]; intros pos l H; [reflexivity|]. cbn [sel]. replace (chosen (map N.of_nat l) pos) with true.
      - f_equal. apply IH. intros i Hi. apply H. cbn [length]. Lia.lia.
      - symmetry. apply chosen_In. apply in_map_iff. exists (N.to_nat pos). split; [Lia.lia|]. apply H. cbn [length]. Lia.lia. }
    apply Y. intros i Hi. apply in_seq. Lia.lia. }
  destruct (ratio_sum (Rat 0 1) c) as [s| |] eqn:E; cbn [obind]; try discriminate. destruct (ratio_lt_one s) eqn:R; [discriminate|]. intros _.
  assert (Lw : length ws = length c) by (symmetry; eapply Forall2_length; eauto). rewrite <- (X _ c eq_refl) in E. pose proof (sel_sum_safe idx 0 c ws s F E R) as Y. rewrite sel_total, X in Y by exact Lw. exact Y.
Qed.
