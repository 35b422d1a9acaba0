(** The printer prints the fewest digits (used by FloatThms.v). *)
From Verif Require Import Base Data Spec DataDefs Float FloatDefs.
From Verif Require Import BaseFacts StdStr StdStrFacts Json JsonFacts FloatFacts FloatErr.
From Coq Require Import QArith Qpower Lqa.
Local Open Scope N_scope.
Ltac lia := Lia.lia.
Ltac nia := Lia.nia.
Ltac qlra := Lqa.lra.

Lemma round_mono a b a' b' : b <> 0 -> b' <> 0 -> a * b' <= a' * b -> round_f64 a b <= round_f64 a' b'.
Proof.
  intros Hb Hb' H. destruct (round_nearest a b Hb) as [F N1]. destruct (round_nearest a' b' Hb') as [F' N2]. destruct (N.le_gt_cases (round_f64 a b) (round_f64 a' b')) as [L|L]; [exact L|]. exfalso.
  destruct (N1 _ F') as [D1 _]. destruct (N2 _ F) as [D2 _].
  assert (E : a * b' = a' * b -> False) by (intros E; rewrite (round_cross a b a' b' Hb Hb' E) in L; lia).
  set (r := round_f64 a b) in *. set (r' := round_f64 a' b') in *. clearbody r r'. clear N1 N2 F F'. unfold dist in *.
  assert (M1 : (r + r') * b <= 2 * a) by nia. assert (M2 : 2 * a' <= (r + r') * b') by nia. nia.
Qed.
Local Open Scope Q_scope.
(** the number c * 10^q, in units *)
Definition val (c : N) (q : Z) : Q := q_ c * (o_ * ten q).
Lemma val_num c q : val c q * q_ (dec_den q) == q_ (dec_num c q).
Proof.
  unfold val, dec_num, dec_den. rewrite !q_mul, !ten_N. fold o_. assert (E : ten q * ten (Z.of_N (Z.to_N (- q))) == ten (Z.of_N (Z.to_N q))) by (rewrite <- ten_plus; replace (q + Z.of_N (Z.to_N (- q)))%Z with (Z.of_N (Z.to_N q)) by lia; reflexivity). transitivity (q_ c * o_ * (ten q * ten (Z.of_N (Z.to_N (- q))))); [ring|]. rewrite E. ring.
Qed.
Lemma q_den q : 0 < q_ (dec_den q).
Proof. apply q_nz, dec_den_nz. Qed.
Lemma dec_mono c q c' q' : val c q <= val c' q' -> (dec_round c q <= dec_round c' q')%N.
Proof.
  intros H. apply round_mono; [apply dec_den_nz|apply dec_den_nz|]. apply q_le. rewrite !q_mul, <- !val_num. pose proof (q_den q). pose proof (q_den q'). set (d := q_ (dec_den q)) in *. set (d' := q_ (dec_den q')) in *.
  assert (X : val c q * (d * d') <= val c' q' * (d * d')) by (apply Qmult_le_compat_r; [exact H|nra]). qlra.
Qed.
Lemma dec_le c q k : is_f64 k -> val c q <= q_ k -> (dec_round c q <= k)%N.
Proof.
  intros F H. rewrite <- (round_exact k 1 ltac:(discriminate) F). apply round_mono; [apply dec_den_nz|discriminate|]. apply q_le. rewrite !q_mul, <- val_num. pose proof (q_den q). change (q_ 1) with 1. assert (val c q * q_ (dec_den q) <= q_ k * q_ (dec_den q)) by (apply Qmult_le_compat_r; qlra). qlra.
Qed.
Lemma dec_ge c q k : is_f64 k -> q_ k <= val c q -> (k <= dec_round c q)%N.
Proof.
  intros F H. rewrite <- (round_exact k 1 ltac:(discriminate) F). apply round_mono; [discriminate|apply dec_den_nz|]. apply q_le. rewrite !q_mul, <- val_num. pose proof (q_den q). change (q_ 1) with 1. assert (q_ k * q_ (dec_den q) <= val c q * q_ (dec_den q)) by (apply Qmult_le_compat_r; qlra). qlra.
Qed.
Lemma ot_pos q : 0 < o_ * ten q.
Proof. pose proof o_pos. pose proof (ten_pos q). nra. Qed.
Lemma val_lt c c' q : (c < c')%N <-> val c q < val c' q.
Proof. unfold val. rewrite q_lt. split; intros H; [apply Qmult_lt_compat_r; [apply ot_pos|exact H]|apply (Qmult_lt_r _ _ _ (ot_pos q)), H]. Qed.
Lemma val_le c c' q : (c <= c')%N <-> val c q <= val c' q.
Proof. unfold val. rewrite q_le. split; intros H; [apply Qmult_le_compat_r; [exact H|pose proof (ot_pos q); qlra]|apply (Qmult_le_r _ _ _ (ot_pos q)), H]. Qed.
Lemma val_shift c q j : val (c * 10 ^ j) q == val c (q + Z.of_N j).
Proof. unfold val. rewrite q_mul, ten_N, ten_plus. ring. Qed.

Lemma below_spec k z : below k z = true <-> q_ k < val 1 z.
Proof.
  unfold below. rewrite N.ltb_lt, q_lt, !q_mul, !ten_N. unfold val. change (q_ 1) with 1. fold o_. pose proof (ten_pos (Z.of_N (Z.to_N (- z)))) as T.
  assert (E : ten z * ten (Z.of_N (Z.to_N (- z))) == ten (Z.of_N (Z.to_N z))) by (rewrite <- ten_plus; replace (z + Z.of_N (Z.to_N (- z)))%Z with (Z.of_N (Z.to_N z)) by lia; reflexivity). set (t := ten (Z.of_N (Z.to_N (- z)))) in *. rewrite <- E. split; intros H.
  - apply (Qmult_lt_r _ _ t T). qlra.
  - assert (X : q_ k * t < 1 * (o_ * ten z) * t) by (apply Qmult_lt_compat_r; assumption). qlra.
Qed.
Lemma below_false k z : below k z = false <-> val 1 z <= q_ k.
Proof.
  pose proof (below_spec k z) as H. destruct (below k z); split; intros X; try discriminate; try reflexivity.
  - exfalso. assert (q_ k < val 1 z) by (apply H; reflexivity). qlra.
  - destruct (Qlt_le_dec (q_ k) (val 1 z)) as [L|L]; [apply H in L; discriminate|exact L].
Qed.
Lemma to_dec_digits v : v <> 0%N -> (10 ^ (len (to_dec v) - 1) <= v < 10 ^ len (to_dec v))%N.
Proof.
  intros Nv. pose proof (to_dec_int_part v) as (Nd & Hd & Hz). pose proof (digits_value_dec v) as V. split; [|rewrite <- V at 1; apply digits_value_lt, Hd].
  destruct (to_dec v) as [|h d] eqn:E; [congruence|]. rewrite len_cons. replace (1 + len d - 1)%N with (len d) by lia. rewrite digits_value_cons in V. pose proof (Hd h (or_introl eq_refl)) as Hh. unfold digit in Hh.
  destruct (N.eq_dec h 48) as [->|]; [rewrite (Hz d eq_refl) in V; change (digits_value []) with 0%N in V; lia|]. nia.
Qed.
Lemma magnitude_spec k : k <> 0%N -> val 1 (magnitude k - 1) <= q_ k /\ q_ k < val 1 (magnitude k).
Proof.
  intros Nk. unfold magnitude. cbv zeta. set (z := (_ + 1)%Z). destruct (below k z && negb (below k (z - 1))) eqn:B1.
  - apply andb_prop in B1 as [B1 B2]. apply negb_true_iff in B2. apply below_spec in B1. apply below_false in B2. auto.
  - destruct (below k (z + 1) && negb (below k z)) eqn:B2.
    + apply andb_prop in B2 as [B2 B3]. apply negb_true_iff in B3. apply below_spec in B2. apply below_false in B3. replace (z + 1 - 1)%Z with z by lia. auto.
    + clear B1 B2. set (v := (k * 10 ^ 400 / f64_one)%N). assert (Nv : v <> 0%N). { assert (1 <= v)%N; [|lia]. apply N.div_le_lower_bound; [apply f64_one_nz|]. assert (f64_one * 1 <= 10 ^ 400)%N by (vm_compute; discriminate). nia. }
      pose proof (to_dec_digits v Nv) as [L U]. set (n := len (to_dec v)) in *. assert (N1 : (1 <= n)%N). { unfold n. pose proof (to_dec_int_part v) as (Nd & _). destruct (to_dec v); [congruence|rewrite len_cons; lia]. }
      assert (V1 : (10 ^ (n - 1) * f64_one <= k * 10 ^ 400)%N). { pose proof (N.mul_div_le (k * 10 ^ 400) f64_one f64_one_nz) as X. fold v in X. nia. }
      assert (V2 : (k * 10 ^ 400 < 10 ^ n * f64_one)%N). { pose proof (N.mul_succ_div_gt (k * 10 ^ 400) f64_one f64_one_nz) as X. fold v in X. nia. }
      clearbody v n. apply q_le in V1. apply q_lt in V2. rewrite !q_mul, !ten_N in V1, V2. fold o_ in V1, V2. change (Z.of_N 400) with 400%Z in *.
      assert (E : forall x, ten (x - 400) * ten 400 == ten x) by (intros x; rewrite <- ten_plus; replace (x - 400 + 400)%Z with x by lia; reflexivity). pose proof (ten_pos 400) as T. unfold val. change (q_ 1) with 1. split.
      * apply (Qmult_le_r _ _ _ T). replace (Z.of_N n - 400 - 1)%Z with (Z.of_N (n - 1) - 400)%Z by lia. rewrite <- E in V1. qlra.
      * apply (Qmult_lt_r _ _ _ T). rewrite <- (E (Z.of_N n)) in V2. qlra.
Qed.

(** the multiples of 10^q around k *)
Definition floor_at (k : N) (q : Z) : N := (k * 10 ^ Z.to_N (- q) / (f64_one * 10 ^ Z.to_N q))%N.
Lemma floor_spec k q : val (floor_at k q) q <= q_ k /\ q_ k < val (floor_at k q + 1) q.
Proof.
  unfold floor_at. set (a := (k * 10 ^ Z.to_N (- q))%N). set (b := (f64_one * 10 ^ Z.to_N q)%N). assert (Nb : b <> 0%N) by (unfold b; pose proof f64_one_nz; pose proof (pow10_nz (Z.to_N q)); nia).
  pose proof (N.mul_div_le a b Nb) as L. pose proof (N.mul_succ_div_gt a b Nb) as U. rewrite <- N.add_1_r in U. set (l := (a / b)%N) in *. apply q_le in L. apply q_lt in U. unfold a, b in L, U. rewrite !q_mul, !ten_N in L, U. fold o_ in L, U.
  set (t := ten (Z.of_N (Z.to_N (- q)))) in *. assert (T : 0 < t) by apply ten_pos. assert (E : ten q * t == ten (Z.of_N (Z.to_N q))) by (unfold t; rewrite <- ten_plus; replace (q + Z.of_N (Z.to_N (- q)))%Z with (Z.of_N (Z.to_N q)) by lia; reflexivity). rewrite <- E in L, U. unfold val. split.
  - apply (Qmult_le_r _ _ t T). qlra.
  - apply (Qmult_lt_r _ _ t T). qlra.
Qed.
Lemma few_step k (n : N) c2 q2 : is_f64 k -> k <> 0%N -> (1 <= n)%N -> (c2 < 10 ^ n)%N -> dec_round c2 q2 = k ->
  let q := (magnitude k - Z.of_N n)%Z in dec_round (floor_at k q) q = k \/ dec_round (floor_at k q + 1) q = k.
Proof.
  intros F Nk Hn Hc R q. destruct (magnitude_spec k Nk) as [M1 M2]. destruct (floor_spec k q) as [L U]. set (l := floor_at k q) in *. clearbody l.
  assert (P : val 1 (magnitude k - 1) == val (10 ^ (n - 1)) q). { replace (10 ^ (n - 1))%N with (1 * 10 ^ (n - 1))%N by lia. rewrite val_shift. unfold q. replace (magnitude k - Z.of_N n + Z.of_N (n - 1))%Z with (magnitude k - 1)%Z by lia. reflexivity. }
  assert (P1 : (10 ^ (n - 1) <= l)%N). { assert (X : val (10 ^ (n - 1)) q < val (l + 1) q) by (rewrite <- P; qlra). apply val_lt in X. lia. }
  destruct (Z.le_gt_cases q q2) as [Q|Q].
  - assert (I : val c2 q2 == val (c2 * 10 ^ Z.to_N (q2 - q)) q) by (rewrite val_shift; replace (q + Z.of_N (Z.to_N (q2 - q)))%Z with q2 by lia; reflexivity). set (i := (c2 * 10 ^ Z.to_N (q2 - q))%N) in *. clearbody i.
    destruct (N.le_gt_cases i l) as [G|G].
    + left. apply N.le_antisymm; [apply dec_le; assumption|]. rewrite <- R at 1. apply dec_mono. rewrite I. apply val_le, G.
    + right. apply N.le_antisymm; [|apply dec_ge; [exact F|qlra]]. rewrite <- R at 1. apply dec_mono. rewrite I. apply val_le. lia.
  - left. apply N.le_antisymm; [apply dec_le; assumption|]. rewrite <- R at 1. apply dec_mono. apply Qle_trans with (val (10 ^ (n - 1)) q); [|apply val_le, P1]. rewrite <- P.
    apply Qle_trans with (val (10 ^ n) q2); [apply val_le; lia|]. replace (10 ^ n)%N with (1 * 10 ^ n)%N by lia. rewrite val_shift. unfold val. change (q_ 1) with 1. assert (ten (q2 + Z.of_N n) <= ten (magnitude k - 1)) by (apply ten_le; unfold q in Q; lia). pose proof o_pos. nra.
Qed.
Lemma shortest_from_few k (n : N) c2 q2 : is_f64 k -> k <> 0%N -> (1 <= n)%N -> (c2 < 10 ^ n)%N -> dec_round c2 q2 = k ->
  forall fuel m c q, (1 <= m <= Z.of_N n)%Z -> (Z.of_N n < m + Z.of_nat fuel)%Z -> shortest_from fuel k (magnitude k) m = (c, q) -> (c <= 10 ^ n)%N.
Proof.
  intros F Nk Hn Hc R. induction fuel as [|f IH]; intros m c q Hm Hf; [lia|]. cbn [shortest_from].
  change (k * 10 ^ Z.to_N (- (magnitude k - m)))%N with (k * 10 ^ Z.to_N (- (magnitude k - m)))%N. set (qm := (magnitude k - m)%Z). set (a := (k * 10 ^ Z.to_N (- qm))%N). set (b := (f64_one * 10 ^ Z.to_N qm)%N).
  change (a / b)%N with (floor_at k qm). assert (Nb : b <> 0%N) by (unfold b; pose proof f64_one_nz; pose proof (pow10_nz (Z.to_N qm)); nia).
  destruct (half_even_spec a b Nb) as [Hh _]. cbv zeta in Hh. change (a / b)%N with (floor_at k qm) in Hh. set (near := half_even a b) in *. set (l := floor_at k qm) in *. set (other := if (near =? l)%N then (near + 1)%N else (near - 1)%N).
  assert (NO : (near = l /\ other = l + 1 \/ near = l + 1 /\ other = l)%N) by (unfold other; destruct (N.eqb_spec near l); lia).
  assert (LB : (l + 1 <= 10 ^ n)%N). { destruct (magnitude_spec k Nk) as [_ M2]. destruct (floor_spec k qm) as [L _]. fold l in L. assert (X : val l qm < val (10 ^ Z.to_N m) qm). { replace (10 ^ Z.to_N m)%N with (1 * 10 ^ Z.to_N m)%N by lia. rewrite val_shift. unfold qm at 2. replace (magnitude k - m + Z.of_N (Z.to_N m))%Z with (magnitude k) by lia. qlra. }
    apply val_lt in X. assert (10 ^ Z.to_N m <= 10 ^ n)%N by (apply N.pow_le_mono_r; lia). lia. }
  destruct (N.eqb_spec (dec_round near qm) k) as [E|E]; [intros [= <- <-]; lia|]. destruct (N.eqb_spec (dec_round other qm) k) as [E'|E']; [intros [= <- <-]; lia|].
  destruct (Z.eq_dec m (Z.of_N n)) as [->|Nm]; [|apply IH; lia]. exfalso. pose proof (few_step k n c2 q2 F Nk Hn Hc R) as X. cbv zeta in X. fold qm in X. fold l in X. clearbody other near. destruct NO as [[-> ->]|[-> ->]]; tauto.
Qed.
Lemma strip_zeros_le : forall fuel c q, (fst (strip_zeros fuel c q) <= c)%N.
Proof.
  induction fuel as [|f IH]; intros c q; cbn [strip_zeros]; [reflexivity|]. destruct (_ && _); [|reflexivity]. eapply N.le_trans; [apply IH|]. apply N.div_le_upper_bound; lia.
Qed.
Lemma strip_power n q : (1 <= n)%N -> (fst (strip_zeros 20 (10 ^ n) q) < 10 ^ n)%N.
Proof.
  intros Hn. assert (E : (10 ^ n = 10 ^ (n - 1) * 10)%N) by (rewrite <- (N.pow_succ_r' 10 (n - 1)) || (replace n with (N.succ (n - 1)) at 1 by lia; rewrite N.pow_succ_r'; lia)). pose proof (pow10_nz (n - 1)). rewrite E. cbn [strip_zeros]. rewrite N.mod_mul by discriminate. rewrite N.div_mul by discriminate.
  replace (10 ^ (n - 1) * 10 =? 0)%N with false by (symmetry; apply N.eqb_neq; nia). cbn [negb andb]. change (0 =? 0)%N with true. cbn [andb]. eapply N.le_lt_trans; [apply (strip_zeros_le 19)|]. nia.
Qed.
Lemma shortest_few k (n : N) c2 q2 : is_f64 k -> k <> 0%N -> (1 <= n <= 17)%N -> (c2 < 10 ^ n)%N -> dec_round c2 q2 = k -> (fst (shortest k) < 10 ^ n)%N.
Proof.
  intros F Nk Hn Hc R. unfold shortest. cbv zeta. destruct (shortest_from 17 k (magnitude k) 1) as [c q] eqn:E. assert (L : (c <= 10 ^ n)%N) by (apply (shortest_from_few k n c2 q2 F Nk ltac:(lia) Hc R 17%nat 1%Z c q); [lia|change (Z.of_nat 17) with 17%Z; lia|exact E]).
  destruct (N.eq_dec c (10 ^ n)) as [->|Nc]; [apply strip_power; lia|]. eapply N.le_lt_trans; [apply strip_zeros_le|]. lia.
Qed.

(** 17 digits are enough *)
Lemma f64_gap r k : is_f64 r -> is_f64 k -> (r < k)%N -> (r < 2 ^ 53 * (k - r))%N.
Proof.
  intros Fr Fk L. pose proof (is_f64_multiple r Fr) as Dr. pose proof (is_f64_multiple k Fk) as Dk. assert (LL : (N.log2 r <= N.log2 k)%N) by (apply N.log2_le_mono; lia).
  set (g := (2 ^ (N.log2 r - 52))%N) in *. assert (Dg : (g | k)%N). { eapply N.divide_trans; [|exact Dk]. exists (2 ^ ((N.log2 k - 52) - (N.log2 r - 52)))%N. unfold g. rewrite <- N.pow_add_r. f_equal. lia. }
  assert (G : (g <= k - r)%N). { apply N.divide_pos_le; [lia|]. apply N.divide_sub_r; assumption. }
  assert (B : (r < 2 ^ 53 * g)%N). { unfold g. rewrite <- N.pow_add_r. destruct (N.eq_dec r 0) as [->|Nr]; [pose proof (pow_nz (53 + (N.log2 0 - 52))); lia|]. apply N.log2_lt_pow2; lia. }
  nia.
Qed.
Lemma seventeen k : is_f64 k -> k <> 0%N -> exists c q, (c < 10 ^ 17)%N /\ dec_round c q = k.
Proof.
  intros F Nk. destruct (magnitude_spec k Nk) as [M1 M2]. set (p := magnitude k) in *. set (q := (p - 17)%Z). set (a := (k * 10 ^ Z.to_N (- q))%N). set (b := (f64_one * 10 ^ Z.to_N q)%N). assert (Nb : b <> 0%N) by (unfold b; pose proof f64_one_nz; pose proof (pow10_nz (Z.to_N q)); nia).
  set (l := floor_at k q). destruct (floor_spec k q) as [L U]. fold l in L, U.
  assert (LB : (l < 10 ^ 17)%N). { assert (X : val l q < val (10 ^ 17) q). { change (10 ^ 17)%N with (1 * 10 ^ 17)%N. rewrite val_shift. unfold q at 2. change (Z.of_N 17) with 17%Z. replace (p - 17 + 17)%Z with p by lia. qlra. } apply val_lt in X. exact X. }
  assert (W : val 1 q * 10000000000000000 <= q_ k). { assert (E : val 1 (p - 1) == val 1 q * 10000000000000000). { replace (p - 1)%Z with (q + Z.of_N 16)%Z by (unfold q; change (Z.of_N 16) with 16%Z; lia). rewrite <- val_shift. unfold val. rewrite q_mul. change (q_ (10 ^ 16)) with 10000000000000000. ring. } qlra. }
  assert (S1 : val (l + 1) q == val l q + val 1 q) by (unfold val; rewrite q_add; ring).
  assert (N0 : exists c, (c = l \/ c = l + 1)%N /\ val c q <= q_ k + (1 # 2) * val 1 q /\ q_ k <= val c q + (1 # 2) * val 1 q).
  { destruct (Qlt_le_dec (q_ k) (val l q + (1 # 2) * val 1 q)) as [H|H]; [exists l|exists (l + 1)%N]; (split; [auto|]); split; try rewrite S1; qlra. }
  destruct N0 as (c & Cl & C1 & C2).
  assert (R : dec_round c q = k).
  { destruct (round_nearest (dec_num c q) (dec_den q) (dec_den_nz q)) as [Fr Nr]. fold (dec_round c q) in Fr, Nr. destruct (Nr k F) as [D _]. set (r := dec_round c q) in *. clearbody r. clear Nr.
    assert (K : (dist r k * 10 ^ 16 <= k)%N).
    { pose proof (val_num c q) as V. pose proof (q_den q) as Pd. set (d := dec_den q) in *. set (v := dec_num c q) in *. assert (X1 : (dist r k * d <= 2 * dist v (k * d))%N) by (unfold dist in *; nia).
      assert (X2 : (2 * dist v (k * d) * 10 ^ 16 <= k * d)%N).
      { assert (Y : (dist (2 * 10 ^ 16 * v) (2 * 10 ^ 16 * (k * d)) <= k * d)%N); [|change (10 ^ 16)%N with 10000000000000000%N in *; unfold dist in *; lia]. apply dist_q. unfold close. change (2 * 10 ^ 16)%N with 20000000000000000%N. rewrite !q_mul. rewrite <- V. change (q_ 20000000000000000) with 20000000000000000. set (e := q_ d) in *. set (x := val c q) in *. set (w := val 1 q) in *. set (kk := q_ k) in *. clearbody e x w kk.
        assert (Z1 : 20000000000000000 * x <= 20000000000000000 * kk + kk) by qlra. assert (Z2 : 20000000000000000 * kk <= 20000000000000000 * x + kk) by qlra.
        assert (Y1 : 20000000000000000 * x * e <= (20000000000000000 * kk + kk) * e) by (apply Qmult_le_compat_r; qlra). assert (Y2 : 20000000000000000 * kk * e <= (20000000000000000 * x + kk) * e) by (apply Qmult_le_compat_r; qlra). split; qlra. }
      assert (Nd : d <> 0%N) by apply dec_den_nz. change (10 ^ 16)%N with 10000000000000000%N in *. nia. }
    change (10 ^ 16)%N with 10000000000000000%N in K. destruct (N.lt_trichotomy r k) as [H|[H|H]]; [exfalso|exact H|exfalso].
    - pose proof (f64_gap r k Fr F H) as G. change (2 ^ 53)%N with 9007199254740992%N in G. unfold dist in K. lia.
    - pose proof (f64_gap k r F Fr H) as G. change (2 ^ 53)%N with 9007199254740992%N in G. unfold dist in K. lia. }
  destruct (N.eq_dec c (10 ^ 17)) as [E|E].
  - exists 1%N, (q + 17)%Z. split; [reflexivity|]. rewrite <- R, E. rewrite <- (dec_round_shift 1 (q + 17) 17). change (Z.of_N 17) with 17%Z. replace (q + 17 - 17)%Z with q by lia. rewrite N.mul_1_l. reflexivity.
  - exists c, q. split; [lia|exact R].
Qed.
