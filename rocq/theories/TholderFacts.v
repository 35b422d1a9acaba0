(** Exact arithmetic with 32 bit fractions. *)
From Coq Require Import QArith Znumtheory Lia.
From Verif Require Import Base StdStr Data Json Spec Tholder TholderDefs.
Open Scope Z_scope.

(** in lowest terms, not negative *)
Definition lowest_terms (r : ratio) : Prop := 0 < denom r /\ 0 <= numer r /\ Z.gcd (numer r) (denom r) = 1.
Definition small (r : ratio) : Prop := numer r < 2 ^ 31 /\ denom r < 2 ^ 31.
(** [r] is [k] over [D] *)
Definition is_over (r : ratio) (k D : Z) : Prop := numer r * D = k * denom r.

Lemma i32_ok `{Profile} z : - 2 ^ 31 <= z < 2 ^ 31 -> i32 z = Ok z.
Proof. intros H0. unfold i32. replace (- 2 ^ 31 <=? z) with true by (symmetry; apply Z.leb_le; Lia.lia). replace (z <? 2 ^ 31) with true by (symmetry; apply Z.ltb_lt; Lia.lia). reflexivity. Qed.
Lemma i32_checked z : i32 (P := true) z = Ok z /\ - 2 ^ 31 <= z < 2 ^ 31 \/ i32 (P := true) z = Panic.
Proof. unfold i32. destruct (_ && _) eqn:E; [left|right; reflexivity]. apply andb_true_iff in E as [A B]. apply Z.leb_le in A. apply Z.ltb_lt in B. auto. Qed.

Lemma reduce_ok `{Profile} n d : 0 < d -> 0 <= n -> exists r, ratio_reduce n d = Ok r /\ lowest_terms r /\ numer r * d = n * denom r /\ numer r <= n /\ denom r <= d.
Proof.
  intros Hd Hn. unfold ratio_reduce, lowest_terms. destruct (Z.eqb_spec d 0); [Lia.lia|]. destruct (Z.eqb_spec n 0) as [->|].
  { eexists; split; [reflexivity|]. cbn [numer denom]. repeat split; try Lia.lia. }
  destruct (Z.eqb_spec n d) as [->|]. { eexists; split; [reflexivity|]. cbn [numer denom]. repeat split; try Lia.lia. }
  assert (Hg : 0 < Z.gcd n d). { pose proof (Z.gcd_nonneg n d). destruct (Z.eq_dec (Z.gcd n d) 0) as [E|]; [apply Z.gcd_eq_0 in E; Lia.lia|Lia.lia]. }
  destruct (Z.gcd_divide_l n d) as [a Ha]. destruct (Z.gcd_divide_r n d) as [b Hb]. cbv zeta. remember (Z.gcd n d) as g eqn:Eg.
  pose proof (Z.gcd_div_gcd n d g ltac:(Lia.lia) Eg) as G.
  assert (Qn : n ÷ g = a). { rewrite Ha. apply Z.quot_mul. Lia.lia. } assert (Qd : d ÷ g = b). { rewrite Hb. apply Z.quot_mul. Lia.lia. }
  assert (Dn : n / g = a). { rewrite Ha. apply Z.div_mul. Lia.lia. } assert (Dd : d / g = b). { rewrite Hb. apply Z.div_mul. Lia.lia. }
  rewrite Qn, Qd. rewrite Dn, Dd in G. clear Eg Qn Qd Dn Dd. assert (0 < b) by nia. assert (0 < a) by nia. replace (b <? 0) with false by (symmetry; apply Z.ltb_ge; Lia.lia).
  eexists; split; [reflexivity|]. cbn [numer denom]. repeat split; try Lia.lia; try nia. 
Qed.

Lemma over_divides r k D : lowest_terms r -> 0 < D -> is_over r k D -> (denom r | D).
Proof. intros (Hd & Hn & G) HD E. apply (Z.gauss _ (numer r)); [exists k; exact E|]. rewrite Z.gcd_comm. exact G. Qed.
(** reduced fractions are determined by their value *)
Lemma over_unique r s k D : lowest_terms r -> lowest_terms s -> 0 < D -> is_over r k D -> is_over s k D -> r = s.
Proof.
  intros Lr Ls HD Er Es. assert (X : numer r * denom s = numer s * denom r).
  { unfold is_over in *. apply (Z.mul_cancel_r _ _ D); [Lia.lia|]. 
    transitivity (numer r * D * denom s); [ring|]. rewrite Er. transitivity (numer s * D * denom r); [rewrite Es; ring|ring]. }
  destruct Lr as (Hd & Hn & G). destruct Ls as (Hd' & Hn' & G').
  assert (A : (denom r | denom s)). { apply (Z.gauss _ (numer r)); [exists (numer s); exact X|rewrite Z.gcd_comm; exact G]. }
  assert (B : (denom s | denom r)). { apply (Z.gauss _ (numer s)); [exists (numer r); symmetry; exact X|rewrite Z.gcd_comm; exact G']. }
  assert (E : denom r = denom s) by (apply Z.divide_antisym_nonneg; auto; Lia.lia).
  destruct r as [n d], s as [n' d']. cbn [numer denom] in *. subst d'. f_equal. apply (Z.mul_cancel_r _ _ d); Lia.lia.
Qed.

(** the two sums that addition forms before reducing, when nothing overflows *)
Lemma add_exact `{Profile} a b ka kb D : lowest_terms a -> lowest_terms b -> small a -> small b -> 0 < D -> is_over a ka D -> is_over b kb D ->
  ((D < 2 ^ 31 /\ ka + kb < 2 ^ 31) \/ overflow_checks = true) ->
  (exists s, ratio_add a b = Ok s /\ lowest_terms s /\ small s /\ is_over s (ka + kb) D) \/
  (ratio_add a b = Panic /\ overflow_checks = true /\ ~ (D < 2 ^ 31 /\ ka + kb < 2 ^ 31)).
Proof.
  intros La Lb Sa Sb HD Ea Eb Hf. pose proof (over_divides a ka D La HD Ea) as Da. pose proof (over_divides b kb D Lb HD Eb) as Db.
  destruct La as (Hda & Hna & Ga). destruct Lb as (Hdb & Hnb & Gb). destruct Sa as [Sna Sda]. destruct Sb as [Snb Sdb].
  assert (Pka : 0 <= ka) by (unfold is_over in Ea; nia). assert (Pkb : 0 <= kb) by (unfold is_over in Eb; nia).
  unfold ratio_add. destruct (Z.eqb_spec (denom a) (denom b)) as [Ed|Ed].
  - (* equal denominators *)
    destruct Da as [q Hq]. assert (0 < q) by nia. assert (Ka : ka = numer a * q) by (unfold is_over in Ea; nia). assert (Kb : kb = numer b * q) by (unfold is_over in Eb; rewrite <- Ed in Eb; nia).
    assert (X : numer a + numer b < 2 ^ 31 \/ 2 ^ 31 <= numer a + numer b) by Lia.lia. destruct X as [X|X].
    + rewrite i32_ok by Lia.lia. cbn [obind]. destruct (reduce_ok (numer a + numer b) (denom a)) as (s & Es & Ls & Xs & B1 & B2); try Lia.lia. left. exists s.
      split; [exact Es|]. split; [exact Ls|]. split; [split; Lia.lia|]. unfold is_over. rewrite Hq, Ka, Kb. transitivity (numer s * denom a * q); [ring|]. rewrite Xs. ring.
    + right. assert (O : overflow_checks = true). { destruct Hf as [[_ Hf]|]; [|auto]. exfalso. nia. } split; [|split; [exact O|nia]].
      unfold i32. replace (numer a + numer b <? 2 ^ 31) with false by (symmetry; apply Z.ltb_ge; Lia.lia). rewrite andb_false_r, O. reflexivity.
  - set (g := Z.gcd (denom a) (denom b)) in *. assert (Hg : 0 < g). { pose proof (Z.gcd_nonneg (denom a) (denom b)). fold g in H0. destruct (Z.eq_dec g 0) as [E|]; [apply Z.gcd_eq_0 in E; Lia.lia|Lia.lia]. }
    destruct (Z.gcd_divide_l (denom a) (denom b)) as [x Hx]. destruct (Z.gcd_divide_r (denom a) (denom b)) as [y Hy]. fold g in Hx, Hy.
    assert (0 < x) by nia. assert (0 < y) by nia. assert (Qy : denom b ÷ g = y). { rewrite Hy. apply Z.quot_mul. Lia.lia. }
    rewrite Qy. set (M := denom a * y) in *. assert (HM : 0 < M) by (unfold M; nia).
    assert (DM : (M | D)). { assert (Lx : Z.lcm (denom a) (denom b) = M). { unfold Z.lcm. fold g. replace (denom b / g) with y by (rewrite Hy; symmetry; apply Z.div_mul; Lia.lia). apply Z.abs_eq. unfold M in *. Lia.lia. } rewrite <- Lx. apply Z.lcm_least; assumption. }
    destruct DM as [q Hq]. assert (0 < q) by nia.
    assert (Qa : M ÷ denom a = y). { unfold M. rewrite Z.mul_comm. apply Z.quot_mul. Lia.lia. }
    assert (Mxb : M = x * denom b). { unfold M. rewrite Hx. transitivity (x * (y * g)); [ring|]. rewrite <- Hy. reflexivity. }
    assert (Qb : M ÷ denom b = x). { rewrite Mxb. apply Z.quot_mul. Lia.lia. }
    assert (Ka : ka = numer a * y * q). { unfold is_over in Ea. apply (Z.mul_cancel_r _ _ (denom a)); [Lia.lia|]. rewrite <- Ea, Hq. unfold M. ring. }
    assert (Kb : kb = numer b * x * q). { unfold is_over in Eb. apply (Z.mul_cancel_r _ _ (denom b)); [Lia.lia|]. rewrite <- Eb, Hq, Mxb. ring. }
    assert (P1 : 0 <= numer a * y) by nia. assert (P2 : 0 <= numer b * x) by nia.
    assert (X : (M < 2 ^ 31 /\ numer a * y + numer b * x < 2 ^ 31) \/ ~ (M < 2 ^ 31 /\ numer a * y + numer b * x < 2 ^ 31)) by Lia.lia. destruct X as [[X1 X2]|X].
    + rewrite i32_ok by Lia.lia. cbn [obind]. rewrite Z.abs_eq by Lia.lia. rewrite i32_ok by Lia.lia. cbn [obind]. rewrite Qa, Qb.
      rewrite i32_ok by Lia.lia. cbn [obind]. rewrite i32_ok by Lia.lia. cbn [obind]. rewrite i32_ok by Lia.lia. cbn [obind].
      destruct (reduce_ok (numer a * y + numer b * x) M) as (s & Es & Ls & Xs & B1 & B2); try Lia.lia. left. exists s. split; [exact Es|]. split; [exact Ls|]. split; [split; Lia.lia|].
      unfold is_over. rewrite Hq, Ka, Kb. transitivity (numer s * M * q); [ring|]. rewrite Xs. ring.
    + right. assert (N : ~ (D < 2 ^ 31 /\ ka + kb < 2 ^ 31)). { intros [A B]. apply X. split; nia. } assert (O : overflow_checks = true) by (destruct Hf; [contradiction|auto]). split; [|auto].
      assert (big : forall z, 2 ^ 31 <= z -> i32 z = Panic). { intros z Hz. unfold i32. replace (z <? 2 ^ 31) with false by (symmetry; apply Z.ltb_ge; Lia.lia). rewrite andb_false_r, O. reflexivity. }
      destruct (Z.lt_ge_cases M (2 ^ 31)) as [M1|M1]; [|rewrite big by Lia.lia; reflexivity]. rewrite i32_ok by Lia.lia. cbn [obind]. rewrite Z.abs_eq by Lia.lia. rewrite i32_ok by Lia.lia. cbn [obind]. rewrite Qa, Qb.
      destruct (Z.lt_ge_cases (numer a * y) (2 ^ 31)) as [M2|M2]; [|rewrite big by Lia.lia; reflexivity]. rewrite i32_ok by Lia.lia. cbn [obind].
      destruct (Z.lt_ge_cases (numer b * x) (2 ^ 31)) as [M3|M3]; [|rewrite big by Lia.lia; reflexivity]. rewrite i32_ok by Lia.lia. cbn [obind].
      rewrite big by Lia.lia. reflexivity.
Qed.

(** ** Sums *)
(** [r] is the weight [w] in lowest terms *)
Definition stands_for (r : ratio) (w : weight) : Prop :=
  lowest_terms r /\ small r /\ (0 < snd w)%N /\ (fst w <= snd w)%N /\ numer r * Z.of_N (snd w) = Z.of_N (fst w) * denom r.
Definition over (D : Z) (w : weight) : Z := Z.of_N (fst w) * (D / Z.of_N (snd w)).
Definition sum_over (D : Z) (ws : list weight) : Z := fold_right (fun w s => over D w + s) 0 ws.
Definition common (D : Z) (ws : list weight) : Prop := 0 < D /\ Forall (fun w => (Z.of_N (snd w) | D)) ws.
Definition bounded (D k : Z) : Prop := D < 2 ^ 31 /\ k < 2 ^ 31.

Lemma stands_over r w D : stands_for r w -> 0 < D -> (Z.of_N (snd w) | D) -> is_over r (over D w) D.
Proof.
  intros (_ & _ & Hd & _ & E) HD [q ->]. unfold is_over, over. rewrite Z.div_mul by Lia.lia.
  transitivity (numer r * Z.of_N (snd w) * q); [ring|]. rewrite E. ring.
Qed.
Lemma over_bounds D w : 0 < D -> (0 < snd w)%N -> (fst w <= snd w)%N -> (Z.of_N (snd w) | D) -> 0 <= over D w <= D.
Proof. intros HD H0 H1 [q ->]. unfold over. rewrite Z.div_mul by Lia.lia. assert (0 < q) by nia. nia. Qed.

Lemma sum_exact `{Profile} D c ws acc k0 : Forall2 stands_for c ws -> common D ws -> lowest_terms acc -> small acc -> is_over acc k0 D ->
  (bounded D (k0 + sum_over D ws) \/ overflow_checks = true) ->
  (exists s, ratio_sum acc c = Ok s /\ lowest_terms s /\ small s /\ is_over s (k0 + sum_over D ws) D) \/
  (ratio_sum acc c = Panic /\ overflow_checks = true /\ ~ bounded D (k0 + sum_over D ws)).
Proof.
  intros F. revert acc k0. induction F as [|r w c ws Hr F IH]; intros acc k0 [HD C] La Sa Ea Hf.
  - left. exists acc. cbn [ratio_sum sum_over fold_right]. rewrite Z.add_0_r. auto.
  - inversion C as [|? ? Cw C']; subst. pose proof (stands_over r w D Hr HD Cw) as Er. pose proof Hr as (Lr & Sr & Hd & Hnd & _). pose proof (over_bounds D w HD Hd Hnd Cw) as B.
    assert (S0 : 0 <= sum_over D ws). { clear - C' F HD. induction F as [|r w c ws (_ & _ & Hd & Hnd & _) F IH]; [cbn; Lia.lia|]. inversion C'; subst. specialize (IH H2). pose proof (over_bounds D w HD Hd Hnd H1). cbn [sum_over fold_right]. fold (sum_over D ws). Lia.lia. }
    cbn [sum_over fold_right] in *. fold (sum_over D ws) in *. cbn [ratio_sum].
    destruct (add_exact acc r k0 (over D w) D La Lr Sa Sr HD Ea Er) as [(s & Es & Ls & Ss & Os)|(Es & O & N)].
    { destruct Hf as [[A1 A2]|A]; [left; split; Lia.lia|right; exact A]. }
    + rewrite Es. cbn [obind]. destruct (IH s (k0 + over D w) (conj HD C') Ls Ss Os) as [X|X].
      { destruct Hf as [[A1 A2]|A]; [left; split; Lia.lia|right; exact A]. }
      * left. replace (k0 + (over D w + sum_over D ws)) with (k0 + over D w + sum_over D ws) by ring. exact X.
      * right. replace (k0 + (over D w + sum_over D ws)) with (k0 + over D w + sum_over D ws) by ring. exact X.
    + right. rewrite Es. split; [reflexivity|]. split; [exact O|]. intros [A1 A2]. apply N. split; Lia.lia.
Qed.

Lemma lt_one_iff r k D : lowest_terms r -> 0 < D -> is_over r k D -> (ratio_lt_one r = true <-> k < D).
Proof. intros (Hd & Hn & _) HD E. unfold ratio_lt_one. rewrite Z.ltb_lt. unfold is_over in E. split; intros; nia. Qed.

(** the rational number *)
Lemma fraction_over D w : 0 < D -> (0 < snd w)%N -> (Z.of_N (snd w) | D) -> (fraction w == inject_Z (over D w) / inject_Z D)%Q.
Proof.
  intros HD Hd [q ->]. unfold fraction, over. rewrite Z.div_mul by Lia.lia. rewrite !inject_Z_mult. 
  assert (~ inject_Z (Z.of_N (snd w)) == 0)%Q. { unfold Qeq, inject_Z. cbn. Lia.lia. }
  assert (~ inject_Z q == 0)%Q. { unfold Qeq, inject_Z. cbn. nia. }
  field. auto.
Qed.
Lemma total_over D ws : common D ws -> Forall (fun w => (0 < snd w)%N) ws -> (total ws == inject_Z (sum_over D ws) / inject_Z D)%Q.
Proof.
  intros [HD C] P. assert (N : ~ (inject_Z D == 0)%Q). { unfold Qeq, inject_Z. cbn. Lia.lia. }
  induction ws as [|w ws IH]; [cbn; field; exact N|]. inversion C; inversion P; subst. cbn [total sum_over fold_right]. fold (total ws) (sum_over D ws).
  rewrite IH by auto. rewrite (fraction_over D w) by auto. rewrite inject_Z_plus. field. exact N.
Qed.
Lemma one_le_over D k : 0 < D -> ((1 <= inject_Z k / inject_Z D)%Q <-> D <= k).
Proof.
  intros HD. assert (N : (0 < inject_Z D)%Q) by (unfold Qlt, inject_Z; cbn; Lia.lia).
  split; intros H.
  - apply (Qmult_le_compat_r _ _ (inject_Z D)) in H; [|apply Qlt_le_weak; exact N]. assert (E : (inject_Z k / inject_Z D * inject_Z D == inject_Z k)%Q) by (field; intros X; rewrite X in N; exact (Qlt_irrefl _ N)). rewrite E in H.
    rewrite Qmult_1_l in H. rewrite <- Zle_Qle in H. exact H.
  - apply Qle_shift_div_l; [exact N|]. rewrite Qmult_1_l. rewrite <- Zle_Qle. exact H.
Qed.

(** the common denominator of a clause *)
Definition cden (ws : list weight) : Z := Z.of_N (fold_right N.lcm 1%N (map snd ws)).
Lemma cden_common ws : Forall (fun w => (0 < snd w)%N) ws -> common (cden ws) ws.
Proof.
  intros P. unfold common, cden.
  assert (X : (0 < fold_right N.lcm 1 (map snd ws))%N /\ Forall (fun w => N.divide (snd w) (fold_right N.lcm 1%N (map snd ws))) ws).
  { induction P as [|w ws Hw P [IH1 IH2]]; [split; [cbn; Lia.lia|constructor]|]. cbn [map fold_right]. set (L := fold_right N.lcm 1%N (map snd ws)) in *. split.
    - destruct (N.eq_dec (N.lcm (snd w) L) 0) as [E|]; [apply N.lcm_eq_0 in E; Lia.lia|Lia.lia].
    - constructor; [apply N.divide_lcm_l|]. eapply Forall_impl; [|exact IH2]. intros x Hx. cbv beta in Hx. eapply N.divide_trans; [exact Hx|apply N.divide_lcm_r]. }
  destruct X as [X1 X2]. split; [Lia.lia|]. eapply Forall_impl; [|exact X2]. intros x [q Hq]. exists (Z.of_N q). rewrite Hq at 1. rewrite N2Z.inj_mul. reflexivity.
Qed.
Lemma sum_over_le D ws : common D ws -> Forall (fun w => (0 < snd w)%N /\ (fst w <= snd w)%N) ws -> 0 <= sum_over D ws <= Z.of_N (len ws) * D.
Proof.
  intros [HD C] P. induction ws as [|w ws IH]; [cbn; Lia.lia|]. inversion C; inversion P; subst. destruct H5. cbn [sum_over fold_right]. fold (sum_over D ws).
  specialize (IH H2 H6). pose proof (over_bounds D w HD H H0 H1). unfold len in *. cbn [length]. rewrite Nat2N.inj_succ, N2Z.inj_succ. nia.
Qed.
Lemma fits_bounded ws : Forall (fun w => (0 < snd w)%N /\ (fst w <= snd w)%N) ws -> fits ws -> bounded (cden ws) (sum_over (cden ws) ws).
Proof.
  intros P F. assert (P' : Forall (fun w => (0 < snd w)%N) ws) by (eapply Forall_impl; [|exact P]; cbn; tauto).
  destruct ws as [|w ws]; [split; vm_compute; reflexivity|]. pose proof (sum_over_le _ _ (cden_common _ P') P) as B. unfold fits in F. fold (cden (w :: ws)) in *.
  assert (G : Z.of_N (len (w :: ws)) * cden (w :: ws) < 2 ^ 31). { unfold cden. rewrite <- N2Z.inj_mul. change (2 ^ 31) with (Z.of_N (2 ^ 31)). apply N2Z.inj_lt. exact F. }
  pose proof (cden_common _ P') as [HD _]. split; [|eapply Z.le_lt_trans; [apply B|exact G]]. assert (X1 : 1 <= Z.of_N (len (w :: ws))) by (unfold len; cbn [length]; Lia.lia). set (a := Z.of_N (len (w :: ws))) in *. set (b := cden (w :: ws)) in *. clearbody a b. clear - G HD X1. nia.
Qed.
