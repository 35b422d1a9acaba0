(** Proofs about the string functions of StdStr. *)
From Verif Require Import Base BaseFacts Util UtilFacts StdStr Spec SpecFacts.
From Coq Require Import Lia.

Lemma Forall2_length {A B} (R : A -> B -> Prop) l m : Forall2 R l m -> length l = length m.
Proof. induction 1; cbn; congruence. Qed.

Lemma digits_val_acc r s : forall a, StdStr.digits_val r s a =
  match StdStr.digits_val r s 0 with Some n => Some (a * r ^ len s + n) | None => None end.
Proof.
  induction s as [|c s IH]; intros a; cbn [StdStr.digits_val].
  - f_equal. change (len (@nil N)) with 0. rewrite N.pow_0_r. lia.
  - destruct (digit_val r c) as [d|]; [|reflexivity]. rewrite IH, (IH (0 * r + d)).
    destruct (StdStr.digits_val r s 0); [|reflexivity]. f_equal. rewrite len_cons, N.pow_add_r, N.pow_1_r. lia.
Qed.
Lemma digits_val_some r s n : StdStr.digits_val r s 0 = Some n -> exists ds, Forall2 (fun c d => digit_val r c = Some d) s ds /\ n = val r ds.
Proof.
  revert n. induction s as [|c s IH]; intros n H; cbn [StdStr.digits_val] in H.
  - injection H as <-. exists []. split; [constructor|reflexivity].
  - destruct (digit_val r c) as [d|] eqn:E; [|discriminate]. rewrite digits_val_acc in H.
    destruct (StdStr.digits_val r s 0) as [m|] eqn:E2; [|discriminate]. destruct (IH _ eq_refl) as [ds [F ->]].
    exists (d :: ds). split; [constructor; auto|]. injection H as <-. rewrite val_cons.
    rewrite N.mul_0_l, N.add_0_l. f_equal. f_equal. f_equal. unfold len. f_equal. eapply Forall2_length; eauto.
Qed.
Lemma digits_val_ok r s ds : Forall2 (fun c d => digit_val r c = Some d) s ds -> StdStr.digits_val r s 0 = Some (val r ds).
Proof.
  induction 1 as [|c d s ds E F IH]; [reflexivity|]. cbn [StdStr.digits_val]. rewrite E, digits_val_acc, IH. f_equal. rewrite val_cons.
  rewrite N.mul_0_l, N.add_0_l. f_equal. f_equal. f_equal. unfold len. f_equal. eapply Forall2_length; eauto.
Qed.
Lemma digits_val_app r a b : StdStr.digits_val r (a ++ b) 0 =
  match StdStr.digits_val r a 0, StdStr.digits_val r b 0 with Some x, Some y => Some (x * r ^ len b + y) | _, _ => None end.
Proof.
  induction a as [|c a IH]; cbn [app StdStr.digits_val].
  - destruct (StdStr.digits_val r b 0); [|reflexivity]. f_equal; lia.
  - destruct (digit_val r c) as [d|]; [|reflexivity]. rewrite !(digits_val_acc r _ (0 * r + d)), IH.
    destruct (StdStr.digits_val r a 0), (StdStr.digits_val r b 0); try reflexivity. f_equal. rewrite len_app, N.pow_add_r. lia.
Qed.

Lemma digit_val_char r d : d < r -> r <= 16 -> digit_val r (digit_char d) = Some d.
Proof.
  intros H Hr. unfold digit_char, digit_val. destruct (N.ltb_spec d 10).
  - replace ((48 <=? 48 + d) && (48 + d <=? 57)) with true by lia. cbv zeta. replace (48 + d - 48) with d by lia. replace (d <? r) with true by lia. reflexivity.
  - replace ((48 <=? 87 + d) && (87 + d <=? 57)) with false by lia. replace ((97 <=? 87 + d) && (87 + d <=? 122)) with true by lia. cbv zeta.
    replace (87 + d - 87) with d by lia. replace (d <? r) with true by lia. reflexivity.
Qed.
Lemma digit_char_inj a b : a < 16 -> b < 16 -> digit_char a = digit_char b -> a = b.
Proof. intros Ha Hb E. pose proof (digit_val_char 16 a Ha (N.le_refl _)) as X. rewrite E, digit_val_char in X by lia. congruence. Qed.

(** ** to_radix *)
Lemma to_radix_fuel_spec fuel r : 2 <= r -> r <= 16 -> forall n acc, n < 2 ^ N.of_nat fuel ->
  exists ds, to_radix_fuel (S fuel) r n acc = map digit_char ds ++ acc /\ Forall (fun d => d < r) ds /\ val r ds = n /\ ds <> [] /\
    (n <> 0 -> exists h t, ds = h :: t /\ h <> 0) /\ (n = 0 -> ds = [0]).
Proof.
  intros Hr Hr2. induction fuel as [|f IH]; intros n acc Hn.
  - change (2 ^ N.of_nat 0) with 1 in Hn. assert (n = 0) as -> by lia. cbn [to_radix_fuel]. rewrite N.mod_0_l, N.div_0_l by lia.
    exists [0]. cbn. repeat split; auto; try discriminate; try lia. constructor; [lia|constructor].
  - remember (S f) as f' eqn:Ef. cbn [to_radix_fuel]. destruct (N.eqb_spec (n / r) 0) as [E|E].
    + exists [n mod r]. assert (n < r) by (apply N.div_small_iff in E; lia). rewrite N.mod_small by auto. cbn. repeat split; auto; try discriminate.
      * intros H0. exists n, []. auto. 
      * intros ->. reflexivity.
    + subst f'. destruct (IH (n / r) (digit_char (n mod r) :: acc)) as [ds [E1 [F [V [Ne [Hd _]]]]]].
      { apply N.div_lt_upper_bound; [lia|]. eapply N.lt_le_trans; [exact Hn|]. replace (N.of_nat (S f)) with (1 + N.of_nat f) by lia.
        rewrite N.pow_add_r, N.pow_1_r. apply N.mul_le_mono_r. lia. }
      exists (ds ++ [n mod r]). rewrite E1, map_app, <- app_assoc. split; [reflexivity|]. split; [apply Forall_app; split; auto; constructor; [apply N.mod_lt; lia|constructor]|].
      split; [rewrite val_app, V, val_single; change (len [n mod r]) with 1; rewrite N.pow_1_r; pose proof (N.div_mod' n r); lia|].
      split; [destruct ds; discriminate|]. split; [|intros ->; rewrite N.div_0_l in E; lia].
      intros _. destruct (Hd E) as [h [t [-> Hh]]]. exists h, (t ++ [n mod r]). auto.
Qed.
Lemma N_size_pow n : n < 2 ^ N.size n.
Proof. apply N.size_gt. Qed.
Lemma to_radix_spec r n : 2 <= r -> r <= 16 -> exists ds, to_radix r n = map digit_char ds /\ Forall (fun d => d < r) ds /\ val r ds = n /\ ds <> [] /\
    (n <> 0 -> exists h t, ds = h :: t /\ h <> 0) /\ (n = 0 -> ds = [0]).
Proof.
  intros Hr H16. unfold to_radix. destruct (to_radix_fuel_spec (N.to_nat (N.size n)) r Hr H16 n []) as [ds H].
  - rewrite N2Nat.id. apply N_size_pow.
  - exists ds. rewrite app_nil_r in H. exact H.
Qed.
Lemma digits_val_radix r n : 2 <= r -> r <= 16 -> StdStr.digits_val r (to_radix r n) 0 = Some n.
Proof.
  intros Hr H16. destruct (to_radix_spec r n Hr H16) as [ds [-> [F [V _]]]]. rewrite <- V. apply digits_val_ok.
  clear V. induction F as [|d ds Hd F IH]; constructor; auto. apply digit_val_char; auto.
Qed.
Lemma to_radix_chars r n c : 2 <= r -> r <= 16 -> In c (to_radix r n) -> exists d, d < r /\ c = digit_char d.
Proof.
  intros Hr H16. destruct (to_radix_spec r n Hr H16) as [ds [-> [F _]]]. intros I. apply in_map_iff in I as [d [<- I]].
  rewrite Forall_forall in F. eauto.
Qed.
Lemma to_radix_nonempty r n : 2 <= r -> r <= 16 -> to_radix r n <> [].
Proof. intros Hr H16. destruct (to_radix_spec r n Hr H16) as [ds [-> [F [V [Ne _]]]]]. destruct ds; [congruence|discriminate]. Qed.
Lemma digit_char_range d : d < 16 -> 48 <= digit_char d <= 57 \/ 97 <= digit_char d <= 102.
Proof. intros H. unfold digit_char. destruct (N.ltb_spec d 10); lia. Qed.
Lemma to_radix_first r n : 2 <= r -> r <= 16 -> exists c t, to_radix r n = c :: t /\ (48 <= c <= 57 \/ 97 <= c <= 102).
Proof.
  intros Hr H16. pose proof (to_radix_nonempty r n Hr H16) as Ne. destruct (to_radix r n) as [|c t] eqn:E; [congruence|].
  exists c, t. split; auto. destruct (to_radix_chars r n c Hr H16) as [d [Hd ->]]; [rewrite E; left; auto|]. apply digit_char_range. lia.
Qed.

Lemma parse_uint_digits radix max c r : c <> 43 -> parse_uint radix max (c :: r) =
  match StdStr.digits_val radix (c :: r) 0 with Some n => if n <=? max then Some n else None | None => None end.
Proof. intros H. unfold parse_uint. destruct c as [|p]; [reflexivity|]. do 6 (destruct p as [p|p|]; try reflexivity; try congruence). Qed.
Lemma parse_int_digits radix lo hi c r : c <> 43 -> c <> 45 -> parse_int radix lo hi (c :: r) =
  match StdStr.digits_val radix (c :: r) 0 with Some n => if ((lo <=? Z.of_N n) && (Z.of_N n <=? hi))%Z then Some (Z.of_N n) else None | None => None end.
Proof. intros H H'. unfold parse_int. destruct c as [|p]; [reflexivity|]. do 6 (destruct p as [p|p|]; try reflexivity; try congruence). Qed.

Lemma parse_uint_radix r max n : 2 <= r -> r <= 16 -> parse_uint r max (to_radix r n) = if n <=? max then Some n else None.
Proof.
  intros Hr H16. destruct (to_radix_first r n Hr H16) as [c [t [E Hc]]]. rewrite E, parse_uint_digits by lia. rewrite <- E, digits_val_radix by auto. reflexivity.
Qed.
Lemma to_radix_inj r a b : 2 <= r -> r <= 16 -> to_radix r a = to_radix r b -> a = b.
Proof. intros Hr H16 E. pose proof (digits_val_radix r a Hr H16) as X. rewrite E, digits_val_radix in X by auto. congruence. Qed.

(** ** split and join *)
Lemma split_on_nonempty c s : split_on c s <> [].
Proof. induction s as [|x s IH]; cbn; [discriminate|]. destruct (x =? c); [discriminate|]. destruct (split_on c s); [congruence|discriminate]. Qed.
Lemma split_on_none c s : ~ In c s -> split_on c s = [s].
Proof.
  induction s as [|x s IH]; intros H; [reflexivity|]. cbn. destruct (N.eqb_spec x c) as [->|]; [exfalso; apply H; left; auto|].
  rewrite IH; [reflexivity|]. intros I. apply H. right; auto.
Qed.
Lemma split_on_app c a s : ~ In c a -> split_on c (a ++ c :: s) = a :: split_on c s.
Proof.
  induction a as [|x a IH]; intros H; cbn; [rewrite N.eqb_refl; reflexivity|].
  destruct (N.eqb_spec x c) as [->|]; [exfalso; apply H; left; auto|]. rewrite IH by (intros I; apply H; right; auto). reflexivity.
Qed.
Lemma split_join c l : l <> [] -> Forall (fun p => ~ In c p) l -> split_on c (join [c] l) = l.
Proof.
  intros Hne F. induction l as [|p l IH]; [congruence|]. inversion F as [|? ? Hp F']; subst. destruct l as [|q l].
  - cbn [join]. apply split_on_none; auto.
  - transitivity (split_on c (p ++ c :: join [c] (q :: l))); [reflexivity|]. rewrite split_on_app by auto. f_equal. apply IH; auto. discriminate.
Qed.
Lemma join_split c s : join [c] (split_on c s) = s.
Proof.
  induction s as [|x s IH]; [reflexivity|]. cbn [split_on]. pose proof (split_on_nonempty c s) as Hne. destruct (N.eqb_spec x c) as [->|].
  - destruct (split_on c s) as [|p ps] eqn:E; [congruence|]. rewrite <- IH. reflexivity.
  - destruct (split_on c s) as [|p ps] eqn:E; [congruence|]. destruct ps; cbn [join app] in *; rewrite IH; reflexivity.
Qed.
Lemma split_on_parts c s : Forall (fun p => ~ In c p) (split_on c s).
Proof.
  induction s as [|x s IH]; cbn; [constructor; [intros []|constructor]|]. destruct (N.eqb_spec x c) as [->|]; [constructor; [intros []|auto]|].
  destruct (split_on c s) as [|p ps] eqn:E; [constructor; [intros [|[]]; auto|constructor]|]. inversion IH; subst. constructor; auto. intros [->|I]; auto.
Qed.
Lemma join_inj c a b : a <> [] -> b <> [] -> Forall (fun p => ~ In c p) a -> Forall (fun p => ~ In c p) b -> join [c] a = join [c] b -> a = b.
Proof. intros Ha Hb Fa Fb E. rewrite <- (split_join c a), <- (split_join c b) by auto. congruence. Qed.

Lemma starts_with_iff p s : starts_with p s = true <-> exists r, s = p ++ r.
Proof.
  revert s. induction p as [|x p IH]; intros s; [split; intros _; [exists s|]; reflexivity|]. destruct s as [|y s]; cbn [starts_with]; [split; [discriminate|intros [r E]; discriminate]|].
  rewrite andb_true_iff, N.eqb_eq, IH. split.
  - intros [-> [r ->]]. exists r. reflexivity.
  - intros [r E]. injection E as -> ->. eauto.
Qed.
