From Verif Require Import Base Data Json Spec DataDefs Float FloatDefs Matter Crypto HashDefs Saider.
From Verif Require Import BaseFacts StdStr StdStrFacts JsonFacts DataFacts DataThms FloatFacts FloatErr FloatShort Hash.
Ltac lia := Lia.lia.
Ltac nia := Lia.nia.

(** C79: the f64 operations the reader uses round as IEEE 754 prescribes: to the nearest f64, a
    tie to the even one; this determines the result. *)
Lemma C79_rounding_pf : forall a b k : N, b <> 0 -> (nearest k a b <-> k = round_f64 a b).
Proof. intros a b k Hb. split; [intros H; apply (nearest_unique _ _ a b Hb H), round_nearest, Hb|intros ->; apply round_nearest, Hb]. Qed.
(** 0.1 is 0x1.999999999999ap-4; 2^53 + 1 is a tie. *)
Lemma C79_rounding_ex_pf : round_f64 f64_one 10 = 7205759403792794 * 2 ^ 1018 /\ nearest (2 ^ 53 * f64_one) ((2 ^ 53 + 1) * f64_one) 1.
Proof. split; [vm_compute; reflexivity|]. apply C79_rounding_pf; [discriminate|]. vm_compute. reflexivity. Qed.

(** C79, reading: a numeral whose digits make an integer below 2^53 and that scales it by
    at most 10^22 is read as the f64 nearest to it. *)
Lemma C79_reads_nearest_pf : forall (t : bytes) (neg : bool) (c : N) (q x : Z),
  denotes t neg c q x -> c < 2 ^ 53 -> (-22 <= q <= 22)%Z -> (Z.abs x < 2 ^ 31)%Z ->
  exists k, f64_read t = Some (neg, k) /\ nearest_decimal k c q.
Proof. intros t neg c q x H Hc Hq Hx. exists (dec_round c q). split; [eapply f64_read_short; eauto|]. apply nearest_dec. reflexivity. Qed.
Lemma den (neg : bool) (d f frac ex : bytes) (x : Z) : d <> [] -> forallb is_digit (d ++ f) = true -> (frac = [] /\ f = [] \/ frac = 46 :: f /\ f <> []) ->
  (ex = [] /\ x = 0%Z \/ exists s y, ex = 101 :: s ++ y /\ y <> [] /\ forallb is_digit y = true /\ (s = [] /\ x = Z.of_N (digits_value y) \/ s = [45] /\ x = (- Z.of_N (digits_value y))%Z)) ->
  denotes ((if neg then [45] else []) ++ d ++ frac ++ ex) neg (digits_value (d ++ f)) (x - Z.of_N (len f)) x.
Proof.
  intros Nd Hd Hf He. assert (D : forall l, forallb is_digit l = true -> forall h, In h l -> digit h).
  { intros l Hl h Hh. rewrite forallb_forall in Hl. specialize (Hl h Hh). unfold is_digit in Hl. apply andb_prop in Hl as [A B]. split; apply N.leb_le; assumption. }
  exists d, f, frac, ex. split; [reflexivity|]. split; [exact Nd|]. split; [apply D, Hd|]. split; [exact Hf|]. split; [|auto].
  destruct He as [He|(s & y & -> & Ny & Hy & S)]; [auto|right]. exists 101, s, y. split; [reflexivity|]. split; [auto|]. split; [exact Ny|]. split; [apply D, Hy|]. destruct S as [[-> ->]|[-> ->]]; auto.
Qed.
(** -12.5e-3 is such a numeral, read as the f64 that prints as -0.0125. *)
Lemma C79_reads_nearest_ex_pf : denotes (s2b "-12.5e-3") true 125 (-4) (-3) /\ match f64_read (s2b "-12.5e-3") with Some (neg, k) => f64_text neg k | None => [] end = s2b "-0.0125".
Proof.
  split; [|vm_compute; reflexivity]. apply (den true (s2b "12") (s2b "5") (s2b ".5") (s2b "e-3") (-3)); [discriminate|reflexivity|right; split; [reflexivity|discriminate]|].
  right. exists [45], (s2b "3"). split; [reflexivity|]. split; [discriminate|]. split; [reflexivity|]. right. auto.
Qed.

Lemma print_denotes neg k : is_f64 k -> float_text (f64_text neg k) /\ exists c q x, denotes (f64_text neg k) neg c q x /\ dec_round c q = k /\ (k <> 0 -> exists j, c = fst (shortest k) * 10 ^ j).
Proof.
  intros Hk. destruct (f64_text_parts neg k Hk) as (d & f & frac & ex & x & -> & I & Hf & Hfr & He & Hne & R & J). pose proof I as (Nd & Hd & _). split.
  - exists (if neg then [45] else []), d, frac, ex. split; [reflexivity|]. split; [destruct neg; auto|]. split; [exact I|]. split; [destruct Hfr as [[-> _]|[-> Nf]]; [auto|right; exists f; auto]|]. split; [|exact Hne].
    destruct He as [[-> _]|(s & y & -> & Ny & Hy & S)]; [auto|right]. exists 101, s, y. split; [reflexivity|]. split; [auto|]. split; [destruct S as [[-> _]|[-> _]]; auto|]. auto.
  - exists (digits_value (d ++ f)), (x - Z.of_N (len f))%Z, x. split; [|split; [exact R|exact J]]. exists d, f, frac, ex. split; [reflexivity|]. split; [exact Nd|]. split; [intros h Hh; apply in_app_or in Hh as [Hh|Hh]; auto|]. split; [exact Hfr|]. split; [|auto].
    destruct He as [He|(s & y & -> & Ny & Hy & S)]; [auto|right]. exists 101, s, y. split; [reflexivity|]. split; [auto|]. split; [exact Ny|]. split; [exact Hy|]. destruct S as [[-> ->]|[-> ->]]; auto.
Qed.
(** C79, printing: every f64 is printed as a numeral with a point or an exponent, and it is the
    f64 nearest to that numeral; so two different f64 are printed differently. *)
Lemma C79_prints_pf : forall (neg : bool) (k : N), is_f64 k -> float_text (f64_text neg k) /\
  (exists c q x, denotes (f64_text neg k) neg c q x /\ nearest_decimal k c q) /\
  (forall neg' k', is_f64 k' -> f64_text neg' k' = f64_text neg k -> neg' = neg /\ k' = k).
Proof.
  intros neg k Hk. destruct (print_denotes neg k Hk) as (F & c & q & x & D & R & _). split; [exact F|]. split.
  - exists c, q, x. split; [exact D|]. apply nearest_dec. auto.
  - intros neg' k' Hk' E. destruct (print_denotes neg' k' Hk') as (_ & c' & q' & x' & D' & R' & _). rewrite E in D'. destruct (denotes_fun _ _ _ _ _ _ _ _ _ D D') as (-> & -> & -> & _). split; congruence.
Qed.
Lemma C79_prints_ex_pf : is_f64 (5 ^ 22 * 2 ^ 1096) /\ f64_text true (5 ^ 22 * 2 ^ 1096) = s2b "-1e22" /\ is_f64 1 /\ f64_text false 1 = s2b "5e-324".
Proof. split; [exists (5 ^ 22), 1096; split; [reflexivity|vm_compute; reflexivity]|]. split; [vm_compute; reflexivity|]. split; [exists 1, 0; split; reflexivity|]. vm_compute; reflexivity. Qed.

(** C79, printing is shortest: apart from zeros at the end an f64 is printed with at most 17 digits,
    and with no more digits than any other decimal to which it is the nearest f64. *)
Lemma C79_shortest_pf : forall (neg : bool) (k : N), is_f64 k -> k <> 0 -> exists (c j : N) (q x : Z),
  denotes (f64_text neg k) neg (c * 10 ^ j) q x /\ c < 10 ^ 17 /\
  forall (n c2 : N) (q2 : Z), c2 < 10 ^ n -> nearest_decimal k c2 q2 -> c < 10 ^ n.
Proof.
  intros neg k F Nk. destruct (print_denotes neg k F) as (_ & c & q & x & D & _ & J). destruct (J Nk) as [j ->]. exists (fst (shortest k)), j, q, x. split; [exact D|].
  assert (B : fst (shortest k) < 10 ^ 17). { destruct (seventeen k F Nk) as (c2 & q2 & L & R). apply (shortest_few k 17 c2 q2 F Nk); [lia|exact L|exact R]. }
  split; [exact B|]. intros n c2 q2 L H. apply nearest_dec in H. destruct (N.le_gt_cases 17 n) as [G|G]; [eapply N.lt_le_trans; [exact B|apply N.pow_le_mono_r; lia]|].
  destruct (N.eq_dec n 0) as [->|Nn]; [exfalso; rewrite N.pow_0_r in L; assert (c2 = 0) by lia; subst c2; rewrite dec_round_0 in H; congruence|]. apply (shortest_few k n c2 q2 F Nk); [lia|exact L|auto].
Qed.
Lemma C79_shortest_ex_pf : exists k, is_f64 k /\ k <> 0 /\ nearest_decimal k 67 (-1) /\ f64_text false k = s2b "6.7".
Proof.
  exists (7543529375845581 * 2 ^ 1024). split; [exists 7543529375845581, 1024; split; [reflexivity|vm_compute; reflexivity]|]. split; [discriminate|]. split; [apply nearest_dec; vm_compute; reflexivity|vm_compute; reflexivity].
Qed.

(** C79, round trip: an f64 whose text is short is read back from it. *)
Lemma C79_stable_pf : forall (neg : bool) (k : N), is_f64 k -> short (f64_text neg k) -> f64_read (f64_text neg k) = Some (neg, k).
Proof.
  intros neg k Hk (neg' & c & q & x & D & Hc & Hq & Hx). destruct (print_denotes neg k Hk) as (_ & c' & q' & x' & D' & R & _). destruct (denotes_fun _ _ _ _ _ _ _ _ _ D D') as (-> & -> & -> & ->). rewrite (f64_read_short _ _ _ _ _ D' Hc Hq Hx), R. reflexivity.
Qed.
(** 6.7 and 1e22 are *)
Lemma C79_stable_ex_pf : (exists k, is_f64 k /\ f64_text false k = s2b "6.7" /\ short (s2b "6.7")) /\ short (s2b "1e22") /\ f64_text false (5 ^ 22 * 2 ^ 1096) = s2b "1e22".
Proof.
  split; [|split].
  - exists (7543529375845581 * 2 ^ 1024). split; [exists 7543529375845581, 1024; split; [reflexivity|vm_compute; reflexivity]|]. split; [vm_compute; reflexivity|].
    exists false, 67, (-1)%Z, 0%Z. split; [|split; [reflexivity|split; [split; discriminate|reflexivity]]]. apply (den false (s2b "6") (s2b "7") (s2b ".7") [] 0); [discriminate|reflexivity|right; split; [reflexivity|discriminate]|auto].
  - exists false, 1, 22%Z, 22%Z. split; [|split; [reflexivity|split; [split; discriminate|reflexivity]]]. apply (den false (s2b "1") [] [] (s2b "e22") 22); [discriminate|reflexivity|auto|]. right. exists [], (s2b "22"). split; [reflexivity|]. split; [discriminate|]. split; [reflexivity|]. left. auto.
  - vm_compute. reflexivity.
Qed.

Lemma round_nz a b : b <> 0 -> b <= a -> round_f64 a b <> 0.
Proof.
  intros Hb L E. destruct (round_nearest a b Hb) as [_ H]. rewrite E in H. destruct (H 1) as [D _]; [exists 1, 0; split; reflexivity|]. unfold dist in D. rewrite N.mul_0_l, N.mul_1_l in D. lia.
Qed.
Lemma pow10_pos n : pow10 n <> 0.
Proof. apply round_nz; [discriminate|]. pose proof (pow10_nz n). pose proof f64_one_nz. nia. Qed.
Lemma round_is a b : b <> 0 -> is_f64 (round_f64 a b).
Proof. intros Hb. exact (proj1 (round_nearest a b Hb)). Qed.
Lemma from_parts_f64 fuel : forall f e k, is_f64 f -> from_parts fuel f e = Some k -> is_f64 k.
Proof.
  assert (F0 : is_f64 0) by (exists 0, 0; split; reflexivity).
  induction fuel as [|n IH]; intros f e k Hf; cbn [from_parts]; destruct (Z.abs e <=? 308)%Z.
  - destruct (0 <=? e)%Z; [cbv zeta; destruct (f64_inf <=? _); [discriminate|]|]; intros H; injection H as <-; apply round_is; [apply f64_one_nz|apply pow10_pos].
  - destruct (f =? 0); [intros H; injection H as <-; exact F0|]. destruct (0 <=? e)%Z; [discriminate|]. intros H; injection H as <-; exact F0.
  - destruct (0 <=? e)%Z; [cbv zeta; destruct (f64_inf <=? _); [discriminate|]|]; intros H; injection H as <-; apply round_is; [apply f64_one_nz|apply pow10_pos].
  - destruct (f =? 0); [intros H; injection H as <-; exact F0|]. destruct (0 <=? e)%Z; [discriminate|]. apply IH. apply round_is, pow10_pos.
Qed.
Lemma f64_read_f64 t neg k : f64_read t = Some (neg, k) -> is_f64 k.
Proof.
  unfold f64_read. destruct (numeral t) as [[[[n d] f] ex]|]; [|discriminate]. destruct (collect_int 0 d) as [s more]. destruct (collect_frac s f) as [s' less]. destruct (with_exponent _ _ _) as [k'|] eqn:E; [|discriminate]. intros H. injection H as _ ->.
  assert (F0 : is_f64 0) by (exists 0, 0; split; reflexivity). assert (Fi : is_f64 (f64_of_int s')) by (apply round_is; discriminate).
  revert E. unfold with_exponent. destruct ex as [|h r]; [apply from_parts_f64, Fi|]. destruct (match r with 43 :: d0 => _ | _ => _ end) as [pos y]. destruct (2 ^ 31 <=? dec_value y); [|apply from_parts_f64, Fi].
  destruct (negb (s' =? 0) && pos); [discriminate|]. intros H. injection H as <-. exact F0.
Qed.
(** C79: whatever is read is an f64 (never infinite, C47), and it prints as a JSON number with a
    point or an exponent: what the theorems about JSON texts assume of number reading. *)
Lemma C79_shape_pf : float_shape real_floats /\ forall (t u : bytes), float_of_text (Floats := real_floats) t = Some u ->
  exists neg k, f64_read t = Some (neg, k) /\ is_f64 k /\ u = f64_text neg k.
Proof.
  assert (X : forall (t u : bytes), float_of_text (Floats := real_floats) t = Some u -> exists neg k, f64_read t = Some (neg, k) /\ is_f64 k /\ u = f64_text neg k).
  { intros t u. cbn [float_of_text real_floats]. destruct (f64_read t) as [[neg k]|] eqn:E; [|discriminate]. intros H. injection H as <-. exists neg, k. split; [reflexivity|]. split; [apply (f64_read_f64 _ _ _ E)|reflexivity]. }
  split; [|exact X]. intros t u H. destruct (X t u H) as (neg & k & _ & Hk & ->). apply print_denotes, Hk.
Qed.

(** C79, all numerals: the error is at most 2^-50 of the number and 2^-1073; numerals above the largest
    f64, and only those (up to that error), are out of range. *)
Lemma C79_error_bound_pf : forall (t : bytes) (neg : bool) (c : N) (q x : Z) (a b : N),
  denotes t neg c q x -> len t <= 10 ^ 9 -> (Z.abs x <= 10 ^ 9)%Z -> decimal_ratio c q a b ->
  match f64_read t with
  | Some (neg', k) => neg' = neg /\ k < 2 ^ 2098 /\ about k a b
  | None => (2 ^ 50 - 1) * 2 ^ 2098 * b <= 2 ^ 50 * a
  end.
Proof. exact read_about. Qed.
(** a number with 30 digits, and one out of range; the second f64 after 2^53 is not about 2^53 *)
Lemma C79_error_bound_ex_pf : denotes (s2b "300000000000000000000000000001e-10") false 300000000000000000000000000001 (-10) (-10) /\
  decimal_ratio 300000000000000000000000000001 (-10) (300000000000000000000000000001 * 2 ^ 1074) (10 ^ 10) /\
  float_of_text (Floats := real_floats) (s2b "300000000000000000000000000001e-10") = Some (s2b "3e19") /\
  denotes (s2b "1e309") false 1 309 309 /\ f64_read (s2b "1e309") = None /\ ~ about ((2 ^ 53 + 16) * 2 ^ 1074) (2 ^ 53 * 2 ^ 1074) 1.
Proof.
  split; [|split; [|split; [|split; [|split]]]].
  - apply (den false (s2b "300000000000000000000000000001") [] [] (s2b "e-10") (-10)); [discriminate|vm_compute; reflexivity|auto|]. right. exists [45], (s2b "10"). split; [reflexivity|]. split; [discriminate|]. split; [reflexivity|]. right. auto.
  - split; reflexivity.
  - vm_compute. reflexivity.
  - apply (den false (s2b "1") [] [] (s2b "e309") 309); [discriminate|reflexivity|auto|]. right. exists [], (s2b "309"). split; [reflexivity|]. split; [discriminate|]. split; [reflexivity|]. left. auto.
  - vm_compute. reflexivity.
  - vm_compute. intros H. apply H. reflexivity.
Qed.

(** C79, values: a value at most 127 levels deep, each float of which is an f64 printed with a point
    and few digits, is read back from its JSON text. *)
Lemma C79_json_round_trip_pf : forall v : data,
  good (fun t => In 46 t /\ short t /\ exists neg k, is_f64 k /\ t = f64_text neg k) v -> depth v <= 127 ->
  from_json (H := real_floats) (to_json v) = Ok v.
Proof.
  intros v G D. apply C46_json_round_trip_pf; [|exact D]. revert G. clear D. induction v as [|b|i|t|s|a IHa|o IHo] using value_ind'; intros G; inversion G; subst; constructor; auto.
  - destruct H0 as (Hp & Hs & neg & k & Hk & ->). split; [apply print_denotes, Hk|]. split; [exact Hp|]. cbn [float_of_text real_floats]. rewrite (C79_stable_pf neg k Hk Hs). reflexivity.
  - intros v I. rewrite Forall_forall in IHa. auto.
  - intros k v I. rewrite Forall_forall in IHo. apply (IHo (k, v) I). eauto.
Qed.
Lemma C79_json_round_trip_ex_pf : let v := VObj [(s2b "x", VFloat (s2b "6.7"))] in good (fun t => In 46 t /\ short t /\ exists neg k, is_f64 k /\ t = f64_text neg k) v /\
  from_json (H := real_floats) (to_json v) = Ok v.
Proof.
  cbv zeta. split; [|vm_compute; reflexivity]. destruct C79_stable_ex_pf as [(k & Hk & E & S) _]. constructor; [repeat constructor; intros []|]. intros k' v [X|[]]. injection X as <- <-. constructor. split; [right; left; reflexivity|]. split; [exact S|]. exists false, k. auto.
Qed.

(** C79: without few digits it fails, as the reader rounds more than once: the f64 9007199254740991.0 is read back as
    9007199254740990.0; and the document 5e36 is read, but cannot be read back from its own text. *)
Lemma C79_unstable_pf : (exists k v, is_f64 k /\ f64_text false k = s2b "9007199254740991.0" /\ v = VFloat (f64_text false k) /\
    from_json (H := real_floats) (to_json v) = Ok (VFloat (s2b "9007199254740990.0"))) /\
  (exists v, from_json (H := real_floats) (s2b "5e36") = Ok v /\ v = VFloat (s2b "5.0000000000000004e36") /\ from_json (H := real_floats) (to_json v) = Panic).
Proof.
  split.
  - assert (E : f64_text false (9007199254740991 * 2 ^ 1074) = s2b "9007199254740991.0") by (vm_compute; reflexivity). exists (9007199254740991 * 2 ^ 1074), (VFloat (s2b "9007199254740991.0")). split; [apply is_f64_small; reflexivity|]. split; [exact E|]. split; [rewrite E; reflexivity|]. vm_compute. reflexivity.
  - exists (VFloat (s2b "5.0000000000000004e36")). split; [vm_compute; reflexivity|]. split; [reflexivity|]. vm_compute. reflexivity.
Qed.

(** C79: so the identifier that [saidify] puts into a value need not verify against the value
    read from its serialization. *)
Lemma C79_said_lost_pf : forall (P : Profile) (C : Crypto), exists sad s sad' v,
  saidify (H0 := with_digests C) sad None None None None = Ok (s, sad') /\
  said_verify (H0 := with_digests C) s sad' None None None None None = Ok true /\
  from_json (H := real_floats) (to_json sad') = Ok v /\
  said_verify (H0 := with_digests C) s v None None None None None = Ok false.
Proof.
  intros P C. pose (sad := VObj [(s2b "d", VStr []); (s2b "x", VFloat (s2b "9007199254740991.0"))]).
  assert (X : exists q, saidify (H0 := with_digests C) sad None None None None = Ok q /\ said_verify (H0 := with_digests C) (fst q) (snd q) None None None None None = Ok true /\
    match from_json (H := real_floats) (to_json (snd q)) with Ok v => said_verify (H0 := with_digests C) (fst q) v None None None None None = Ok false | _ => False end).
  { let r := eval vm_compute in (saidify (H := true) (H0 := with_digests C) sad None None None None) in match r with Ok ?q => exists q end. destruct P; (split; [vm_compute; reflexivity|]; split; vm_compute; reflexivity). }
  destruct X as ([s sad'] & E1 & E2 & E3). cbn [fst snd] in *. destruct (from_json (H := real_floats) (to_json sad')) as [v| |] eqn:Ev; try contradiction. exists sad, s, sad', v. auto.
Qed.
