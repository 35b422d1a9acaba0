(** Positional numerals and facts about util.rs. *)
From Verif Require Import Base BaseFacts Utf8 B64 B64Facts Util.

(** ** Numerals *)
Definition val (b : N) (l : list N) : N := fold_left (fun acc d => acc * b + d) l 0.
Fixpoint digits (b : N) (k : nat) (n : N) : list N :=
  match k with O => [] | S k' => digits b k' (n / b) ++ [n mod b] end.

Lemma val_acc b l a : fold_left (fun acc d => acc * b + d) l a = a * b ^ len l + val b l.
Proof.
  unfold val. revert a. induction l as [|x l IH]; intros a; cbn [fold_left].
  - rewrite len_nil, N.pow_0_r. lia.
  - rewrite IH, (IH (0 * b + x)), len_cons, N.pow_add_r, N.pow_1_r. lia.
Qed.
Lemma val_nil b : val b [] = 0. Proof. reflexivity. Qed.
Lemma val_cons b x l : val b (x :: l) = x * b ^ len l + val b l.
Proof. unfold val at 1. cbn [fold_left]. rewrite val_acc. lia. Qed.
Lemma val_app b l1 l2 : val b (l1 ++ l2) = val b l1 * b ^ len l2 + val b l2.
Proof. unfold val at 1. rewrite fold_left_app, val_acc. reflexivity. Qed.
Lemma val_single b x : val b [x] = x.
Proof. rewrite val_cons, val_nil. change (len (@nil N)) with 0. rewrite N.pow_0_r. lia. Qed.
Lemma val_lt b l : 0 < b -> Forall (fun d => d < b) l -> val b l < b ^ len l.
Proof.
  intros Hb H. induction H as [|x l Hx Hl IH]; [cbn; lia|].
  rewrite val_cons, len_cons, N.pow_add_r, N.pow_1_r.
  assert (0 < b ^ len l) by (apply N.neq_0_lt_0, N.pow_nonzero; lia). nia.
Qed.
Lemma length_digits b k n : length (digits b k n) = k.
Proof. revert n. induction k as [|k IH]; intros n; cbn; auto. rewrite app_length, IH. cbn. lia. Qed.
Lemma len_digits b k n : len (digits b k n) = N.of_nat k.
Proof. unfold len. rewrite length_digits. reflexivity. Qed.
Lemma digits_lt b k n : 0 < b -> Forall (fun d => d < b) (digits b k n).
Proof.
  intros Hb. revert n. induction k as [|k IH]; intros n; cbn [digits]; [constructor|].
  apply Forall_app. split; auto. constructor; auto. apply N.mod_lt. lia.
Qed.
Lemma val_digits b k n : 0 < b -> val b (digits b k n) = n mod b ^ N.of_nat k.
Proof.
  intros Hb. revert n. induction k as [|k IH]; intros n; cbn [digits].
  - change (N.of_nat 0) with 0. rewrite N.pow_0_r, N.mod_1_r. reflexivity.
  - rewrite val_app, IH, val_single. change (len [n mod b]) with 1. rewrite N.pow_1_r.
    replace (N.of_nat (S k)) with (1 + N.of_nat k) by lia.
    rewrite N.pow_add_r, N.pow_1_r, N.mod_mul_r; [lia|lia|apply N.pow_nonzero; lia].
Qed.
Lemma digits_val b l : 0 < b -> Forall (fun d => d < b) l -> digits b (length l) (val b l) = l.
Proof.
  intros Hb. induction l as [|x l IH] using rev_ind; intros H; [reflexivity|].
  apply Forall_app in H as [Hl Hx]. inversion Hx as [|? ? Hxb]; subst.
  rewrite app_length. cbn [length]. rewrite Nat.add_1_r. cbn [digits].
  rewrite val_app, val_single. change (len [x]) with 1. rewrite N.pow_1_r.
  rewrite N.div_add_l by lia. rewrite N.div_small by lia. rewrite N.add_0_r, IH by auto.
  f_equal. f_equal. rewrite N.add_comm, N.mod_add by lia. apply N.mod_small; auto.
Qed.
Lemma val_inj b l1 l2 : 0 < b -> Forall (fun d => d < b) l1 -> Forall (fun d => d < b) l2 ->
  len l1 = len l2 -> val b l1 = val b l2 -> l1 = l2.
Proof.
  intros Hb H1 H2 Hl Hv. rewrite <- (digits_val b l1), <- (digits_val b l2) by auto.
  rewrite Hv. f_equal. unfold len in Hl. lia.
Qed.
Lemma digits_split b j k n : 0 < b -> digits b (j + k) n = digits b j (n / b ^ N.of_nat k) ++ digits b k n.
Proof.
  intros Hb. revert n. induction k as [|k IH]; intros n.
  - rewrite Nat.add_0_r, N.pow_0_r, N.div_1_r. cbn. rewrite app_nil_r. reflexivity.
  - rewrite Nat.add_succ_r. cbn [digits]. rewrite IH, app_assoc. f_equal. f_equal. f_equal.
    rewrite N.div_div; [|lia|apply N.pow_nonzero; lia]. f_equal.
    replace (N.of_nat (S k)) with (1 + N.of_nat k) by lia. rewrite N.pow_add_r, N.pow_1_r. lia.
Qed.
Lemma digits_small b k n : 0 < b -> n < b ^ N.of_nat k -> val b (digits b k n) = n.
Proof. intros. rewrite val_digits by auto. apply N.mod_small; auto. Qed.
Lemma digits_0 b k : 0 < b -> digits b k 0 = repeat 0 k.
Proof.
  intros Hb. induction k as [|k IH]; [reflexivity|]. cbn [digits].
  rewrite N.div_small, IH, N.mod_small by lia. clear IH.
  induction k as [|k IH]; cbn; auto. rewrite IH. reflexivity.
Qed.

Lemma from_be_val l : from_be l = val 256 l. Proof. reflexivity. Qed.
Lemma to_be_digits k n : to_be k n = digits 256 k n.
Proof. revert n. induction k as [|k IH]; intros n; cbn; auto. rewrite IH. reflexivity. Qed.

Lemma bytes_ok_Forall l : bytes_ok l = true <-> Forall (fun d => d < 256) l.
Proof.
  unfold bytes_ok, byte_ok. rewrite forallb_forall, Forall_forall. split; intros H x Hx; specialize (H x Hx); lia.
Qed.
Lemma bytes_ok_to_be k n : bytes_ok (to_be k n) = true.
Proof. rewrite to_be_digits. apply bytes_ok_Forall, digits_lt. lia. Qed.
Lemma len_to_be k n : len (to_be k n) = N.of_nat k.
Proof. rewrite to_be_digits. apply len_digits. Qed.

(** value of full triples *)
Lemma val_sextets bs : len bs mod 3 = 0 -> val 64 (sextets bs) = val 256 bs.
Proof.
  induction bs as [| a | a b | a b c r IH] using list_ind3; intros Hm; try (rewrite ?len_cons, ?len_nil in Hm; lia).
  - reflexivity.
  - assert (Hr : len r mod 3 = 0) by (rewrite !len_cons in Hm; lia).
    cbn [sextets]. rewrite !val_cons, !len_cons, IH by auto. rewrite len_sextets.
    assert (E : 64 ^ ((len r * 4 + 2) / 3) = 256 ^ len r).
    { replace ((len r * 4 + 2) / 3) with (4 * (len r / 3)) by lia.
      replace (len r) with (3 * (len r / 3)) at 2 by lia. rewrite !N.pow_mul_r. reflexivity. }
    rewrite !N.pow_add_r, E, !N.pow_1_r. generalize (256 ^ len r) as W. intros W.
    replace (a * (256 * (256 * W)) + (b * (256 * W) + (c * W + val 256 r)))
      with ((a * 65536 + b * 256 + c) * W + val 256 r) by lia.
    replace (a / 4 * (64 * (64 * (64 * W))) + ((a mod 4 * 16 + b / 16) * (64 * (64 * W)) + ((b mod 16 * 4 + c / 64) * (64 * W) + (c mod 64 * W + val 256 r))))
      with ((a / 4 * 262144 + (a mod 4 * 16 + b / 16) * 4096 + (b mod 16 * 4 + c / 64) * 64 + c mod 64) * W + val 256 r) by lia.
    f_equal. f_equal. lia.
Qed.

(** ** characters of sextets *)
Definition ords (t : bytes) : list N := map (fun c => match ord64 c with Some i => i | None => 0 end) t.

Lemma ords_lt t : Forall (fun d => d < 64) (ords t).
Proof.
  unfold ords. apply Forall_forall. intros x Hx. apply in_map_iff in Hx as [c [<- _]].
  destruct (ord64 c) eqn:E; [eapply ord64_lt; eauto|lia].
Qed.
Lemma chr_ords t : all_b64 t = true -> map chr64 (ords t) = t.
Proof.
  induction t as [|c t IH]; intros H; [reflexivity|]. cbn in H. apply andb_true_iff in H as [Hc Ht].
  unfold ords in *. cbn [map]. rewrite IH by auto. f_equal. unfold is_b64 in Hc. destruct (ord64 c) eqn:E; [apply chr64_ord64; auto|discriminate].
Qed.
Lemma ords_chr l : Forall (fun d => d < 64) l -> ords (map chr64 l) = l.
Proof.
  intros H. induction H as [|x l Hx Hl IH]; [reflexivity|]. cbn [map]. unfold ords in *. cbn [map]. rewrite ord64_chr64 by auto. f_equal; auto.
Qed.
Lemma len_ords t : len (ords t) = len t. Proof. apply len_map. Qed.
Lemma all_b64_chr l : Forall (fun d => d < 64) l -> all_b64 (map chr64 l) = true.
Proof. intros H. unfold all_b64. apply forallb_forall. intros x Hx. apply in_map_iff in Hx as [d [<- Hd]].
  apply is_b64_chr64. eapply Forall_forall in H; eauto. Qed.
Lemma ords_app a b : ords (a ++ b) = ords a ++ ords b. Proof. apply map_app. Qed.
Lemma ords_inj a b : all_b64 a = true -> all_b64 b = true -> ords a = ords b -> a = b.
Proof. intros Ha Hb E. rewrite <- (chr_ords a), <- (chr_ords b), E by auto. reflexivity. Qed.
Lemma map_chr_inj a b : Forall (fun d => d < 64) a -> Forall (fun d => d < 64) b -> map chr64 a = map chr64 b -> a = b.
Proof. intros Ha Hb E. rewrite <- (ords_chr a), <- (ords_chr b), E by auto. reflexivity. Qed.
Lemma all_b64_app a b : all_b64 (a ++ b) = all_b64 a && all_b64 b.
Proof. apply forallb_app. Qed.
Lemma take_map {A B} (f : A -> B) n l : take n (map f l) = map f (take n l).
Proof. unfold take. apply firstn_map. Qed.
Lemma drop_map {A B} (f : A -> B) n l : drop n (map f l) = map f (drop n l).
Proof. unfold drop. apply skipn_map. Qed.

(** ** b64_to_u32 / u64 *)
Lemma b64_to_uint_all M t o : all_b64 t = true -> 64 <= M -> (M mod 64 = 0) -> o < M ->
  b64_to_uint M t o = Ok (val 64 (o :: ords t) mod M).
Proof.
  intros Ha HM Hm. revert o. induction t as [|c t IH]; intros o Ho; cbn [b64_to_uint].
  - change (ords []) with (@nil N). rewrite val_single, N.mod_small by auto. reflexivity.
  - cbn in Ha. apply andb_true_iff in Ha as [Hc Ht]. unfold b64_char_to_index. unfold is_b64 in Hc.
    destruct (ord64 c) as [i|] eqn:E; [|discriminate]. cbn [obind]. pose proof (ord64_lt _ _ E) as Hi.
    assert (Hlt : (o * 64) mod M + i < M).
    { assert (exists q, M = 64 * q) as [q ->] by (exists (M / 64); lia).
      rewrite (N.mul_comm 64 q), N.mul_mod_distr_r by lia. assert (o mod q < q) by (apply N.mod_lt; lia). nia. }
    rewrite IH by auto. f_equal. change (ords (c :: t)) with (match ord64 c with Some i => i | None => 0 end :: ords t). rewrite E.
    rewrite !val_cons, !len_cons, N.pow_add_r, N.pow_1_r.
    replace (o * (64 * 64 ^ len (ords t)) + (i * 64 ^ len (ords t) + val 64 (ords t)))
      with ((o * 64 + i) * 64 ^ len (ords t) + val 64 (ords t)) by lia.
    rewrite (N.div_mod (o * 64) M) at 2 by lia. generalize (o * 64 / M) ((o * 64) mod M) (64 ^ len (ords t)) (val 64 (ords t)).
    intros q r W v. replace ((M * q + r + i) * W + v) with ((r + i) * W + v + (q * W) * M) by lia.
    rewrite N.mod_add by lia. reflexivity.
Qed.
Lemma b64_to_uint_bad M t o : all_b64 t = false -> b64_to_uint M t o = Err E_InvalidBase64Character.
Proof.
  revert o. induction t as [|c t IH]; intros o Ha; [discriminate|]. cbn in Ha. cbn [b64_to_uint].
  unfold b64_char_to_index, is_b64 in *. destruct (ord64 c); cbn in *; auto.
Qed.
Lemma val64_lt t : val 64 (ords t) < 64 ^ len t.
Proof. rewrite <- len_ords. apply val_lt; [lia|apply ords_lt]. Qed.
Lemma b64_to_u32_all t : all_b64 t = true -> len t <= 5 -> b64_to_u32 t = Ok (val 64 (ords t)).
Proof.
  intros Ha Hl. unfold b64_to_u32. rewrite b64_to_uint_all; auto; try (unfold U32; cbn; lia).
  rewrite val_cons, N.mul_0_l, N.add_0_l. f_equal. apply N.mod_small. pose proof (val64_lt t).
  assert (64 ^ len t <= 64 ^ 5) by (apply N.pow_le_mono_r; lia). unfold U32. cbn in *. lia.
Qed.
Lemma b64_to_u64_all t : all_b64 t = true -> len t <= 10 -> b64_to_u64 t = Ok (val 64 (ords t)).
Proof.
  intros Ha Hl. unfold b64_to_u64. rewrite b64_to_uint_all; auto; try (unfold U64; cbn; lia).
  rewrite val_cons, N.mul_0_l, N.add_0_l. f_equal. apply N.mod_small. pose proof (val64_lt t).
  assert (64 ^ len t <= 64 ^ 10) by (apply N.pow_le_mono_r; lia). unfold U64. cbn in *. lia.
Qed.
Lemma b64_to_u32_ok t n : b64_to_u32 t = Ok n -> all_b64 t = true.
Proof. unfold b64_to_u32. destruct (all_b64 t) eqn:E; auto. rewrite b64_to_uint_bad by auto. discriminate. Qed.
Lemma b64_to_u64_ok t n : b64_to_u64 t = Ok n -> all_b64 t = true.
Proof. unfold b64_to_u64. destruct (all_b64 t) eqn:E; auto. rewrite b64_to_uint_bad by auto. discriminate. Qed.
Lemma b64_to_u32_not_panic t : b64_to_u32 t <> Panic.
Proof.
  unfold b64_to_u32. generalize 0. induction t as [|c t IH]; intros o; cbn [b64_to_uint]; [discriminate|].
  unfold b64_char_to_index. destruct (ord64 c); cbn [obind]; [apply IH|discriminate].
Qed.
Lemma b64_to_u64_not_panic t : b64_to_u64 t <> Panic.
Proof.
  unfold b64_to_u64. generalize 0. induction t as [|c t IH]; intros o; cbn [b64_to_uint]; [discriminate|].
  unfold b64_char_to_index. destruct (ord64 c); cbn [obind]; [apply IH|discriminate].
Qed.

(** ** u32_to_b64 *)
Lemma b64_index_to_char_ok i : i < 64 -> b64_index_to_char i = Ok (chr64 i).
Proof.
  intros Hi. unfold b64_index_to_char, chr64. destruct (nth_error alphabet (N.to_nat i)) eqn:E.
  - f_equal. symmetry. apply nth_error_nth. auto.
  - apply nth_error_None in E. assert (length alphabet = 64)%nat by reflexivity. lia.
Qed.

(** number of base-64 digits without leading zeros *)
Lemma u2b_loop_spec fuel : forall x out, x < 64 ^ N.of_nat fuel ->
  exists k, (k <= fuel)%nat /\ u2b_loop fuel x 0 out = Ok (map chr64 (digits 64 k x) ++ out) /\ x < 64 ^ N.of_nat k
    /\ (forall j, x < 64 ^ N.of_nat j -> (k <= j)%nat).
Proof.
  induction fuel as [|f IH]; intros x out Hx.
  - exists 0%nat. repeat split; auto; cbn; lia.
  - cbn [u2b_loop]. destruct (N.eqb_spec x 0) as [->|Hx0].
    + exists 0%nat. split; [lia|]. split; [reflexivity|]; split; [cbn; lia|intros; lia].
    + change (0 =? 0) with true. cbv iota.
      rewrite b64_index_to_char_ok by lia. cbn [obind].
      destruct (IH (x / 64) (chr64 (x mod 64) :: out)) as [k [Hk [E [Hlt Hmin]]]].
      { replace (N.of_nat (S f)) with (1 + N.of_nat f) in Hx by lia. rewrite N.pow_add_r, N.pow_1_r in Hx.
        apply N.div_lt_upper_bound; lia. }
      exists (S k). split; [lia|]. split; [|split].
      * rewrite E. cbn [digits]. rewrite map_app, <- app_assoc. reflexivity.
      * replace (N.of_nat (S k)) with (1 + N.of_nat k) by lia. rewrite N.pow_add_r, N.pow_1_r. lia.
      * intros [|j] Hj; [cbn in Hj; lia|]. apply le_n_S. apply Hmin.
        replace (N.of_nat (S j)) with (1 + N.of_nat j) in Hj by lia. rewrite N.pow_add_r, N.pow_1_r in Hj.
        apply N.div_lt_upper_bound; lia.
Qed.

Lemma u32_to_b64_ok n l : n < 64 ^ l -> n < 64 ^ 11 -> u32_to_b64 n l = Ok (map chr64 (digits 64 (N.to_nat l) n)).
Proof.
  intros Hn Hb. unfold u32_to_b64. destruct (N.eqb_spec l 0) as [->|Hl]; [reflexivity|].
  assert (E : skip_digits 11 n l 0 = 0).
  { cbn [skip_digits]. rewrite N.add_0_r. replace (n <=? 64 ^ l) with true by lia. reflexivity. }
  rewrite E. destruct (u2b_loop_spec 11 n []) as [k [Hk [Ek [Hlt Hmin]]]]; [exact Hb|].
  rewrite Ek. cbn [obind]. rewrite app_nil_r. f_equal.
  assert (Hkl : (k <= N.to_nat l)%nat) by (apply Hmin; rewrite N2Nat.id; auto).
  replace (N.to_nat l) with ((N.to_nat l - k) + k)%nat at 1 by lia.
  rewrite digits_split by lia. rewrite map_app. f_equal.
  rewrite (N.div_small n) by auto. rewrite digits_0 by lia. rewrite len_map, len_digits.
  unfold rep. replace (N.to_nat (l - N.of_nat k)) with (N.to_nat l - k)%nat by lia.
  clear. induction (N.to_nat l - k)%nat; cbn; auto. f_equal; auto.
Qed.

Lemma u32_to_b64_val n l : n < 64 ^ l -> n < 64 ^ 11 ->
  exists t, u32_to_b64 n l = Ok t /\ all_b64 t = true /\ len t = l /\ val 64 (ords t) = n.
Proof.
  intros Hn Hb. exists (map chr64 (digits 64 (N.to_nat l) n)). split; [apply u32_to_b64_ok; auto|].
  split; [apply all_b64_chr, digits_lt; lia|]. split; [rewrite len_map, len_digits; lia|].
  rewrite ords_chr by (apply digits_lt; lia). apply digits_small; [lia|]. rewrite N2Nat.id; auto.
Qed.

(** the soft part determined by its text *)
Lemma u32_to_b64_of_val t : all_b64 t = true -> len t <= 11 -> u32_to_b64 (val 64 (ords t)) (len t) = Ok t.
Proof.
  intros Ha Hl. pose proof (val64_lt t) as Hv. rewrite u32_to_b64_ok; auto.
  - f_equal. rewrite <- (chr_ords t Ha) at 3. f_equal. replace (N.to_nat (len t)) with (length (ords t)).
    + apply digits_val; [lia|apply ords_lt].
    + unfold ords. rewrite map_length. unfold len. lia.
  - eapply N.lt_le_trans; [exact Hv|]. apply N.pow_le_mono_r; lia.
Qed.

(** ** binary codes *)
Ltac ncomp t := let v := eval vm_compute in t in change t with v.
Ltac comp_code l k :=
  ncomp ((l + 1) * 3 / 4); 
  match goal with |- context [2 ^ ?e] => ncomp (2 ^ e) end;
  match goal with |- context [rep 0 ?e] => ncomp e end;
  cbn [sextets]; cbv [take rep from_be val N.to_nat Pos.to_nat Pos.iter_op Nat.add firstn repeat app fold_left];
  lia.

Lemma sextets_head1 a r : take 1 (sextets (a :: r)) = [a / 4].
Proof. destruct r as [|b [|c r]]; reflexivity. Qed.
Lemma sextets_head2 a b r : take 2 (sextets (a :: b :: r)) = [a / 4; (a mod 4) * 16 + b / 16].
Proof. destruct r as [|c r]; reflexivity. Qed.
Lemma sextets_3 a b c r : sextets (a :: b :: c :: r) = a / 4 :: (a mod 4) * 16 + b / 16 :: (b mod 16) * 4 + c / 64 :: c mod 64 :: sextets r.
Proof. reflexivity. Qed.
Lemma take_cons {A} n (x : A) l : take (1 + n) (x :: l) = x :: take n l.
Proof. unfold take. replace (N.to_nat (1 + n)) with (S (N.to_nat n)) by lia. reflexivity. Qed.
Lemma drop_cons {A} n (x : A) l : drop (1 + n) (x :: l) = drop n l.
Proof. unfold drop. replace (N.to_nat (1 + n)) with (S (N.to_nat n)) by lia. reflexivity. Qed.

Lemma sextets_head5 a b c d r : take 5 (sextets (a :: b :: c :: d :: r)) =
  [a / 4; (a mod 4) * 16 + b / 16; (b mod 16) * 4 + c / 64; c mod 64; d / 4].
Proof. rewrite sextets_3. destruct r as [|e [|f r]]; reflexivity. Qed.
Lemma sextets_head6 a b c d e r : take 6 (sextets (a :: b :: c :: d :: e :: r)) =
  [a / 4; (a mod 4) * 16 + b / 16; (b mod 16) * 4 + c / 64; c mod 64; d / 4; (d mod 4) * 16 + e / 16].
Proof. rewrite sextets_3. destruct r as [|f r]; reflexivity. Qed.

Lemma drop1 {A} (x : A) l : drop 1 (x :: l) = l. Proof. reflexivity. Qed.
Lemma drop2 {A} (x y : A) l : drop 2 (x :: y :: l) = l. Proof. reflexivity. Qed.

(** the result of u32_to_b64 on a value given as base-64 digits *)
Lemma u32_to_b64_digits s v l : Forall (fun d => d < 64) s -> len s = l -> l <= 11 -> v = val 64 s ->
  u32_to_b64 v l = Ok (map chr64 s).
Proof.
  intros Hs Hl Hle ->. rewrite <- Hl. rewrite <- (ords_chr s Hs) at 1. rewrite <- (len_map chr64 s).
  apply u32_to_b64_of_val; [apply all_b64_chr; auto|rewrite len_map; lia].
Qed.

Lemma code_b2_to_b64_ok b2 l : bytes_ok b2 = true -> l <= 8 -> ((l + 1) * 3) / 4 <= len b2 ->
  code_b2_to_b64 b2 l = Ok (map chr64 (take l (sextets b2))).
Proof.
  intros Hok Hl Hn. unfold code_b2_to_b64. destruct (N.eqb_spec l 0) as [->|Hl0]; [reflexivity|].
  replace (len b2 <? (l + 1) * 3 / 4) with false by lia.
  assert (Hs : Forall (fun d => d < 64) (take l (sextets b2))).
  { pose proof (sextets_lt _ Hok) as F. rewrite <- (take_drop_id l (sextets b2)) in F. apply Forall_app in F. tauto. }
  assert (Hls : len (take l (sextets b2)) = l) by (rewrite len_take, len_sextets; lia).
  assert (Cases : l = 1 \/ l = 2 \/ l = 3 \/ l = 4 \/ l = 5 \/ l = 6 \/ l = 7 \/ l = 8) by lia.
  destruct b2 as [|a [|b b2]]; [rewrite len_nil in Hn; lia| |].
  - rewrite len_cons, len_nil in Hn. assert (l = 1) as -> by lia. unfold u64_to_b64.
    change (1 <=? 4) with true. cbv iota. apply u32_to_b64_digits; [exact Hs|exact Hls|lia|]. comp_code 1 0.
  - repeat (apply bytes_ok_cons in Hok as [? Hok]).
    destruct Cases as [->|[->|Cases]].
    + change (1 <=? 4) with true. cbv iota. apply u32_to_b64_digits; [exact Hs|exact Hls|lia|].
      rewrite sextets_head1. comp_code 1 0.
    + change (2 <=? 4) with true. cbv iota. apply u32_to_b64_digits; [exact Hs|exact Hls|lia|].
      rewrite sextets_head2. comp_code 2 0.
    + destruct b2 as [|c b2]; [rewrite !len_cons, len_nil in Hn; lia|].
      apply bytes_ok_cons in Hok as [? Hok].
      destruct Cases as [->|[->|Cases]].
      * change (3 <=? 4) with true. cbv iota. apply u32_to_b64_digits; [exact Hs|exact Hls|lia|].
        rewrite sextets_3. comp_code 3 0.
      * change (4 <=? 4) with true. cbv iota. apply u32_to_b64_digits; [exact Hs|exact Hls|lia|].
        rewrite sextets_3. comp_code 4 0.
      * destruct b2 as [|d b2]; [rewrite !len_cons, len_nil in Hn; lia|].
        apply bytes_ok_cons in Hok as [? Hok]. unfold u64_to_b64.
        destruct Cases as [->|Cases].
        { change (5 <=? 4) with false. change (5 <=? 8) with true. cbv iota. apply u32_to_b64_digits; [exact Hs|exact Hls|lia|].
          rewrite sextets_head5. comp_code 5 0. }
        destruct b2 as [|e b2]; [rewrite !len_cons, len_nil in Hn; lia|].
        apply bytes_ok_cons in Hok as [? Hok].
        destruct Cases as [->|Cases].
        { change (6 <=? 4) with false. change (6 <=? 8) with true. cbv iota. apply u32_to_b64_digits; [exact Hs|exact Hls|lia|].
          rewrite sextets_head6. comp_code 6 0. }
        destruct b2 as [|f b2]; [rewrite !len_cons, len_nil in Hn; lia|].
        apply bytes_ok_cons in Hok as [? Hok].
        destruct Cases as [-> | ->].
        { change (7 <=? 4) with false. change (7 <=? 8) with true. cbv iota. apply u32_to_b64_digits; [exact Hs|exact Hls|lia|].
          rewrite !sextets_3. comp_code 7 0. }
        { change (8 <=? 4) with false. change (8 <=? 8) with true. cbv iota. apply u32_to_b64_digits; [exact Hs|exact Hls|lia|].
          rewrite !sextets_3. comp_code 8 0. }
Qed.

Lemma nab_sextets_ok b2 l : bytes_ok b2 = true -> l <= 8 -> ((l + 1) * 3) / 4 <= len b2 ->
  nab_sextets b2 l = Ok (take l (sextets b2)).
Proof.
  intros Hok Hl Hn. unfold nab_sextets. replace (len b2 <? (l + 1) * 3 / 4) with false by lia.
  rewrite slice_prefix by (rewrite len_sextets, len_app, len_rep; lia). f_equal.
  revert l Hl Hn. induction b2 as [| a | a b | a b c r IH] using list_ind3; intros l Hl Hn.
  - rewrite len_nil in Hn. assert (l = 0) as -> by lia. reflexivity.
  - rewrite len_cons, len_nil in Hn. assert (l = 0 \/ l = 1) as [-> | ->] by lia; reflexivity.
  - rewrite !len_cons, len_nil in Hn. assert (l = 0 \/ l = 1 \/ l = 2) as [-> | [-> | ->]] by lia; reflexivity.
  - rewrite <- app_comm_cons, <- app_comm_cons, <- app_comm_cons, !sextets_3.
    repeat (apply bytes_ok_cons in Hok as [_ Hok]).
    replace (len (a :: b :: c :: r) mod 3) with (len r mod 3) by (rewrite !len_cons; lia).
    assert (Hc : l <= 4 \/ 4 < l) by lia. destruct Hc as [Hc|Hc].
    + assert (l = 0 \/ l = 1 \/ l = 2 \/ l = 3 \/ l = 4) as [-> | [-> | [-> | [-> | ->]]]] by lia; reflexivity.
    + replace l with (1 + (1 + (1 + (1 + (l - 4))))) by lia. rewrite !take_cons.
      do 4 f_equal. apply IH; auto; [lia|]. rewrite !len_cons in Hn. lia.
Qed.
Lemma nab_sextets_short b2 l : len b2 < ((l + 1) * 3) / 4 -> nab_sextets b2 l = Err E_TooSmall.
Proof. intros H. unfold nab_sextets. replace (len b2 <? (l + 1) * 3 / 4) with true by lia. reflexivity. Qed.

(** bytes of a whole code text *)
Definition bcode (both : bytes) : bytes :=
  to_be (N.to_nat (((len both + 1) * 3) / 4)) (val 64 (ords both) * 4 ^ (len both mod 4)).

Lemma len_bcode both : len (bcode both) = ((len both + 1) * 3) / 4.
Proof. unfold bcode. rewrite len_to_be. lia. Qed.
Lemma bytes_ok_bcode both : bytes_ok (bcode both) = true.
Proof. apply bytes_ok_to_be. Qed.

Lemma code_full_ok both cs : all_b64 both = true -> len both = cs -> 1 <= cs -> cs <= 8 ->
  exists full, code_full both cs (((cs + 1) * 3) / 4) = Ok full /\
    ((cs + 1) * 3) / 4 <= len full /\ drop (len full - ((cs + 1) * 3) / 4) full = bcode both.
Proof.
  intros Ha Hl H1 H8. unfold code_full.
  assert (G : forall K V, (N.to_nat ((cs + 1) * 3 / 4) <= K)%nat ->
     drop (len (to_be K V) - (cs + 1) * 3 / 4) (to_be K V) = to_be (N.to_nat ((cs + 1) * 3 / 4)) V).
  { intros K V HK. rewrite len_to_be, !to_be_digits.
    replace K with ((K - N.to_nat ((cs + 1) * 3 / 4)) + N.to_nat ((cs + 1) * 3 / 4))%nat at 2 by lia.
    rewrite digits_split by lia. apply drop_app_exact. rewrite len_digits. lia. }
  pose proof (val64_lt both) as Hv. rewrite Hl in Hv.
  assert (Hp : 2 ^ (2 * (cs mod 4)) = 4 ^ (cs mod 4)) by (rewrite N.pow_mul_r; reflexivity).
  destruct (N.leb_spec ((cs + 1) * 3 / 4) 3) as [Hs|Hs].
  - rewrite b64_to_u32_all by (auto; lia). cbn [obind]. eexists. split; [reflexivity|].
    rewrite Hp, N.mod_small.
    2:{ assert (cs = 1 \/ cs = 2 \/ cs = 3 \/ cs = 4) as [E|[E|[E|E]]] by lia; rewrite E in *; unfold U32; npow; lia. }
    split; [rewrite len_to_be; lia|]. rewrite G by lia. unfold bcode. rewrite Hl. reflexivity.
  - replace ((cs + 1) * 3 / 4 <=? 6) with true by lia.
    rewrite b64_to_u64_all by (auto; lia). cbn [obind]. eexists. split; [reflexivity|].
    rewrite Hp, N.mod_small.
    2:{ assert (cs = 5 \/ cs = 6 \/ cs = 7 \/ cs = 8) as [E|[E|[E|E]]] by lia; rewrite E in *; unfold U64; npow; lia. }
    split; [rewrite len_to_be; lia|]. rewrite G by lia. unfold bcode. rewrite Hl. reflexivity.
Qed.

Lemma code_b64_to_b2_ok both : all_b64 both = true -> 1 <= len both -> len both <= 8 ->
  code_b64_to_b2 both = Ok (bcode both).
Proof.
  intros Ha H1 H8. unfold code_b64_to_b2. rewrite b64_to_u64_all by (auto; lia). cbn [obind].
  pose proof (val64_lt both) as Hv.
  assert (Hp : 2 ^ (2 * (len both mod 4)) = 4 ^ (len both mod 4)) by (rewrite N.pow_mul_r; reflexivity).
  replace (8 <? (len both + 1) * 3 / 4) with false by lia. f_equal. rewrite Hp, N.mod_small.
  2:{ assert (4 ^ (len both mod 4) <= 4 ^ 3) by (apply N.pow_le_mono_r; lia).
      assert (64 ^ len both <= 64 ^ 8) by (apply N.pow_le_mono_r; lia). unfold U64. npow. nia. }
  unfold bcode. rewrite !to_be_digits.
  replace 8%nat with ((8 - N.to_nat ((len both + 1) * 3 / 4)) + N.to_nat ((len both + 1) * 3 / 4))%nat at 1 by lia.
  rewrite digits_split by lia. apply drop_app_exact. rewrite len_digits. lia.
Qed.

(** the sextets of a binary code followed by anything completing a group *)
Lemma bcode_sextets both rest : all_b64 both = true -> len both mod 4 <> 3 ->
  len rest mod 3 = (3 - (len both mod 4)) mod 3 -> (len both mod 4 <> 0 -> 0 < len rest) ->
  bytes_ok rest = true ->
  b64_encode (bcode both ++ rest) =
    both ++ drop (len both mod 4) (b64_encode (rep 0 (len both mod 4) ++ rest)).
Proof.
  intros Ha H3 Hr Hr0 Hok.
  (* whole quadlets first *)
  assert (Hsplit : exists b0 b1, both = b0 ++ b1 /\ len b0 = 4 * (len both / 4) /\ len b1 = len both mod 4).
  { exists (take (4 * (len both / 4)) both), (drop (4 * (len both / 4)) both). rewrite take_drop_id, len_take, len_drop.
    repeat split; lia. }
  destruct Hsplit as [b0 [b1 [E [L0 L1]]]].
  assert (Ha0 : all_b64 b0 = true /\ all_b64 b1 = true). { rewrite E, all_b64_app in Ha. apply andb_true_iff in Ha. auto. }
  destruct Ha0 as [Ha0 Ha1].
  assert (Hb : bcode both = to_be (N.to_nat (3 * (len both / 4))) (val 64 (ords b0)) ++ bcode b1).
  { unfold bcode. rewrite L1. rewrite !to_be_digits.
    replace (N.to_nat ((len both + 1) * 3 / 4)) with (N.to_nat (3 * (len both / 4)) + N.to_nat ((len both mod 4 + 1) * 3 / 4))%nat by lia.
    rewrite digits_split by lia.
    assert (Hv : val 64 (ords both) * 4 ^ (len both mod 4) =
      val 64 (ords b0) * 256 ^ ((len both mod 4 + 1) * 3 / 4) + val 64 (ords b1) * 4 ^ (len both mod 4)).
    { rewrite E at 1. rewrite ords_app, val_app, len_ords, L1.
      assert (len both mod 4 = 0 \/ len both mod 4 = 1 \/ len both mod 4 = 2) as [M|[M|M]] by lia; rewrite M; change ((0 + 1) * 3 / 4) with 0; change ((1 + 1) * 3 / 4) with 1; change ((2 + 1) * 3 / 4) with 2; npow; lia. }
    assert (Hlt : val 64 (ords b1) * 4 ^ (len both mod 4) < 256 ^ ((len both mod 4 + 1) * 3 / 4)).
    { pose proof (val64_lt b1) as Hv1. rewrite L1 in Hv1.
      assert (len both mod 4 = 0 \/ len both mod 4 = 1 \/ len both mod 4 = 2) as [M|[M|M]] by lia; rewrite M in *; change ((0 + 1) * 3 / 4) with 0; change ((1 + 1) * 3 / 4) with 1; change ((2 + 1) * 3 / 4) with 2; npow; lia. }
    rewrite Hv, N2Nat.id. f_equal.
    - f_equal. rewrite N.div_add_l by (apply N.pow_nonzero; lia). rewrite (N.div_small (_ * _)) by auto. lia.
    - replace (len both mod 4 mod 4) with (len both mod 4) by lia.
      apply (val_inj 256); try lia; try (apply digits_lt; lia). { rewrite !len_digits; lia. }
      rewrite !val_digits by lia. rewrite N2Nat.id. rewrite N.add_comm, N.mod_add by (apply N.pow_nonzero; lia). reflexivity. }
  rewrite Hb, <- app_assoc. rewrite b64_encode_app by (rewrite len_to_be; lia).
  assert (E0 : b64_encode (to_be (N.to_nat (3 * (len both / 4))) (val 64 (ords b0))) = b0).
  { rewrite b64_encode_full by (rewrite len_to_be; lia). rewrite <- (chr_ords b0 Ha0) at 2. f_equal.
    apply (val_inj 64); try lia.
    - apply sextets_lt, bytes_ok_to_be.
    - apply ords_lt.
    - rewrite len_sextets, len_to_be, len_ords. lia.
    - rewrite val_sextets by (rewrite len_to_be; lia). rewrite to_be_digits, digits_small; auto; [lia|].
      pose proof (val64_lt b0) as Hv. rewrite L0 in Hv. rewrite N.pow_mul_r in Hv. rewrite N2Nat.id, N.pow_mul_r. exact Hv. }
  rewrite E0. transitivity (b0 ++ b1 ++ drop (len both mod 4) (b64_encode (rep 0 (len both mod 4) ++ rest))); [|rewrite app_assoc, <- E; reflexivity]. f_equal.
  assert (len both mod 4 = 0 \/ len both mod 4 = 1 \/ len both mod 4 = 2) as [M|[M|M]] by lia; rewrite M in *.
  - apply len_zero in L1. subst b1. reflexivity.
  - destruct b1 as [|c [|? ?]]; [discriminate| |rewrite !len_cons in L1; lia].
    destruct rest as [|x [|y rest]]; [exfalso; cbn in *; lia|rewrite len_cons, len_nil in Hr; cbn in Hr; lia|].
    cbn in Ha1. rewrite andb_true_r in Ha1. unfold is_b64 in Ha1. destruct (ord64 c) as [i|] eqn:Ei; [|discriminate].
    pose proof (ord64_lt _ _ Ei). repeat (apply bytes_ok_cons in Hok as [? Hok]).
    assert (Eb : bcode [c] = [i * 4]).
    { unfold bcode, ords. change (len [c]) with 1. cbn [map]. rewrite Ei. rewrite val_single.
      change (1 mod 4) with 1. change ((1 + 1) * 3 / 4) with 1. change (N.to_nat 1) with 1%nat. cbn [to_be app]. f_equal. npow. lia. }
    rewrite Eb. cbn [app]. change (rep 0 1) with [0]. cbn [app]. rewrite !b64_encode_3.
    rewrite drop1. rewrite <- (chr64_ord64 _ _ Ei) at 1.
    f_equal; [f_equal; lia|]. f_equal. f_equal. lia.
  - destruct b1 as [|c [|d [|? ?]]]; [discriminate|discriminate| |rewrite !len_cons in L1; lia].
    destruct rest as [|x rest]; [exfalso; cbn in *; lia|].
    cbn in Ha1. rewrite andb_true_r in Ha1. apply andb_true_iff in Ha1 as [Hc Hd]. unfold is_b64 in Hc, Hd.
    destruct (ord64 c) as [i|] eqn:Ei; [|discriminate]. destruct (ord64 d) as [j|] eqn:Ej; [|discriminate].
    pose proof (ord64_lt _ _ Ei). pose proof (ord64_lt _ _ Ej). repeat (apply bytes_ok_cons in Hok as [? Hok]).
    assert (Eb : bcode [c; d] = [i * 4 + j / 16; (j mod 16) * 16]).
    { unfold bcode, ords. change (len [c; d]) with 2. cbn [map]. rewrite Ei, Ej. rewrite val_cons, val_single. change (len [j]) with 1.
      change (2 mod 4) with 2. change ((2 + 1) * 3 / 4) with 2. change (N.to_nat 2) with 2%nat. cbn [to_be app]. npow.
      apply f_equal2; [lia|]. f_equal. lia. }
    rewrite Eb. cbn [app]. change (rep 0 2) with [0; 0]. cbn [app]. rewrite !b64_encode_3.
    rewrite drop2.
    rewrite <- (chr64_ord64 _ _ Ei) at 1. rewrite <- (chr64_ord64 _ _ Ej) at 1.
    f_equal; [f_equal; lia|]. f_equal; [f_equal; lia|]. f_equal. f_equal. lia.
Qed.
