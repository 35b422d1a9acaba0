(** Facts about the Base64 engine. *)
From Verif Require Import Base BaseFacts Utf8 B64.

Arguments ord64 : simpl never.
Arguments chr64 : simpl never.
Arguments is_b64 : simpl never.
Arguments alphabet : simpl never.
Arguments s2b : simpl never.

Lemma ord64_lt c i : ord64 c = Some i -> i < 64.
Proof.
  unfold ord64. assert (G : forall l k j, position c l k = Some j -> j < k + len l).
  { induction l as [|x l IH]; cbn; intros k j; [discriminate|].
    destruct (c =? x); [intros [= ->]; rewrite len_cons; lia|]. intros Hj; apply IH in Hj. rewrite len_cons. lia. }
  intros Hi. apply G in Hi. exact Hi.
Qed.

Lemma chr64_ord64 c i : ord64 c = Some i -> chr64 i = c.
Proof.
  unfold ord64, chr64.
  assert (G : forall l k j, position c l k = Some j -> k <= j /\ nth (N.to_nat (j - k)) l 0 = c).
  { induction l as [|x l IH]; cbn [position]; intros k j; [discriminate|].
    destruct (N.eqb_spec c x) as [->|Hx].
    - intros [= ->]. split; [lia|]. rewrite N.sub_diag. reflexivity.
    - intros Hj. apply IH in Hj as [H1 H2]. split; [lia|].
      replace (N.to_nat (j - k)) with (S (N.to_nat (j - (k + 1)))) by lia. exact H2. }
  intros Hi. apply G in Hi as [_ Hi]. rewrite N.sub_0_r in Hi. exact Hi.
Qed.

(** finite sweeps *)
Lemma lt64_sweep (f : N -> bool) :
  forallb f (map N.of_nat (seq 0 64)) = true -> forall i, i < 64 -> f i = true.
Proof.
  intros H i Hi. eapply forallb_forall in H; [exact H|]. apply in_map_iff. exists (N.to_nat i).
  split; [lia|]. apply in_seq. lia.
Qed.
Lemma lt256_sweep (f : N -> bool) :
  forallb f (map N.of_nat (seq 0 256)) = true -> forall i, i < 256 -> f i = true.
Proof.
  intros H i Hi. eapply forallb_forall in H; [exact H|]. apply in_map_iff. exists (N.to_nat i).
  split; [lia|]. apply in_seq. lia.
Qed.

Lemma ord64_chr64 i : i < 64 -> ord64 (chr64 i) = Some i.
Proof.
  intros Hi.
  assert (G : match ord64 (chr64 i) with Some j => j =? i | None => false end = true).
  { apply (lt64_sweep (fun i => match ord64 (chr64 i) with Some j => j =? i | None => false end)); [vm_compute; reflexivity|exact Hi]. }
  destruct (ord64 (chr64 i)); [f_equal; lia|discriminate].
Qed.

Lemma chr64_ascii i : i < 64 -> chr64 i < 128.
Proof. intros Hi. apply (lt64_sweep (fun i => chr64 i <? 128)) in Hi; [lia|]. vm_compute. reflexivity. Qed.
Lemma ord64_ascii c i : ord64 c = Some i -> c < 128.
Proof. intros H. rewrite <- (chr64_ord64 _ _ H). apply chr64_ascii. eapply ord64_lt; eauto. Qed.
Lemma is_b64_ascii c : is_b64 c = true -> c < 128.
Proof. unfold is_b64. destruct (ord64 c) eqn:E; [|discriminate]. intros _. eapply ord64_ascii; eauto. Qed.
Lemma is_b64_chr64 i : i < 64 -> is_b64 (chr64 i) = true.
Proof. intros. unfold is_b64. rewrite ord64_chr64; auto. Qed.
Lemma chr64_inj i j : i < 64 -> j < 64 -> chr64 i = chr64 j -> i = j.
Proof. intros Hi Hj E. apply (f_equal ord64) in E. rewrite !ord64_chr64 in E; congruence. Qed.
Lemma ord64_pad : ord64 pad_char = None.
Proof. reflexivity. Qed.

Definition all_b64 (t : bytes) : bool := forallb is_b64 t.

Lemma all_b64_ascii t : all_b64 t = true -> ascii_ok t = true.
Proof. unfold all_b64, ascii_ok. intros H. apply forallb_forall. intros x Hx.
  eapply forallb_forall in H; eauto. apply is_b64_ascii in H. lia. Qed.

(** ** sextets *)
Lemma len_sextets bs : len (sextets bs) = (len bs * 4 + 2) / 3.
Proof.
  induction bs as [| a | a b | a b c r IH] using list_ind3; cbn [sextets]; rewrite ?len_cons, ?len_nil; try lia.
Qed.

Lemma sextets_lt bs : bytes_ok bs = true -> Forall (fun s => s < 64) (sextets bs).
Proof.
  induction bs as [| a | a b | a b c r IH] using list_ind3; cbn [sextets]; intros Hok;
    repeat (apply bytes_ok_cons in Hok as [? Hok]); repeat constructor; try lia.
  apply IH; auto.
Qed.

Lemma sextets_app a b : len a mod 3 = 0 -> sextets (a ++ b) = sextets a ++ sextets b.
Proof.
  induction a as [| x | x y | x y z r IH] using list_ind3; intros Hm; try (rewrite ?len_cons, ?len_nil in Hm; lia).
  - reflexivity.
  - cbn [app sextets]. rewrite IH; auto. rewrite !len_cons in Hm. lia.
Qed.

Lemma b64_encode_app a b : len a mod 3 = 0 -> b64_encode (a ++ b) = b64_encode a ++ b64_encode b.
Proof.
  intros Hm. unfold b64_encode. rewrite sextets_app, map_app, len_app by auto.
  replace ((3 - len a mod 3) mod 3) with 0 by lia. change (rep pad_char 0) with (@nil N). rewrite app_nil_r, app_assoc.
  f_equal. f_equal. lia.
Qed.

Lemma b64_encode_3 a b c r :
  b64_encode (a :: b :: c :: r) =
  chr64 (a / 4) :: chr64 ((a mod 4) * 16 + b / 16) :: chr64 ((b mod 16) * 4 + c / 64) :: chr64 (c mod 64) :: b64_encode r.
Proof.
  change (a :: b :: c :: r) with ([a; b; c] ++ r). rewrite b64_encode_app by reflexivity. reflexivity.
Qed.

Lemma b64_encode_full bs : len bs mod 3 = 0 -> b64_encode bs = map chr64 (sextets bs).
Proof. intros H. unfold b64_encode. rewrite H. cbn. apply app_nil_r. Qed.

Lemma len_b64_encode bs : len (b64_encode bs) = (len bs + 2) / 3 * 4.
Proof. unfold b64_encode. rewrite len_app, len_map, len_sextets, len_rep. lia. Qed.

Lemma b64_encode_all bs : bytes_ok bs = true -> len bs mod 3 = 0 -> all_b64 (b64_encode bs) = true.
Proof.
  intros Hok Hm. rewrite b64_encode_full by auto. unfold all_b64. apply forallb_forall. intros x Hx.
  apply in_map_iff in Hx as [s [<- Hs]]. apply is_b64_chr64. apply sextets_lt in Hok. eapply Forall_forall in Hok; eauto.
Qed.

Lemma b64_encode_ascii bs : bytes_ok bs = true -> ascii_ok (b64_encode bs) = true.
Proof.
  intros Hok. unfold b64_encode. rewrite ascii_ok_app. apply andb_true_iff. split.
  - unfold ascii_ok. apply forallb_forall. intros x Hx. apply in_map_iff in Hx as [s [<- Hs]].
    apply sextets_lt in Hok. eapply Forall_forall in Hok; eauto. apply chr64_ascii in Hok. lia.
  - apply forallb_rep. reflexivity.
Qed.

Lemma b64_decode_encode bs : bytes_ok bs = true -> b64_decode (b64_encode bs) = Ok bs.
Proof.
  induction bs as [| a | a b | a b c r IH] using list_ind3; intros Hok;
    repeat (apply bytes_ok_cons in Hok as [? Hok]).
  - reflexivity.
  - change (b64_encode [a]) with [chr64 (a / 4); chr64 ((a mod 4) * 16); pad_char; pad_char].
    cbn [b64_decode]. rewrite !ord64_chr64 by lia. rewrite ord64_pad.
    replace (_ && _) with true. 2:{ symmetry. rewrite !andb_true_iff. repeat split; try reflexivity. lia. }
    f_equal. f_equal. lia.
  - change (b64_encode [a; b]) with [chr64 (a / 4); chr64 ((a mod 4) * 16 + b / 16); chr64 ((b mod 16) * 4); pad_char].
    cbn [b64_decode]. rewrite !ord64_chr64 by lia. rewrite ord64_pad.
    replace (_ && _) with true. 2:{ symmetry. rewrite !andb_true_iff. repeat split; try reflexivity. lia. }
    f_equal. f_equal; [lia|f_equal; lia].
  - rewrite b64_encode_3. cbn [b64_decode]. rewrite !ord64_chr64 by lia. rewrite IH by auto. cbn [obind].
    f_equal. f_equal; [lia|f_equal; [lia|f_equal; lia]].
Qed.

Lemma b64_decode_inv t : forall bs, b64_decode t = Ok bs -> bytes_ok bs = true /\ b64_encode bs = t.
Proof.
  induction t as [| a | a b | a b c | c1 c2 c3 c4 r IH] using list_ind4; intros bs Hd; try discriminate.
  - cbn in Hd. injection Hd as <-. split; reflexivity.
  - cbn [b64_decode] in Hd.
    destruct (ord64 c1) as [s1|] eqn:E1; [|discriminate].
    destruct (ord64 c2) as [s2|] eqn:E2; [|discriminate].
    pose proof (ord64_lt _ _ E1). pose proof (ord64_lt _ _ E2).
    destruct (ord64 c3) as [s3|] eqn:E3; destruct (ord64 c4) as [s4|] eqn:E4; try discriminate.
    + pose proof (ord64_lt _ _ E3). pose proof (ord64_lt _ _ E4).
      inv_bind Hd rest Er. injection Hd as <-. apply IH in Er as [Hok He].
      split. { repeat (apply bytes_ok_cons; split; [lia|]). auto. }
      rewrite b64_encode_3, He.
      rewrite <- (chr64_ord64 _ _ E1), <- (chr64_ord64 _ _ E2), <- (chr64_ord64 _ _ E3), <- (chr64_ord64 _ _ E4).
      do 4 (apply f_equal2; [f_equal; lia|]); reflexivity.
    + pose proof (ord64_lt _ _ E3).
      destruct (_ && _) eqn:Ec in Hd; [|discriminate]. apply andb_true_iff in Ec as [Ec Er]. apply andb_true_iff in Ec as [Ec1 Ec2].
      injection Hd as <-. apply N.eqb_eq in Er. apply len_zero in Er. subst r.
      split. { repeat (apply bytes_ok_cons; split; [lia|]). auto. }
      match goal with |- b64_encode [?x; ?y] = _ => change (b64_encode [x; y]) with [chr64 (x / 4); chr64 ((x mod 4) * 16 + y / 16); chr64 ((y mod 16) * 4); pad_char] end.
      apply N.eqb_eq in Ec1. subst c4.
      rewrite <- (chr64_ord64 _ _ E1), <- (chr64_ord64 _ _ E2), <- (chr64_ord64 _ _ E3).
      do 3 (apply f_equal2; [f_equal; lia|]); reflexivity.
    + destruct (_ && _) eqn:Ec in Hd; [|discriminate].
      apply andb_true_iff in Ec as [Ec Er]. apply andb_true_iff in Ec as [Ec Ec2]. apply andb_true_iff in Ec as [Ec3 Ec4].
      injection Hd as <-. apply N.eqb_eq in Er. apply len_zero in Er. subst r.
      split. { repeat (apply bytes_ok_cons; split; [lia|]). auto. }
      match goal with |- b64_encode [?x] = _ => change (b64_encode [x]) with [chr64 (x / 4); chr64 ((x mod 4) * 16); pad_char; pad_char] end.
      apply N.eqb_eq in Ec3, Ec4. subst c4 c3.
      rewrite <- (chr64_ord64 _ _ E1), <- (chr64_ord64 _ _ E2).
      do 2 (apply f_equal2; [f_equal; lia|]); reflexivity.
Qed.

Lemma b64_decode_not_panic t : b64_decode t <> Panic.
Proof.
  induction t as [| a | a b | a b c | c1 c2 c3 c4 r IH] using list_ind4; cbn [b64_decode]; try discriminate.
  destruct (ord64 c1); [|discriminate]. destruct (ord64 c2); [|discriminate].
  destruct (ord64 c3); destruct (ord64 c4); try discriminate; try (destruct (_ && _); discriminate).
  destruct (b64_decode r); cbn; congruence.
Qed.

(** a pure alphabet text of length a multiple of 4 decodes, to 3/4 of its length *)
Lemma b64_decode_all t : all_b64 t = true -> len t mod 4 = 0 ->
  exists bs, b64_decode t = Ok bs /\ len bs * 4 = len t * 3.
Proof.
  induction t as [| a | a b | a b c | c1 c2 c3 c4 r IH] using list_ind4; intros Ha Hm;
    try (rewrite ?len_cons, ?len_nil in Hm; lia).
  - exists []; split; reflexivity.
  - cbn in Ha. unfold is_b64 in Ha.
    repeat match goal with H : _ && _ = true |- _ => apply andb_true_iff in H as [? H] end.
    cbn [b64_decode].
    destruct (ord64 c1); [|discriminate]. destruct (ord64 c2); [|discriminate].
    destruct (ord64 c3); [|discriminate]. destruct (ord64 c4); [|discriminate].
    destruct IH as [bs [-> Hl]]; auto. { rewrite !len_cons in Hm. lia. }
    cbn [obind]. eexists; split; [reflexivity|]. rewrite !len_cons. lia.
Qed.

Lemma b64_decode_all_inv t bs : all_b64 t = true -> b64_decode t = Ok bs -> len bs mod 3 = 0 /\ len t * 3 = len bs * 4.
Proof.
  intros Ha Hd. assert (Hm : len t mod 4 = 0).
  { apply b64_decode_inv in Hd as [_ <-]. rewrite len_b64_encode. lia. }
  destruct (b64_decode_all t Ha Hm) as [bs' [E Hl]]. rewrite Hd in E. injection E as <-. lia.
Qed.

Lemma b64_encode_inj a b : bytes_ok a = true -> bytes_ok b = true -> b64_encode a = b64_encode b -> a = b.
Proof. intros Ha Hb E. apply (f_equal b64_decode) in E. rewrite !b64_decode_encode in E by auto. congruence. Qed.

(** ** ASCII is valid UTF-8 *)
Lemma utf8_ascii s : ascii_ok s = true -> utf8_valid s = true.
Proof.
  induction s as [|c s IH]; intros Ha; [reflexivity|]. cbn in Ha. apply andb_true_iff in Ha as [Hc Ha].
  cbn [utf8_valid]. rewrite Hc. auto.
Qed.
Lemma from_utf8_ascii s : ascii_ok s = true -> from_utf8 s = Ok s.
Proof. intros. unfold from_utf8. rewrite utf8_ascii; auto. Qed.

Lemma b64_encode_slice_exact bs : len bs mod 3 = 0 -> b64_encode_slice bs (len bs * 4 / 3) = Ok (b64_encode bs).
Proof.
  intros Hm. unfold b64_encode_slice. rewrite len_b64_encode.
  replace ((len bs + 2) / 3 * 4 <=? len bs * 4 / 3) with true by lia.
  replace (len bs * 4 / 3 - (len bs + 2) / 3 * 4) with 0 by lia. unfold rep. cbn. rewrite app_nil_r. reflexivity.
Qed.
Lemma b64_encode_slice_err bs : len bs mod 3 <> 0 -> b64_encode_slice bs (len bs * 4 / 3) = Err E_Base64.
Proof.
  intros Hm. unfold b64_encode_slice. rewrite len_b64_encode.
  replace ((len bs + 2) / 3 * 4 <=? len bs * 4 / 3) with false by lia. reflexivity.
Qed.
