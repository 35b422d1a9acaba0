(** Lemmas about Dater and Bexter. *)
From Verif Require Import Base Utf8 B64 Util MatterTables Matter StdStr Spec MatterDefs Crypto Prims PrimsDefs.
From Verif Require Import BaseFacts B64Facts UtilFacts MatterFacts MatterFacts2 MatterFacts3 SpecFacts MatterFacts4 StdStrFacts MatterThms CounterThms PrimsFacts.

(** ** Dater *)
Definition d2b (c : N) : N := if c =? 58 then 99 else if c =? 46 then 100 else if c =? 43 then 112 else c.
Definition b2d (c : N) : N := if c =? 99 then 58 else if c =? 100 then 46 else if c =? 112 then 43 else c.
Lemma iso_map s : iso_8601_to_b64 s = map d2b s.
Proof.
  unfold iso_8601_to_b64, replace_char. rewrite !map_map. apply map_ext. intros c. unfold d2b.
  destruct (N.eqb_spec c 58) as [->|]; [reflexivity|]. destruct (N.eqb_spec c 46) as [->|]; reflexivity.
Qed.
Lemma b64_iso_map s : b64_to_iso_8601 s = map b2d s.
Proof.
  unfold b64_to_iso_8601, replace_char. rewrite !map_map. apply map_ext. intros c. unfold b2d.
  destruct (N.eqb_spec c 99) as [->|]; [reflexivity|]. destruct (N.eqb_spec c 100) as [->|]; reflexivity.
Qed.
Lemma d2b_high c : 128 <= c -> d2b c = c.
Proof. intros H. unfold d2b. replace (c =? 58) with false by lia. replace (c =? 46) with false by lia. replace (c =? 43) with false by lia. reflexivity. Qed.
Lemma d2b_low c : d2b c < 128 <-> c < 128.
Proof. unfold d2b. destruct (N.eqb_spec c 58); [lia|]. destruct (N.eqb_spec c 46); [lia|]. destruct (N.eqb_spec c 43); lia. Qed.
Lemma d2b_b64 c : is_b64 (d2b c) = true <-> date_char c.
Proof.
  unfold date_char, d2b. destruct (N.eqb_spec c 58) as [->|H1]; [vm_compute; tauto|]. destruct (N.eqb_spec c 46) as [->|H2]; [vm_compute; tauto|].
  destruct (N.eqb_spec c 43) as [->|H3]; [vm_compute; tauto|]. rewrite is_b64_In. split; [auto|]. intros [H|H]; [auto|]. vm_compute in H. exfalso.
  destruct H as [H|[H|[H|[]]]]; lia.
Qed.
Lemma d2b_pad c : d2b c = 61 <-> c = 61.
Proof. unfold d2b. destruct (N.eqb_spec c 58); [lia|]. destruct (N.eqb_spec c 46); [lia|]. destruct (N.eqb_spec c 43); lia. Qed.
Lemma b2d_d2b c : b2d (d2b c) = b2d c.
Proof.
  unfold d2b. destruct (N.eqb_spec c 58) as [->|]; [reflexivity|]. destruct (N.eqb_spec c 46) as [->|]; [reflexivity|]. destruct (N.eqb_spec c 43) as [->|]; reflexivity.
Qed.
Lemma boundary_map t k : boundary (map d2b t) k = boundary t k.
Proof.
  unfold boundary. rewrite nth_error_map, len_map. destruct (nth_error t (N.to_nat k)) as [c|]; [|reflexivity]. cbn [option_map]. f_equal. f_equal.
  unfold is_cont. destruct (N.ltb_spec c 128) as [L|L].
  - apply d2b_low in L as L'. replace (128 <=? d2b c) with false by lia. replace (128 <=? c) with false by lia. reflexivity.
  - rewrite d2b_high by auto. reflexivity.
Qed.
Lemma utf8_first c r : utf8_valid (c :: r) = true -> is_cont c = false.
Proof.
  intros H. pose proof (boundary_after [0] (c :: r) H) as B. unfold boundary in B. cbn in B. apply negb_true_iff in B. exact B.
Qed.

Section Date.
Context `{P : Profile}.
Lemma dater_exfil t : utf8_valid t = true ->
  matter_exfil (s2b "1AAG" ++ map d2b t) =
  if len t <? 32 then Err E_Shortage else if boundary t 32 then r <- b64_decode (map d2b (take 32 t)) ;; Ok (Mat (s2b "1AAG") 0 r) else Panic.
Proof.
  intros Hu. set (u := map d2b t).
  rewrite (exfil_code (s2b "1AAG" ++ u) (s2b "1AAG") (Sz 4 0 36 0)) by (try reflexivity; exists u; reflexivity).
  assert (B4 : boundary (s2b "1AAG" ++ u) (hs (Sz 4 0 36 0)) = true).
  { unfold boundary. cbn. destruct t as [|c r]; [reflexivity|]. cbn. apply utf8_first in Hu. apply negb_true_iff.
    unfold is_cont in *. destruct (N.ltb_spec c 128) as [L|L]; [apply d2b_low in L; lia|rewrite d2b_high; auto]. }
  rewrite B4. unfold rest. change (variable (Sz 4 0 36 0)) with false. cbn [fs]. unfold body.
  rewrite len_app. change (len (s2b "1AAG")) with 4. unfold u at 1. rewrite len_map. replace (4 + len t <? 36) with (len t <? 32) by lia.
  destruct (N.ltb_spec (len t) 32) as [L|L]; [reflexivity|].
  replace (boundary (s2b "1AAG" ++ u) 36) with (boundary t 32).
  2: { rewrite <- (boundary_map t). fold u. unfold boundary. change (N.to_nat 36) with (4 + N.to_nat 32)%nat.
       change (s2b "1AAG" ++ u) with (49 :: 65 :: 65 :: 71 :: u). cbn [nth_error Nat.add]. destruct (nth_error u (N.to_nat 32)); [reflexivity|]. rewrite !len_cons. lia. }
  destruct (boundary t 32); [|reflexivity]. unfold payload. change (cs_of (Sz 4 0 36 0)) with 4. change (4 mod 4 =? 0) with true. cbn [negb ls].
  assert (E : drop 4 (take 36 (s2b "1AAG" ++ u)) = map d2b (take 32 t)).
  { rewrite drop_take. rewrite drop_app_exact by reflexivity. unfold u. rewrite take_map. reflexivity. }
  rewrite E. destruct (b64_decode (map d2b (take 32 t))) as [r| |]; [|reflexivity|reflexivity]. cbn [obind].
  rewrite slice_prefix by lia. cbn [obind]. change (read_int (take 0 r) =? 0) with true. cbn [negb]. rewrite slice_to_end by lia. rewrite drop_0. reflexivity.
Qed.
Lemma dater_of_eq now t : utf8_valid t = true -> dater_of now t =
  if len t <? 32 then Err E_Shortage else if boundary t 32 then r <- b64_decode (map d2b (take 32 t)) ;; Ok (Mat (s2b "1AAG") 0 r) else Panic.
Proof.
  intros Hu. unfold dater_of, dater_new. cbn [none andb unwrap_or]. unfold matter_new, matter_new_with_qb64. rewrite iso_map, dater_exfil by auto.
  destruct (len t <? 32); [reflexivity|]. destruct (boundary t 32); [|reflexivity]. destruct (b64_decode _); reflexivity.
Qed.
Lemma dater_dts_eq m q : m_code m = s2b "1AAG" -> matter_qb64 m = Ok (s2b "1AAG" ++ q) -> ascii_ok q = true -> dater_dts m = Ok (map b2d q).
Proof.
  intros E Q A. unfold dater_dts. rewrite E. change (get_sizage (s2b "1AAG")) with (@Ok sizage (Sz 4 0 36 0)). cbn [obind hs]. rewrite Q. cbn [obind].
  rewrite str_slice_ascii.
  - cbn [obind]. rewrite b64_iso_map. f_equal. f_equal. rewrite drop_app_exact by reflexivity. rewrite len_app. change (len (s2b "1AAG")) with 4.
    apply take_all. lia.
  - rewrite ascii_ok_app, A. reflexivity.
  - rewrite len_app. change (len (s2b "1AAG")) with 4. lia.
  - lia.
Qed.
End Date.

(** ** Bexter *)
Definition ws_of (t : bytes) : N := (4 - len t mod 4) mod 4.
Definition ls_of (t : bytes) : N := (3 - len t mod 4) mod 3.

(** decoding a text that starts with [ws] letters A gives [ls] zero bytes first *)

Lemma decode_A3 c4 r bs : b64_decode (65 :: 65 :: 65 :: c4 :: r) = Ok bs -> exists x r', bs = 0 :: 0 :: x :: r' \/ (c4 = pad_char).
Proof.
  intros H. pose proof (b64_decode_inv _ _ H) as [Hok He]. destruct bs as [|a [|b [|c q]]]; [discriminate He| | |].
  - exfalso. apply (f_equal (fun l => nth 2 l 0)) in He. lazy in He. discriminate.
  - exists 0, []. right. apply (f_equal (fun l => nth 3 l 0)) in He. lazy in He. auto.
  - rewrite b64_encode_3 in He. injection He as E1 E2 E3 E4 E5. exists c, q. left.
    apply bytes_ok_cons in Hok as [Ha Hok]. apply bytes_ok_cons in Hok as [Hb Hok]. apply bytes_ok_cons in Hok as [Hc Hok].
    change 65 with (chr64 0) in *. apply chr64_inj in E1; [|lia|lia]. apply chr64_inj in E2; [|lia|lia]. apply chr64_inj in E3; [|lia|lia].
    assert (a = 0) by lia. assert (b = 0) by lia. subst. reflexivity.
Qed.
Lemma decode_A2 c3 c4 r bs : b64_decode (65 :: 65 :: c3 :: c4 :: r) = Ok bs -> c3 <> pad_char -> c4 <> pad_char -> exists x y r', bs = 0 :: x :: y :: r'.
Proof.
  intros H N3 N4. pose proof (b64_decode_inv _ _ H) as [Hok He]. destruct bs as [|a [|b [|c q]]]; [discriminate He| | |].
  - exfalso. apply N4. apply (f_equal (fun l => nth 3 l 0)) in He. lazy in He. auto.
  - exfalso. apply N4. apply (f_equal (fun l => nth 3 l 0)) in He. lazy in He. auto.
  - rewrite b64_encode_3 in He. injection He as E1 E2 E3 E4 E5. exists b, c, q.
    apply bytes_ok_cons in Hok as [Ha Hok]. apply bytes_ok_cons in Hok as [Hb Hok]. apply bytes_ok_cons in Hok as [Hc Hok].
    change 65 with (chr64 0) in *. apply chr64_inj in E1; [|lia|lia]. apply chr64_inj in E2; [|lia|lia].
    assert (a = 0) by lia. subst. reflexivity.
Qed.
Lemma b64_not_pad c : is_b64 c = true -> c <> pad_char.
Proof. intros H ->. discriminate. Qed.

Lemma rawify_ok t : all_b64 t = true -> exists raw, rawify t = Ok raw /\ bytes_ok raw = true /\
  b64_encode (rep 0 (ls_of t) ++ raw) = rep 65 (ws_of t) ++ t /\ len raw + ls_of t = (len t + 3) / 4 * 3.
Proof.
  intros Ha. set (base := rep 65 (ws_of t) ++ t).
  assert (Hb : all_b64 base = true) by (unfold base; rewrite all_b64_app; apply andb_true_iff; split; [apply forallb_rep; reflexivity|exact Ha]).
  assert (Hl : len base = ws_of t + len t) by (unfold base; rewrite len_app, len_rep; reflexivity).
  assert (Hm : len base mod 4 = 0) by (rewrite Hl; unfold ws_of; lia).
  destruct (b64_decode_all _ Hb Hm) as [bs [Hd Hlen]]. destruct (b64_decode_inv _ _ Hd) as [Hok He].
  assert (Hz : exists raw, bs = rep 0 (ls_of t) ++ raw).
  { assert (C : len t mod 4 = 0 \/ len t mod 4 = 3 \/ len t mod 4 = 1 \/ len t mod 4 = 2) by lia. unfold base, ls_of, ws_of in *. destruct C as [C|[C|[C|C]]]; rewrite C in *.
    - exists bs. reflexivity.
    - exists bs. reflexivity.
    - change (rep 65 ((4 - 1) mod 4)) with [65; 65; 65] in Hd. destruct t as [|c r]; [discriminate|]. cbn in Ha. apply andb_true_iff in Ha as [Hc _].
      destruct (decode_A3 _ _ _ Hd) as [x [r' [E|E]]]; [|exfalso; eapply b64_not_pad; eauto]. exists (x :: r'). exact E.
    - change (rep 65 ((4 - 2) mod 4)) with [65; 65] in Hd. destruct t as [|c [|c2 r]]; [discriminate|discriminate|]. cbn in Ha. apply andb_true_iff in Ha as [Hc Ha].
      apply andb_true_iff in Ha as [Hc2 _]. destruct (decode_A2 _ _ _ _ Hd) as [x [y [r' E]]]; try (apply b64_not_pad; auto). exists (x :: y :: r'). exact E. }
  destruct Hz as [raw E]. exists raw. split; [|split; [|split]].
  - unfold rawify. fold (ws_of t). fold (ls_of t). fold base. rewrite Hd. cbn [obind]. rewrite slice_to_end.
    + f_equal. rewrite E. apply drop_app_exact. rewrite len_rep. reflexivity.
    + rewrite E, len_app, len_rep. lia.
  - rewrite E, bytes_ok_app in Hok. apply andb_true_iff in Hok; tauto.
  - rewrite <- E, He. reflexivity.
  - rewrite E, len_app, len_rep in Hlen. rewrite Hl in Hlen. unfold ls_of, ws_of in *. lia.
Qed.
Lemma ls_pad (t raw : bytes) : len raw + ls_of t = (len t + 3) / 4 * 3 -> pad3 (len raw) = ls_of t.
Proof. unfold pad3, ls_of. intros H. lia. Qed.

Definition bext_code (l q : N) : bytes := if q <? 64 ^ 2 then small_code 65 l else large_code 65 l.
Lemma bexter_of_eq `{P : Profile} t raw : all_b64 t = true -> rawify t = Ok raw -> len raw < U32 -> len raw + ls_of t = (len t + 3) / 4 * 3 ->
  bexter_of t = let q := (len t + 3) / 4 in if q <? 64 ^ 4 then Ok (Mat (bext_code (ls_of t) q) q raw) else Err E_InvalidVarRawSize.
Proof.
  intros Ha Hr Hl Hlen. unfold bexter_of, bexter_new. cbn [none andb unwrap_or]. unfold reb64_match. unfold all_b64 in Ha. rewrite Ha. cbn [negb].
  rewrite Hr. cbn [obind]. unfold matter_new. change (s2b "4A") with (small_code 65 0). rewrite new_small by lia.
  unfold as_u32. rewrite N.mod_small by exact Hl. cbv zeta. rewrite (ls_pad _ _ Hlen), Hlen, N.div_mul by lia. rewrite take_all by lia. unfold bext_code.
  assert (L2 : ls_of t <= 2) by (unfold ls_of; lia).
  destruct (_ <? 64 ^ 2) eqn:E2.
  - replace ((len t + 3) / 4 <? 64 ^ 4) with true by (symmetry; apply N.ltb_lt; apply N.ltb_lt in E2; eapply N.lt_le_trans; [exact E2|]; npow; lia).
    cbn [obind]. rewrite validate_yes; [reflexivity|]. assert (ls_of t = 0 \/ ls_of t = 1 \/ ls_of t = 2) as [X|[X|X]] by lia; rewrite X; vm_compute; tauto.
  - destruct (_ <? 64 ^ 4) eqn:E4; [|reflexivity]. cbn [obind]. rewrite validate_yes; [reflexivity|].
    assert (ls_of t = 0 \/ ls_of t = 1 \/ ls_of t = 2) as [X|[X|X]] by lia; rewrite X; vm_compute; tauto.
Qed.
Lemma bext_code_sizage l q : l <= 2 -> exists w, get_sizage (bext_code l q) = Ok (Sz w w u32_max l) /\ ((w = 2 /\ q < 64 ^ 2) \/ w = 4).
Proof.
  intros Hl. unfold bext_code. destruct (N.ltb_spec q (64 ^ 2)).
  - exists 2. split; [apply small_sizage; auto|auto].
  - exists 4. split; [apply large_sizage; auto|auto].
Qed.
Lemma bext_wf (t raw : bytes) : len raw + ls_of t = (len t + 3) / 4 * 3 -> bytes_ok raw = true -> (len t + 3) / 4 < 64 ^ 4 ->
  exists z, wf (Mat (bext_code (ls_of t) ((len t + 3) / 4)) ((len t + 3) / 4) raw) z /\ ls z = ls_of t.
Proof.
  intros Hlen Hb Hq. destruct (bext_code_sizage (ls_of t) ((len t + 3) / 4)) as [w [Hz Hw]]; [unfold ls_of; lia|].
  exists (Sz w w u32_max (ls_of t)). split; [|reflexivity]. constructor; cbn [m_code m_size m_raw]; auto. split; cbn [ss ls]; [|exact Hlen].
  destruct Hw as [[-> Hw]| ->]; auto.
Qed.
Lemma bext_of_eq m z : get_sizage (m_code m) = Ok z -> bytes_ok (m_raw m) = true -> bext_of m =
  let t := b64_encode (rep 0 (ls z) ++ m_raw m) in
  let ws := if ls z =? 0 then (match t with c :: _ => if c =? 65 then 1 else 0 | [] => 0 end) else (ls z + 1) mod 4 in
  if ws <=? len t then Ok (drop ws t) else Panic.
Proof.
  intros Hz Hb. unfold bext_of. rewrite Hz. cbn [obind]. cbv zeta. set (t := b64_encode _).
  assert (A : ascii_ok t = true) by (apply b64_encode_ascii; rewrite bytes_ok_app, bytes_ok_rep0; auto).
  set (ws := if ls z =? 0 then _ else _). destruct (N.leb_spec ws (len t)) as [L|L].
  - rewrite str_slice_ascii by (auto; lia). f_equal. apply take_all. rewrite len_drop. lia.
  - unfold str_slice. replace (ws <=? len t) with false by lia. reflexivity.
Qed.
Lemma bext_of_bexter t raw : all_b64 t = true -> bytes_ok raw = true -> b64_encode (rep 0 (ls_of t) ++ raw) = rep 65 (ws_of t) ++ t ->
  forall code size, (exists z, get_sizage code = Ok z /\ ls z = ls_of t) -> bext_of (Mat code size raw) = Ok (bext_shown t).
Proof.
  intros Ha Hb He code size [z [Hz Hl]]. rewrite (bext_of_eq _ z) by auto. cbn [m_raw]. rewrite Hl, He. cbv zeta. unfold bext_shown.
  assert (C : len t mod 4 = 0 \/ len t mod 4 = 3 \/ len t mod 4 = 1 \/ len t mod 4 = 2) by lia. unfold ls_of, ws_of in *.
  destruct C as [C|[C|[C|C]]]; rewrite C in *.
  - change (rep 65 ((4 - 0) mod 4)) with (@nil N). cbn [app]. change ((3 - 0) mod 3 =? 0) with true. cbv iota. destruct t as [|c r]; [reflexivity|].
    rewrite N.eqb_refl. cbn [andb]. destruct (N.eqb_spec c 65) as [->|]; cbn [N.leb]; [|reflexivity]. rewrite len_cons. replace (1 <=? 1 + len r) with true by lia. reflexivity.
  - change (rep 65 ((4 - 3) mod 4)) with [65]. cbn [app]. change ((3 - 3) mod 3 =? 0) with true. cbv iota. change (65 =? 65) with true. cbv iota.
    rewrite len_cons. replace (1 <=? 1 + len t) with true by lia. destruct t; reflexivity.
  - change (rep 65 ((4 - 1) mod 4)) with [65; 65; 65]. cbn [app]. change ((3 - 1) mod 3 =? 0) with false. cbv iota. rewrite !len_cons.
    change (((3 - 1) mod 3 + 1) mod 4) with 3. replace (3 <=? _) with true by lia. destruct t; reflexivity.
  - change (rep 65 ((4 - 2) mod 4)) with [65; 65]. cbn [app]. change ((3 - 2) mod 3 =? 0) with false. cbv iota. rewrite !len_cons.
    change (((3 - 2) mod 3 + 1) mod 4) with 2. replace (2 <=? _) with true by lia. destruct t; reflexivity.
Qed.
