(** Constructor, panics, agreement of the two decoders. *)
From Verif Require Import Base BaseFacts Utf8 B64 B64Facts Util UtilFacts MatterTables Matter MatterFacts MatterFacts2.

Lemma bind_panic {A B} (x : outcome A) (f : A -> outcome B) : obind x f = Panic -> x = Panic \/ exists a, x = Ok a /\ f a = Panic.
Proof. destruct x; cbn; eauto; discriminate. Qed.

Lemma add32_not_err `{Profile} a b e : add32 a b <> Err e.
Proof. unfold add32. destruct (_ <? _); [discriminate|]. destruct overflow_checks; discriminate. Qed.

(** ** The variable size codes of the table *)
Definition var_codes : list bytes :=
  [s2b "4A"; s2b "5A"; s2b "6A"; s2b "4B"; s2b "5B"; s2b "6B";
   s2b "7AAA"; s2b "8AAA"; s2b "9AAA"; s2b "7AAB"; s2b "8AAB"; s2b "9AAB"].

Lemma var_codes_ok code z : get_sizage code = Ok z -> variable z = true -> In code var_codes.
Proof.
  intros H V. apply get_sizage_In in H.
  assert (E : forallb (fun e => negb (variable (snd e)) || mem_code (fst e) var_codes) sizage_table = true) by (vm_compute; reflexivity).
  eapply forallb_forall in E; eauto. cbn [fst snd] in E. rewrite V in E. cbn in E. apply mem_code_In. exact E.
Qed.

Definition is_var_first (c : N) : bool := existsb (N.eqb c) small_vrz || existsb (N.eqb c) large_vrz.

Lemma var_first code z : get_sizage code = Ok z ->
  match code with c :: _ => is_var_first c | [] => false end = variable z.
Proof.
  intros H. apply get_sizage_In in H.
  assert (E : forallb (fun e => Bool.eqb (match fst e with c :: _ => is_var_first c | [] => false end) (variable (snd e))) sizage_table = true) by (vm_compute; reflexivity).
  eapply forallb_forall in E; eauto. cbn [fst snd] in E. apply eqb_prop in E. exact E.
Qed.

(** ** Constructor *)
Section New.
Context `{P : Profile}.

(** small or large family, family letter *)
Definition small_code (fam l : N) : bytes := [52 + l; fam].
Definition large_code (fam l : N) : bytes := [55 + l; 65; 65; fam].

Definition pad3 (n : N) : N := (3 - n mod 3) mod 3.

Lemma new_small fam l0 raw : fam < 128 -> l0 <= 2 -> matter_new_with_code_and_raw (small_code fam l0) raw =
  let n := as_u32 (len raw) in
  let q := (n + pad3 n) / 3 in
  if q <? 64 ^ 2 then Ok (Mat (small_code fam (pad3 n)) q (take n raw))
  else if q <? 64 ^ 4 then Ok (Mat (large_code fam (pad3 n)) q (take n raw))
  else Err E_InvalidVarRawSize.
Proof.
  intros Hf Hl. unfold matter_new_with_code_and_raw, small_code at 1.
  assert (Hs : existsb (N.eqb (52 + l0)) small_vrz = true).
  { assert (l0 = 0 \/ l0 = 1 \/ l0 = 2) as [->|[->| ->]] by lia; reflexivity. }
  rewrite Hs. cbn [orb]. cbv zeta. fold (pad3 (as_u32 (len raw))).
  assert (Hn : as_u32 (len raw) < U32) by (unfold as_u32; apply N.mod_lt; discriminate).
  assert (Hp : as_u32 (len raw) + pad3 (as_u32 (len raw)) < U32) by (unfold pad3, U32 in *; npow; lia).
  rewrite add32_ok by exact Hp. cbn [obind].
  assert (Hsl : str_slice (small_code fam l0) 1 2 = Ok [fam]).
  { unfold small_code. rewrite str_slice_ascii; [reflexivity| |discriminate|vm_compute; discriminate].
    cbn. unfold byte_ok. assert (52 + l0 <? 128 = true) as -> by lia. assert (fam <? 128 = true) as -> by lia. reflexivity. }
  change [52 + l0; fam] with (small_code fam l0). rewrite Hsl. cbn [obind].
  assert (Hle : as_u32 (len raw) <= len raw) by (unfold as_u32; apply N.mod_le; discriminate).
  assert (Hp3 : pad3 (as_u32 (len raw)) = 0 \/ pad3 (as_u32 (len raw)) = 1 \/ pad3 (as_u32 (len raw)) = 2) by (unfold pad3; lia).
  set (n := as_u32 (len raw)) in *. set (q := (n + pad3 n) / 3) in *.
  destruct (q <? 64 ^ 2); [|destruct (q <? 64 ^ 4); [|reflexivity]].
  - assert (Hi : index_at small_vrz (pad3 n) = Ok (52 + pad3 n)) by (destruct Hp3 as [->|[->| ->]]; reflexivity).
    rewrite Hi. cbn [obind app]. replace (len raw <? n) with false by lia. reflexivity.
  - assert (Hi : index_at large_vrz (pad3 n) = Ok (55 + pad3 n)) by (destruct Hp3 as [->|[->| ->]]; reflexivity).
    rewrite Hi. cbn [obind app]. replace (len raw <? n) with false by lia. reflexivity.
Qed.

Lemma new_large fam l0 raw : fam < 128 -> l0 <= 2 -> matter_new_with_code_and_raw (large_code fam l0) raw =
  let n := as_u32 (len raw) in
  let q := (n + pad3 n) / 3 in
  if q <? 64 ^ 4 then Ok (Mat (large_code fam (pad3 n)) q (take n raw))
  else Err E_InvalidVarRawSize.
Proof.
  intros Hf Hl. unfold matter_new_with_code_and_raw, large_code at 1.
  assert (Hs : existsb (N.eqb (55 + l0)) small_vrz = false).
  { assert (l0 = 0 \/ l0 = 1 \/ l0 = 2) as [->|[->| ->]] by lia; reflexivity. }
  assert (Hs2 : existsb (N.eqb (55 + l0)) large_vrz = true).
  { assert (l0 = 0 \/ l0 = 1 \/ l0 = 2) as [->|[->| ->]] by lia; reflexivity. }
  rewrite Hs, Hs2. cbn [orb]. cbv zeta. fold (pad3 (as_u32 (len raw))).
  assert (Hn : as_u32 (len raw) < U32) by (unfold as_u32; apply N.mod_lt; discriminate).
  assert (Hp : as_u32 (len raw) + pad3 (as_u32 (len raw)) < U32) by (unfold pad3, U32 in *; npow; lia).
  rewrite add32_ok by exact Hp. cbn [obind].
  assert (Hsl : str_slice (large_code fam l0) 1 4 = Ok [65; 65; fam]).
  { unfold large_code. rewrite str_slice_ascii; [reflexivity| |discriminate|vm_compute; discriminate].
    cbn. unfold byte_ok. assert (55 + l0 <? 128 = true) as -> by lia. assert (fam <? 128 = true) as -> by lia. reflexivity. }
  change [55 + l0; 65; 65; fam] with (large_code fam l0). rewrite Hsl. cbn [obind].
  assert (Hle : as_u32 (len raw) <= len raw) by (unfold as_u32; apply N.mod_le; discriminate).
  assert (Hp3 : pad3 (as_u32 (len raw)) = 0 \/ pad3 (as_u32 (len raw)) = 1 \/ pad3 (as_u32 (len raw)) = 2) by (unfold pad3; lia).
  set (n := as_u32 (len raw)) in *. set (q := (n + pad3 n) / 3) in *.
  destruct (q <? 64 ^ 4); [|reflexivity].
  assert (Hi : index_at large_vrz (pad3 n) = Ok (55 + pad3 n)) by (destruct Hp3 as [->|[->| ->]]; reflexivity).
  rewrite Hi. cbn [obind app]. replace (len raw <? n) with false by lia. reflexivity.
Qed.

Lemma var_code_shape code : In code var_codes ->
  exists fam l0, (fam = 65 \/ fam = 66) /\ l0 <= 2 /\ (code = small_code fam l0 \/ code = large_code fam l0).
Proof.
  intros H. cbn in H.
  repeat (destruct H as [<-|H]; [first
   [ exists 65, 0; split; [auto|split; [lia|auto]]; fail | exists 65, 1; split; [auto|split; [lia|auto]]; fail
   | exists 65, 2; split; [auto|split; [lia|auto]]; fail | exists 66, 0; split; [auto|split; [lia|auto]]; fail
   | exists 66, 1; split; [auto|split; [lia|auto]]; fail | exists 66, 2; split; [auto|split; [lia|auto]]; fail ]|]).
  destruct H.
Qed.

Lemma small_sizage fam l : (fam = 65 \/ fam = 66) -> l <= 2 -> get_sizage (small_code fam l) = Ok (Sz 2 2 u32_max l).
Proof. intros [-> | ->] Hl; assert (l = 0 \/ l = 1 \/ l = 2) as [->|[->| ->]] by lia; reflexivity. Qed.
Lemma large_sizage fam l : (fam = 65 \/ fam = 66) -> l <= 2 -> get_sizage (large_code fam l) = Ok (Sz 4 4 u32_max l).
Proof. intros [-> | ->] Hl; assert (l = 0 \/ l = 1 \/ l = 2) as [->|[->| ->]] by lia; reflexivity. Qed.

Lemma new_fixed code z raw : get_sizage code = Ok z -> variable z = false ->
  matter_new_with_code_and_raw code raw =
   (if len raw <? (fs z - cs_of z) * 3 / 4 - ls z then Err E_Shortage
    else Ok (Mat code 0 (take ((fs z - cs_of z) * 3 / 4 - ls z) raw))).
Proof.
  intros Hz V. pose proof (var_first _ _ Hz) as Hv. rewrite V in Hv. unfold matter_new_with_code_and_raw.
  destruct code as [|c r]; [vm_compute in Hz; discriminate|]. unfold is_var_first in Hv. rewrite Hv. cbn zeta.
  unfold raw_size. rewrite Hz. cbn [obind]. change (fs z =? u32_max) with (variable z). rewrite V. cbn [obind]. reflexivity.
Qed.

Lemma new_wf code z0 raw m : get_sizage code = Ok z0 -> bytes_ok raw = true ->
  matter_new_with_code_and_raw code raw = Ok m -> exists z, wf m z.
Proof.
  intros Hz Hb H. destruct (variable z0) eqn:V.
  - destruct (var_code_shape _ (var_codes_ok _ _ Hz V)) as [fam [l0 [Hf [Hl Hc]]]].
    assert (Hf' : fam < 128) by lia.
    assert (Hn : as_u32 (len raw) <= len raw) by (unfold as_u32; apply N.mod_le; discriminate).
    assert (Hlt : len (take (as_u32 (len raw)) raw) = as_u32 (len raw)) by (rewrite len_take; lia).
    assert (Hp3 : pad3 (as_u32 (len raw)) <= 2) by (unfold pad3; lia).
    assert (Hbt : bytes_ok (take (as_u32 (len raw)) raw) = true) by (apply bytes_ok_take; auto).
    destruct Hc as [-> | ->].
    + rewrite new_small in H by auto. cbv zeta in H. set (n := as_u32 (len raw)) in *.
      destruct ((n + pad3 n) / 3 <? 64 ^ 2) eqn:E1; [|destruct ((n + pad3 n) / 3 <? 64 ^ 4) eqn:E2; [|discriminate]]; injection H as <-.
      * exists (Sz 2 2 u32_max (pad3 n)). constructor; cbn [m_code m_size m_raw]; auto using small_sizage.
        split; cbn [ss ls]; [lia|]. unfold pad3 in *. lia.
      * exists (Sz 4 4 u32_max (pad3 n)). constructor; cbn [m_code m_size m_raw]; auto using large_sizage.
        split; cbn [ss ls]; [lia|]. unfold pad3 in *. lia.
    + rewrite new_large in H by auto. cbv zeta in H. set (n := as_u32 (len raw)) in *.
      destruct ((n + pad3 n) / 3 <? 64 ^ 4) eqn:E2; [|discriminate]; injection H as <-.
      exists (Sz 4 4 u32_max (pad3 n)). constructor; cbn [m_code m_size m_raw]; auto using large_sizage.
      split; cbn [ss ls]; [lia|]. unfold pad3 in *. lia.
  - rewrite (new_fixed _ _ _ Hz V) in H. destruct (len raw <? _) eqn:E; [discriminate|]. injection H as <-.
    exists z0. constructor; cbn [m_code m_size m_raw]; auto.
    + apply bytes_ok_take; auto.
    + unfold raw_len_ok. rewrite V. split; auto. rewrite len_take. lia.
Qed.
End New.

(** ** Injectivity of the closed forms *)
Lemma text_prefix_eq m1 z1 m2 z2 t : wf m1 z1 -> wf m2 z2 -> text_of z2 m2 = text_of z1 m1 ++ t -> m1 = m2.
Proof.
  intros W1 W2 E. pose proof (@exfil_text true z2 m2 [] W2 eq_refl) as X2. rewrite app_nil_r in X2.
  assert (Hu : utf8_valid t = true).
  { apply utf8_ascii. pose proof (all_b64_ascii _ (all_b64_text _ _ W2)) as A. rewrite E, ascii_ok_app in A.
    apply andb_true_iff in A. tauto. }
  pose proof (@exfil_text true z1 m1 t W1 Hu) as X1. rewrite <- E in X1. congruence.
Qed.
Lemma bin_prefix_eq m1 z1 m2 z2 t : wf m1 z1 -> wf m2 z2 -> bin_of z2 m2 = bin_of z1 m1 ++ t -> m1 = m2.
Proof.
  intros W1 W2 E. pose proof (@bexfil_bin true z2 m2 [] W2 eq_refl) as X2. rewrite app_nil_r in X2.
  assert (Hu : bytes_ok t = true).
  { pose proof (bytes_ok_bin _ _ W2) as A. rewrite E, bytes_ok_app in A. apply andb_true_iff in A. tauto. }
  pose proof (@bexfil_bin true z1 m1 t W1 Hu) as X1. rewrite <- E in X1. congruence.
Qed.

(** ** Agreement of the decoders *)
Section Agree.
Context `{P : Profile}.

Lemma agree_ok t b m : all_b64 t = true -> b64_decode t = Ok b -> (matter_exfil t = Ok m <-> matter_bexfil b = Ok m).
Proof.
  intros Ha Hd. destruct (b64_decode_all_inv _ _ Ha Hd) as [Hb3 Hlen].
  pose proof (b64_decode_inv _ _ Hd) as [Hok He]. split; intros H.
  - destruct (exfil_canonical _ _ H Ha) as [z [W E]].
    set (tl := drop (full_of z (m_size m)) t) in *.
    pose proof (len_bin _ _ W) as [Hl1 Hl2]. pose proof (len_text _ _ W) as Hl3.
    assert (Hat : all_b64 tl = true) by (apply forallb_drop; auto).
    assert (Htl : len tl mod 4 = 0).
    { assert (len t = full_of z (m_size m) + len tl) by (rewrite E at 1; rewrite len_app, Hl3; reflexivity). lia. }
    destruct (b64_decode_all tl Hat Htl) as [r [Hr _]]. pose proof (b64_decode_inv _ _ Hr) as [Hokr Her].
    assert (Hb : b = bin_of z m ++ r).
    { apply b64_encode_inj; auto.
      - rewrite bytes_ok_app, Hokr, (bytes_ok_bin _ _ W). reflexivity.
      - rewrite b64_encode_app by auto. rewrite <- text_is_encode_bin, Her by auto. congruence. }
    rewrite Hb. apply bexfil_bin; auto.
  - destruct (bexfil_inv _ _ Hok H) as [z [W E]].
    set (r := drop (full_of z (m_size m) * 3 / 4) b) in *.
    pose proof (len_bin _ _ W) as [Hl1 Hl2].
    rewrite <- He, E, b64_encode_app, <- text_is_encode_bin by auto.
    apply exfil_text; auto. apply utf8_ascii, b64_encode_ascii. apply bytes_ok_drop; auto.
Qed.

(** ** Panics *)
(** code and all-zero size of the lead-byte codes *)
Definition zero_heads : list bytes :=
  [s2b "5AAA"; s2b "5BAA"; s2b "6AAA"; s2b "6BAA";
   s2b "8AAAAAAA"; s2b "8AABAAAA"; s2b "9AAAAAAA"; s2b "9AABAAAA"].

Lemma zero_head_ok code z : get_sizage code = Ok z -> variable z = true -> 0 < ls z -> In (code ++ rep 65 (ss z)) zero_heads.
Proof.
  intros H V L. apply get_sizage_In in H.
  assert (E : forallb (fun e => negb (variable (snd e)) || negb (0 <? ls (snd e)) || mem_code (fst e ++ rep 65 (ss (snd e))) zero_heads) sizage_table = true) by (vm_compute; reflexivity).
  eapply forallb_forall in E; eauto. cbn [fst snd] in E. rewrite V in E. replace (0 <? ls z) with true in E by lia. cbn in E.
  apply mem_code_In. exact E.
Qed.
Lemma zero_head_inv h : In h zero_heads -> exists code z, get_sizage code = Ok z /\ variable z = true /\ 0 < ls z /\ h = code ++ rep 65 (ss z).
Proof.
  intros H.
  assert (E : forallb (fun h => existsb (fun e => variable (snd e) && (0 <? ls (snd e)) && match get_sizage (fst e) with Ok z => true | _ => false end && bytes_eqb h (fst e ++ rep 65 (ss (snd e)))) sizage_table) zero_heads = true) by (vm_compute; reflexivity).
  eapply forallb_forall in E; eauto. apply existsb_exists in E as [[c z] [Hin E]]. cbn [fst snd] in E.
  apply andb_true_iff in E as [E E4]. apply andb_true_iff in E as [E E3]. apply andb_true_iff in E as [E1 E2].
  apply bytes_eqb_eq in E4. destruct (get_sizage c) as [z'| |] eqn:G; try discriminate.
  assert (z' = z).
  { pose proof (get_sizage_In _ _ G) as I'.
    assert (T : forallb (fun e => forallb (fun e' => negb (bytes_eqb (fst e) (fst e')) ||
       ((hs (snd e) =? hs (snd e')) && (ss (snd e) =? ss (snd e')) && (fs (snd e) =? fs (snd e')) && (ls (snd e) =? ls (snd e')))) sizage_table) sizage_table = true) by (vm_compute; reflexivity).
    eapply forallb_forall in T; [|exact Hin]. eapply forallb_forall in T; [|exact I']. cbn [fst snd] in T. rewrite bytes_eqb_refl in T. cbn in T.
    splitb T. destruct z, z'; cbn in *. f_equal; lia. }
  subst z'. exists c, z. repeat split; auto. lia.
Qed.

Lemma val_rep0_inv b l : 0 < b -> val b l = 0 -> l = rep 0 (len l).
Proof.
  intros Hb. induction l as [|x l IH]; [reflexivity|]. rewrite val_cons, len_cons, rep_S. intros H.
  assert (0 < b ^ len l) by (apply N.neq_0_lt_0, N.pow_nonzero; lia).
  assert (x = 0) by nia. subst x. f_equal. apply IH. lia.
Qed.
Lemma soft_zero z : soft_of z 0 = rep 65 (ss z).
Proof.
  unfold soft_of. rewrite digits_0 by lia. unfold rep. induction (N.to_nat (ss z)) as [|n IH]; [reflexivity|]. cbn [repeat map]. rewrite IH. reflexivity.
Qed.

Lemma no_pad_decode t bs : ~ In pad_char t -> b64_decode t = Ok bs -> all_b64 t = true.
Proof.
  intros Hn Hd. apply b64_decode_inv in Hd as [Hok He]. rewrite <- He in *. unfold b64_encode in *.
  rewrite all_b64_app. rewrite all_b64_chr by (apply sextets_lt; auto). cbn.
  unfold rep in *. destruct (N.to_nat ((3 - len bs mod 3) mod 3)); [reflexivity|].
  exfalso. apply Hn. apply in_or_app. right. left. reflexivity.
Qed.

(** ASCII text without '=' *)
Definition plain (t : bytes) : Prop := ascii_ok t = true /\ ~ In pad_char t.

Lemma In_take {A} (x : A) n l : In x (take n l) -> In x l.
Proof. intros H. rewrite <- (take_drop_id n l). apply in_or_app; auto. Qed.
Lemma In_drop {A} (x : A) n l : In x (drop n l) -> In x l.
Proof. intros H. rewrite <- (take_drop_id n l). apply in_or_app; auto. Qed.

Lemma ascii_take n s : ascii_ok s = true -> ascii_ok (take n s) = true.
Proof. apply forallb_take. Qed.
Lemma hardage_not_panic c : hardage c <> Panic.
Proof. unfold hardage. repeat match goal with |- context [if ?b then _ else _] => destruct b end; discriminate. Qed.
Lemma bardage_not_panic c : bardage c <> Panic.
Proof. unfold bardage. repeat match goal with |- context [if ?b then _ else _] => destruct b end; discriminate. Qed.
Lemma get_sizage_not_panic c : get_sizage c <> Panic.
Proof. unfold get_sizage. destruct (assoc c sizage_table); discriminate. Qed.

Lemma exfil_panic_inv t : plain t -> matter_exfil t = Panic -> exists h r, In h zero_heads /\ t = h ++ r.
Proof.
  intros [Hasc Hnp] H. unfold matter_exfil in H. destruct t as [|c t'] eqn:Et; [discriminate|]. rewrite <- Et in *. clear Et t'.
  apply bind_panic in H as [H|[hs0 [Eh H]]]; [exfalso; eapply hardage_not_panic; eauto|].
  destruct (len t <? hs0) eqn:El; [discriminate|].
  rewrite str_slice_ascii in H by (auto; lia). cbn [obind] in H. rewrite N.sub_0_r, drop_0 in H.
  apply bind_panic in H as [H|[z [Ez H]]]; [exfalso; eapply get_sizage_not_panic; eauto|].
  pose proof (get_sizage_zfacts _ _ Ez) as Z.
  assert (Hhs : hs0 = hs z). { rewrite <- (zf_len _ _ Z), len_take. lia. } subst hs0.
  change (fs z =? u32_max) with (variable z) in H. change (hs z + ss z) with (cs_of z) in *.
  pose proof (zf_cs8 _ _ Z) as Hc8. pose proof (zf_cs3 _ _ Z) as Hc3. pose proof (zf_cs_ls _ _ Z) as Hcl.
  assert (Hhead : exists f size, (f <= len t -> cs_of z <= f) /\ f = full_of z size /\
    (variable z = true -> all_b64 (take (ss z) (drop (hs z) t)) = true /\ size = val 64 (ords (take (ss z) (drop (hs z) t)))
       /\ cs_of z <= len t) /\
    (if len t <? f
         then Err E_Shortage
         else
          trim <- str_slice t 0 f;;
          raw <-
            (if negb (cs_of z mod 4 =? 0) then
               tail <- str_slice trim (cs_of z) (len trim) ;;
               paw <- b64_decode (rep 65 (cs_of z mod 4) ++ tail) ;;
               pre <- slice paw 0 (cs_of z mod 4) ;;
               if negb (read_int pre mod 2 ^ (2 * (cs_of z mod 4)) =? 0) then Err E_Prepad
               else slice paw (cs_of z mod 4) (len paw)
             else
               tail <- str_slice trim (cs_of z) (len trim) ;;
               paw <- b64_decode tail ;;
               pre <- slice paw 0 (ls z) ;;
               if negb (read_int pre =? 0) then
                 (if ls z =? 1 then Err E_NonZeroedLeadByte else Err E_NonZeroedLeadBytes)
               else slice paw (ls z) (len paw)) ;;
          Ok {| m_code := take (hs z) t; m_size := size; m_raw := raw |}) = Panic).
  { destruct (variable z) eqn:V.
    - destruct (zf_var _ _ Z V) as [Hm [Hs [Hhs Hfs]]]. rewrite Hm in H |- *. change (0 =? 0) with true in *. cbn [negb] in *. cbv iota in H.
      destruct (len t <? cs_of z) eqn:Hlc; [discriminate|].
      rewrite str_slice_ascii in H by (auto; unfold cs_of in *; lia). cbn [obind] in H.
      replace (cs_of z - hs z) with (ss z) in H by (unfold cs_of; lia). set (soft := take (ss z) (drop (hs z) t)) in *.
      assert (Hsl : len soft = ss z) by (unfold soft; rewrite len_take, len_drop; unfold cs_of in *; lia).
      destruct (all_b64 soft) eqn:Hb.
      2:{ unfold b64_to_u32 in H. rewrite b64_to_uint_bad in H by auto. discriminate. }
      rewrite b64_to_u32_all in H by (auto; lia). cbn [obind] in H.
      pose proof (val64_lt soft) as Hv. rewrite Hsl in Hv.
      assert (Hv4 : val 64 (ords soft) < 64 ^ 4).
      { eapply N.lt_le_trans; [exact Hv|]. apply N.pow_le_mono_r; lia. }
      rewrite mul32_ok in H by (unfold U32; npow; lia). cbn [obind] in H.
      rewrite add32_ok in H by (unfold U32; npow; lia). cbn [obind] in H.
      eexists _, _. split; [|split; [|split; [|exact H]]].
      + intros _. lia.
      + unfold full_of. rewrite V. reflexivity.
      + intros _. repeat split; auto. lia.
    - destruct (zf_fix _ _ Z V) as [Hs [? [? ?]]]. cbn [obind] in H. eexists _, _. split; [|split; [|split; [|exact H]]].
      + intros _. lia.
      + unfold full_of. rewrite V. reflexivity.
      + discriminate. }
  clear H. destruct Hhead as [f [size [Hcf [Ef [Hvar H]]]]].
  destruct (len t <? f) eqn:Elf; [discriminate|]. specialize (Hcf ltac:(lia)).
  rewrite str_slice_ascii in H by (auto; lia). cbn [obind] in H. rewrite N.sub_0_r, drop_0 in H.
  assert (Hlt : len (take f t) = f) by (rewrite len_take; lia). rewrite Hlt in H.
  rewrite str_slice_ascii in H by (auto using ascii_take; lia). cbn [obind] in H.
  rewrite take_all in H by (rewrite len_drop, Hlt; lia).
  set (tl := drop (cs_of z) (take f t)) in *.
  assert (Hltl : len tl = f - cs_of z) by (unfold tl; rewrite len_drop, Hlt; reflexivity).
  assert (Hntl : ~ In pad_char tl) by (unfold tl; intros I; apply Hnp; eapply In_take, In_drop; exact I).
  apply bind_panic in H as [H|[? [? H]]]; [|discriminate].
  destruct (N.eqb_spec (cs_of z mod 4) 0) as [E0|E0]; cbn [negb] in H.
  - apply bind_panic in H as [H|[paw [Hd H]]]; [exfalso; eapply b64_decode_not_panic; eauto|].
    assert (Htb : all_b64 tl = true) by (eapply no_pad_decode; eauto).
    destruct (b64_decode_all_inv _ _ Htb Hd) as [_ Hlp].
    destruct (variable z) eqn:V.
    + destruct (zf_var _ _ Z V) as [Hm [Hs [Hhs Hfs]]]. unfold full_of in Ef. rewrite V in Ef.
      destruct (Hvar eq_refl) as [Hsb [Hsz Hlcs]].
      destruct (N.eq_dec size 0) as [E|E].
      * destruct (N.eq_dec (ls z) 0) as [E'|E'].
        -- rewrite E' in H. rewrite slice_prefix in H by lia. cbn [obind] in H. rewrite take_0 in H.
           change (read_int [] =? 0) with true in H. cbn [negb] in H. rewrite slice_to_end in H by lia. discriminate.
        -- pose proof (zero_head_ok _ _ Ez V ltac:(lia)) as Hin. eexists _, (drop (cs_of z) t). split; [exact Hin|].
           assert (Hso : take (ss z) (drop (hs z) t) = rep 65 (ss z)).
           { rewrite E in Hsz. symmetry in Hsz. apply val_rep0_inv in Hsz; [|lia]. rewrite len_ords in Hsz.
             rewrite len_take, len_drop in Hsz. replace (N.min (ss z) (len t - hs z)) with (ss z) in Hsz by (unfold cs_of in *; lia).
             rewrite <- (chr_ords _ Hsb), Hsz. unfold rep. clear. induction (N.to_nat (ss z)) as [|n IH]; [reflexivity|]. cbn [repeat map]. rewrite IH. reflexivity. }
           rewrite <- Hso. replace (ss z) with (cs_of z - hs z) by (unfold cs_of; lia). rewrite take_drop_take by (unfold cs_of; lia).
           symmetry. apply take_drop_id.
      * exfalso. assert (ls z <= len paw) by (pose proof (zf_ls _ _ Z); lia).
        rewrite slice_prefix in H by auto. cbn [obind] in H. destruct (negb _); [destruct (ls z =? 1); discriminate|].
        rewrite slice_to_end in H by auto. discriminate.
    + exfalso. destruct (zf_fix _ _ Z V) as [Hs [? [? [? [? [? ?]]]]]]. unfold full_of in Ef. rewrite V in Ef.
      rewrite slice_prefix in H by lia. cbn [obind] in H. destruct (negb _); [destruct (ls z =? 1); discriminate|].
      rewrite slice_to_end in H by lia. discriminate.
  - exfalso. destruct (variable z) eqn:V; [destruct (zf_var _ _ Z V) as [Hm _]; lia|].
    destruct (zf_fix _ _ Z V) as [Hs [? [? [? [? [? ?]]]]]]. unfold full_of in Ef. rewrite V in Ef.
    apply bind_panic in H as [H|[paw [Hd H]]]; [exfalso; eapply b64_decode_not_panic; eauto|].
    assert (Htb : all_b64 (rep 65 (cs_of z mod 4) ++ tl) = true).
    { eapply no_pad_decode; [|exact Hd]. intros I. apply in_app_or in I as [I|I]; [|auto]. apply repeat_spec in I. discriminate. }
    destruct (b64_decode_all_inv _ _ Htb Hd) as [_ Hlp]. rewrite len_app, len_rep in Hlp.
    rewrite slice_prefix in H by lia. cbn [obind] in H. destruct (negb _); [discriminate|].
    rewrite slice_to_end in H by lia. discriminate.
Qed.

Lemma exfil_zero_head h r : In h zero_heads -> utf8_valid r = true -> matter_exfil (h ++ r) = Panic.
Proof.
  intros Hin Hu. destruct (zero_head_inv _ Hin) as [code [z [Hz [V [L ->]]]]].
  pose proof (get_sizage_zfacts _ _ Hz) as Z. destruct (zf_var _ _ Z V) as [Hm [Hs [Hhs Hfs]]].
  pose proof (zf_hs1 _ _ Z) as Hh1.
  set (hd := code ++ rep 65 (ss z)) in *.
  assert (Hlh : len hd = cs_of z) by (unfold hd; rewrite len_app, len_rep, (zf_len _ _ Z); reflexivity).
  assert (Hah : ascii_ok hd = true).
  { unfold hd. rewrite ascii_ok_app. rewrite (all_b64_ascii _ (zf_b64 _ _ Z)). apply forallb_rep. reflexivity. }
  remember (hd ++ r) as t eqn:Et.
  assert (Hlen : len t = cs_of z + len r) by (rewrite Et, len_app, Hlh; reflexivity).
  assert (Bin : forall k, k <= cs_of z -> boundary t k = true).
  { intros k Hk. rewrite Et. destruct (N.eq_dec k (cs_of z)) as [->|].
    - rewrite <- Hlh. apply boundary_after; auto.
    - apply boundary_app_ascii; auto. lia. }
  destruct (zf_first _ _ Z) as [c [cr [i [Ec [Hh [Hi Hbd]]]]]].
  unfold matter_exfil. destruct t as [|c0 t0] eqn:Et0.
  { exfalso. unfold hd in Et. rewrite Ec in Et. discriminate. }
  assert (c0 = c) by (unfold hd in Et; rewrite Ec in Et; injection Et; auto). subst c0.
  rewrite <- Et0 in *. clear Et0 t0. rewrite Hh. cbn [obind].
  assert (Hcs : cs_of z = hs z + ss z) by reflexivity.
  replace (len t <? hs z) with false by lia.
  rewrite str_slice_ok; [|lia|apply boundary_0|apply Bin; lia]. cbn [obind]. rewrite N.sub_0_r, drop_0.
  assert (Etk : take (hs z) t = code). { rewrite Et. unfold hd. rewrite <- app_assoc. apply take_app_exact. apply (zf_len _ _ Z). }
  rewrite Etk, Hz. cbn [obind]. change (fs z =? u32_max) with (variable z). rewrite V. rewrite <- Hcs, Hm.
  change (0 =? 0) with true. cbn [negb]. cbv iota. replace (len t <? cs_of z) with false by lia.
  rewrite str_slice_ok; [|lia|apply Bin; lia|apply Bin; lia]. cbn [obind].
  assert (Es : take (cs_of z - hs z) (drop (hs z) t) = rep 65 (ss z)).
  { rewrite Et. unfold hd. rewrite <- app_assoc. rewrite drop_app_exact by apply (zf_len _ _ Z). apply take_app_exact. rewrite len_rep. lia. }
  rewrite Es. rewrite b64_to_u32_all; [|apply forallb_rep; reflexivity|rewrite len_rep; lia]. cbn [obind].
  assert (Ev : val 64 (ords (rep 65 (ss z))) = 0).
  { rewrite <- (soft_zero z). unfold soft_of. rewrite ords_chr by (apply digits_lt; lia). apply digits_small; [lia|].
    apply N.neq_0_lt_0, N.pow_nonzero. lia. }
  rewrite Ev. change (mul32 0 4) with (Ok 0). cbn [obind].
  rewrite add32_ok by (unfold U32; pose proof (zf_cs8 _ _ Z); npow; lia). cbn [obind]. rewrite N.add_0_l.
  replace (len t <? cs_of z) with false by lia.
  rewrite str_slice_ok; [|lia|apply boundary_0|apply Bin; lia]. cbn [obind]. rewrite N.sub_0_r, drop_0.
  assert (Eh : take (cs_of z) t = hd). { rewrite Et. apply take_app_exact; auto. }
  rewrite Eh. rewrite str_slice_ascii by (auto; lia). cbn [obind]. rewrite drop_all by lia. rewrite take_nil.
  change (b64_decode []) with (Ok (@nil N)). cbn [obind]. unfold slice. change (len (@nil N)) with 0.
  replace (ls z <=? 0) with false by lia. rewrite andb_false_r. reflexivity.
Qed.

Lemma code_b2_to_b64_not_panic b l : l = 1 \/ l = 2 \/ l = 4 \/ l = 8 -> bytes_ok b = true -> code_b2_to_b64 b l <> Panic.
Proof.
  intros Hl Hok. destruct (N.lt_ge_cases (len b) (((l + 1) * 3) / 4)) as [H|H].
  - unfold code_b2_to_b64. replace (l =? 0) with false by lia. replace (len b <? (l + 1) * 3 / 4) with true by lia. discriminate.
  - rewrite code_b2_to_b64_ok by (auto; lia). discriminate.
Qed.

Lemma bexfil_panic_inv b : bytes_ok b = true -> matter_bexfil b = Panic ->
  exists h hb r, In h zero_heads /\ b64_decode h = Ok hb /\ b = hb ++ r.
Proof.
  intros Hok H. unfold matter_bexfil in H. destruct b as [|b0 bt] eqn:Eb; [discriminate|]. rewrite <- Eb in *.
  assert (Hb1 : 1 <= len b) by (rewrite Eb, len_cons; lia). clear Eb b0 bt.
  rewrite nab_sextets_ok in H by (auto; change ((1 + 1) * 3 / 4) with 1; lia). cbn [obind] in H.
  assert (Hl1 : len (take 1 (sextets b)) = 1) by (rewrite len_take, len_sextets; lia).
  destruct (take 1 (sextets b)) as [|fst0 [|? ?]] eqn:Efst; [discriminate| |rewrite !len_cons in Hl1; lia].
  change (index_at [fst0] 0) with (Ok fst0) in H. cbn [obind] in H.
  apply bind_panic in H as [H|[hs0 [Eh H]]]; [exfalso; eapply bardage_not_panic; eauto|].
  pose proof (bardage_vals _ _ Eh) as Hhv.
  destruct (len b <? (hs0 * 3 + 3) / 4) eqn:El; [discriminate|].
  rewrite code_b2_to_b64_ok in H by (auto; lia). cbn [obind] in H.
  apply bind_panic in H as [H|[z [Ez H]]]; [exfalso; eapply get_sizage_not_panic; eauto|].
  pose proof (get_sizage_zfacts _ _ Ez) as Z.
  assert (Hhs : hs0 = hs z). { rewrite <- (zf_len _ _ Z), len_map, len_take, len_sextets. lia. } subst hs0.
  change (fs z =? u32_max) with (variable z) in H. change (hs z + ss z) with (cs_of z) in *.
  pose proof (cs_cases _ _ Z) as Hcs. pose proof (zf_cs8 _ _ Z) as Hc8. pose proof (zf_cs3 _ _ Z) as Hc3. pose proof (zf_cs_ls _ _ Z) as Hcl.
  set (hard := map chr64 (take (hs z) (sextets b))) in *.
  assert (Hend : forall size full, full = full_of z size -> full < 2 ^ 27 -> full mod 4 = 0 -> cs_of z <= full ->
     (f1 <- add32 full 1;; f3 <- mul32 f1 3;;
      (if len b <? f3 / 4 then Err E_Shortage
       else trim <- slice b 0 (f3 / 4);;
        _ <- (if negb (cs_of z mod 4 =? 0) then
             pi <- index_at trim ((cs_of z + 1) * 3 / 4 - 1) ;;
             if negb (pi mod 2 ^ (2 * (cs_of z mod 4)) =? 0) then Err E_NonZeroedPadBits else Ok tt
           else
             if forallb (N.eqb 0) (drop ((cs_of z + 1) * 3 / 4) (take ((cs_of z + 1) * 3 / 4 + ls z) trim)) then Ok tt
             else if ls z =? 1 then Err E_NonZeroedLeadByte else Err E_NonZeroedLeadBytes) ;;
        raw <- slice trim ((cs_of z + 1) * 3 / 4 + ls z) (len trim) ;;
        Ok (Mat hard size raw))) = Panic -> full * 3 / 4 < (cs_of z + 1) * 3 / 4 + ls z /\ full * 3 / 4 <= len b).
  { intros size full Ef Hf27 Hf4 Hcf G. rewrite add32_ok in G by (unfold U32; npow; lia). cbn [obind] in G.
    rewrite mul32_ok in G by (unfold U32; npow; lia). cbn [obind] in G. replace ((full + 1) * 3 / 4) with (full * 3 / 4) in G by lia.
    destruct (len b <? full * 3 / 4) eqn:Elf; [discriminate|]. split; [|lia].
    rewrite slice_prefix in G by lia. cbn [obind] in G.
    assert (Hlt : len (take (full * 3 / 4) b) = full * 3 / 4) by (rewrite len_take; lia).
    apply bind_panic in G as [G|[[] [_ G]]].
    - exfalso. destruct (negb (cs_of z mod 4 =? 0)) eqn:E0.
      + unfold index_at in G. destruct (nth_error _ _) eqn:En; cbn [obind] in G.
        * destruct (negb (n mod _ =? 0)); discriminate.
        * apply nth_error_None in En. unfold len in Hlt. lia.
      + destruct (forallb _ _); [discriminate|]. destruct (ls z =? 1); discriminate.
    - apply bind_panic in G as [G|[? [_ G]]]; [|discriminate].
      destruct (N.lt_ge_cases (full * 3 / 4) ((cs_of z + 1) * 3 / 4 + ls z)) as [|Hge]; auto.
      exfalso. rewrite slice_to_end in G by lia. discriminate. }
  destruct (variable z) eqn:V.
  - destruct (zf_var _ _ Z V) as [Hm [Hs [Hhs Hfs]]]. rewrite Hm in H. change (0 =? 0) with true in H. cbn [negb] in H. cbv iota in H.
    destruct (len b <? (cs_of z + 1) * 3 / 4) eqn:Hlc; [discriminate|].
    rewrite code_b2_to_b64_ok in H by (auto; lia). cbn [obind] in H.
    set (both := map chr64 (take (cs_of z) (sextets b))) in *.
    assert (Hst : Forall (fun s => s < 64) (take (cs_of z) (sextets b))).
    { pose proof (sextets_lt _ Hok) as F. rewrite <- (take_drop_id (cs_of z) (sextets b)) in F. apply Forall_app in F. tauto. }
    assert (Hball : all_b64 both = true) by (apply all_b64_chr; auto).
    assert (Hbl : len both = cs_of z) by (unfold both; rewrite len_map, len_take, len_sextets; lia).
    rewrite str_slice_ascii in H by (auto using all_b64_ascii; unfold cs_of in *; lia). cbn [obind] in H.
    set (soft := take (cs_of z - hs z) (drop (hs z) both)) in *.
    assert (Hsl : len soft = ss z) by (unfold soft; rewrite len_take, len_drop, Hbl; unfold cs_of in *; lia).
    assert (Hsb : all_b64 soft = true) by (apply forallb_take, forallb_drop; auto).
    rewrite b64_to_u32_all in H by (auto; lia). cbn [obind] in H.
    pose proof (val64_lt soft) as Hv. rewrite Hsl in Hv.
    assert (Hv4 : val 64 (ords soft) < 64 ^ 4).
    { eapply N.lt_le_trans; [exact Hv|]. apply N.pow_le_mono_r; lia. }
    rewrite mul32_ok in H by (unfold U32; npow; lia). cbn [obind] in H.
    rewrite add32_ok in H by (unfold U32; npow; lia). cbn [obind] in H.
    rewrite Hm in Hend. apply Hend in H; [|unfold full_of; rewrite V; reflexivity|npow; lia|lia|lia].
    destruct H as [H1 H2].
    assert (Hz0 : val 64 (ords soft) = 0) by (pose proof (zf_ls _ _ Z); lia).
    assert (Hlz : 0 < ls z) by lia.
    assert (Eso : soft = rep 65 (ss z)).
    { pose proof Hz0 as X. apply val_rep0_inv in X; [|lia]. rewrite len_ords, Hsl in X.
      rewrite <- (chr_ords _ Hsb), X. unfold rep. clear. induction (N.to_nat (ss z)) as [|n IH]; [reflexivity|]. cbn [repeat map]. rewrite IH. reflexivity. }
    assert (Eboth : both = hard ++ rep 65 (ss z)).
    { rewrite <- Eso. unfold soft, hard. rewrite <- take_map. rewrite <- (take_drop_id (hs z) both) at 1. f_equal.
      - unfold both. rewrite take_map, take_take. rewrite take_map. f_equal. f_equal. unfold cs_of; lia.
      - rewrite take_all; auto. rewrite len_drop. lia. }
    pose proof (zero_head_ok _ _ Ez V Hlz) as Hin. rewrite <- Eboth in Hin.
    destruct (b64_decode_all both Hball ltac:(lia)) as [hb [Hhb _]].
    exists both, hb, (drop (cs_of z * 3 / 4) b). split; [auto|split; [auto|]].
    rewrite <- (take_drop_id (cs_of z * 3 / 4) b) at 1. f_equal.
    pose proof (b64_decode_inv _ _ Hhb) as [Hokh Heh].
    assert (Hlk : len (take (cs_of z * 3 / 4) b) = cs_of z * 3 / 4) by (rewrite len_take; lia).
    apply b64_encode_inj; auto using bytes_ok_take.
    rewrite Heh. rewrite b64_encode_full by lia. unfold both. f_equal.
    rewrite <- (take_drop_id (cs_of z * 3 / 4) b) at 2. rewrite sextets_app by lia.
    symmetry. apply take_app_exact. rewrite len_sextets, Hlk. lia.
  - destruct (zf_fix _ _ Z V) as [Hs [? [? [? [? [? ?]]]]]]. cbn [obind] in H.
    apply Hend in H; [|unfold full_of; rewrite V; reflexivity|npow; lia|lia|lia]. exfalso. lia.
Qed.

Lemma bexfil_zero_head h hb r : In h zero_heads -> b64_decode h = Ok hb -> bytes_ok r = true -> matter_bexfil (hb ++ r) = Panic.
Proof.
  intros Hin Hd Hokr. destruct (zero_head_inv _ Hin) as [code [z [Hz [V [L Eh]]]]].
  pose proof (get_sizage_zfacts _ _ Hz) as Z. destruct (zf_var _ _ Z V) as [Hm [Hs [Hhs Hfs]]].
  pose proof (zf_hs1 _ _ Z) as Hh1. pose proof (zf_cs8 _ _ Z) as Hc8. pose proof (zf_hs4 _ _ Z) as Hh4.
  assert (Hah : all_b64 h = true). { rewrite Eh, all_b64_app, (zf_b64 _ _ Z). apply forallb_rep. reflexivity. }
  assert (Hlh : len h = cs_of z) by (rewrite Eh, len_app, len_rep, (zf_len _ _ Z); reflexivity).
  destruct (b64_decode_all_inv _ _ Hah Hd) as [Hb3 Hlhb]. pose proof (b64_decode_inv _ _ Hd) as [Hokh Heh].
  set (b := hb ++ r). assert (Hok : bytes_ok b = true) by (unfold b; rewrite bytes_ok_app, Hokh; auto).
  assert (Hlb : len b = len hb + len r) by (unfold b; apply len_app).
  assert (Hcs : cs_of z = hs z + ss z) by reflexivity.
  assert (Hsx : sextets b = ords h ++ sextets r).
  { unfold b. rewrite sextets_app by auto. f_equal. rewrite <- Heh, b64_encode_full by auto. rewrite ords_chr; auto. apply sextets_lt; auto. }
  assert (Htk : forall k, k <= cs_of z -> map chr64 (take k (sextets b)) = take k h).
  { intros k Hk. rewrite <- take_map, Hsx, map_app, chr_ords by auto. rewrite take_app, Hlh.
    replace (k - cs_of z) with 0 by lia. rewrite take_0, app_nil_r. reflexivity. }
  destruct (zf_first _ _ Z) as [c [cr [i [Ec [Hh [Hi Hbd]]]]]].
  unfold matter_bexfil. destruct b as [|b0 bt] eqn:Eb.
  { exfalso. change (len (@nil N)) with 0 in Hlb. lia. }
  rewrite <- Eb in *. clear Eb b0 bt.
  rewrite nab_sextets_ok by (auto; try lia; change ((1 + 1) * 3 / 4) with 1; lia). cbn [obind].
  assert (Ef : index_at (take 1 (sextets b)) 0 = Ok i).
  { assert (E1 : map chr64 (take 1 (sextets b)) = [c]).
    { rewrite Htk by lia. rewrite Eh, Ec. reflexivity. }
    destruct (take 1 (sextets b)) as [|i' [|? ?]] eqn:E; try discriminate.
    cbn [map] in E1. injection E1 as E1.
    assert (i' < 64). { pose proof (sextets_lt _ Hok) as F. rewrite <- (take_drop_id 1 (sextets b)) in F. rewrite E in F. inversion F; auto. }
    rewrite <- E1 in Hi. rewrite ord64_chr64 in Hi by auto. injection Hi as ->. reflexivity. }
  rewrite Ef. cbn [obind]. rewrite Hbd. cbn [obind].
  replace (len b <? (hs z * 3 + 3) / 4) with false by lia.
  rewrite code_b2_to_b64_ok by (auto; lia). cbn [obind]. rewrite Htk by lia.
  assert (Etk : take (hs z) h = code) by (rewrite Eh; apply take_app_exact; apply (zf_len _ _ Z)).
  rewrite Etk, Hz. cbn [obind]. change (fs z =? u32_max) with (variable z). rewrite V. rewrite <- Hcs, Hm.
  change (0 =? 0) with true. cbn [negb]. cbv iota. replace (len b <? (cs_of z + 1) * 3 / 4) with false by lia.
  rewrite code_b2_to_b64_ok by (auto; lia). cbn [obind]. rewrite Htk by lia. rewrite (take_all (cs_of z)) by lia.
  rewrite str_slice_ascii by (auto using all_b64_ascii; lia). cbn [obind].
  assert (Es : take (cs_of z - hs z) (drop (hs z) h) = rep 65 (ss z)).
  { rewrite Eh. rewrite drop_app_exact by apply (zf_len _ _ Z). apply take_all. rewrite len_rep. lia. }
  rewrite Es. rewrite b64_to_u32_all; [|apply forallb_rep; reflexivity|rewrite len_rep; lia]. cbn [obind].
  assert (Ev : val 64 (ords (rep 65 (ss z))) = 0).
  { rewrite <- (soft_zero z). unfold soft_of. rewrite ords_chr by (apply digits_lt; lia). apply digits_small; [lia|].
    apply N.neq_0_lt_0, N.pow_nonzero. lia. }
  rewrite Ev. change (mul32 0 4) with (Ok 0). cbn [obind].
  rewrite add32_ok by (unfold U32; npow; lia). cbn [obind]. rewrite N.add_0_l.
  rewrite add32_ok by (unfold U32; npow; lia). cbn [obind]. rewrite mul32_ok by (unfold U32; npow; lia). cbn [obind].
  replace (len b <? (cs_of z + 1) * 3 / 4) with false by lia. rewrite slice_prefix by lia. cbn [obind].
  assert (Hl3 : len (take ((cs_of z + 1) * 3 / 4) b) = (cs_of z + 1) * 3 / 4) by (rewrite len_take; lia).
  unfold slice. rewrite Hl3.
  match goal with |- context [forallb ?f ?l] => replace l with (@nil N) end.
  2:{ symmetry. apply len_zero. rewrite len_drop, len_take, Hl3. lia. }
  cbn [forallb obind]. replace ((cs_of z + 1) * 3 / 4 + ls z <=? (cs_of z + 1) * 3 / 4) with false by lia. reflexivity.
Qed.
End Agree.
