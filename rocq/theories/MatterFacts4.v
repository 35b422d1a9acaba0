(** Exactly which texts make the Matter text parser panic. *)
From Verif Require Import Base BaseFacts Utf8 B64 B64Facts Util UtilFacts MatterTables Matter MatterFacts MatterFacts2 MatterFacts3 Spec SpecFacts.

Section P.
Context `{P : Profile}.

(** payload step of the text parser *)
Definition payload (z : sizage) (tl : bytes) : outcome bytes :=
  let ps := cs_of z mod 4 in
  if negb (ps =? 0) then
    paw <- b64_decode (rep 65 ps ++ tl) ;;
    pre <- slice paw 0 ps ;;
    if negb (read_int pre mod 2 ^ (2 * ps) =? 0) then Err E_Prepad else slice paw ps (len paw)
  else
    paw <- b64_decode tl ;;
    pre <- slice paw 0 (ls z) ;;
    if negb (read_int pre =? 0) then (if ls z =? 1 then Err E_NonZeroedLeadByte else Err E_NonZeroedLeadBytes)
    else slice paw (ls z) (len paw).

Definition body (t code : bytes) (z : sizage) (size f : N) : outcome matter :=
  if len t <? f then Err E_Shortage
  else if boundary t f then raw <- payload z (drop (cs_of z) (take f t)) ;; Ok (Mat code size raw) else Panic.

Definition rest (t code : bytes) (z : sizage) : outcome matter :=
  if variable z then
    if len t <? cs_of z then Err E_Shortage
    else if boundary t (cs_of z) then
      if all_b64 (take (ss z) (drop (hs z) t)) then
        let size := val 64 (ords (take (ss z) (drop (hs z) t))) in body t code z size (size * 4 + cs_of z)
      else Err E_InvalidBase64Character
    else Panic
  else body t code z 0 (fs z).

Lemma str_slice_if s b : str_slice s 0 b = if boundary s b then Ok (take b s) else Panic.
Proof.
  unfold str_slice. rewrite boundary_0. replace (0 <=? b) with true by lia. cbn [andb]. rewrite N.sub_0_r, drop_0. reflexivity.
Qed.
Lemma boundary_take t k f : boundary t k = true -> k <= f -> boundary (take f t) k = true.
Proof.
  intros H Hk. pose proof (boundary_le _ _ H) as Hl. destruct (N.eq_dec k f) as [->|Hn].
  - replace (f) with (len (take f t)) at 2; [apply boundary_len|]. rewrite len_take. lia.
  - unfold boundary in *. rewrite nth_error_take by lia. destruct (nth_error t (N.to_nat k)) eqn:E; [exact H|].
    apply nth_error_None in E. rewrite len_take. unfold len in *. lia.
Qed.

Lemma exfil_rest t c r h : t = c :: r -> hardage c = Ok h ->
  matter_exfil t = if len t <? h then Err E_Shortage
    else if boundary t h then z <- get_sizage (take h t) ;; rest t (take h t) z else Panic.
Proof.
  intros Et Hh. unfold matter_exfil. rewrite Et at 1. rewrite Hh. cbn [obind].
  destruct (len t <? h) eqn:El; [reflexivity|]. rewrite str_slice_if. destruct (boundary t h) eqn:B; [|reflexivity]. cbn [obind].
  destruct (get_sizage (take h t)) as [z| |] eqn:Ez; try reflexivity. cbn [obind].
  pose proof (get_sizage_zfacts _ _ Ez) as Z.
  assert (Hhs : h = hs z). { rewrite <- (zf_len _ _ Z), len_take. lia. } subst h. pose proof (zf_cs8 _ _ Z) as H8.
  change (fs z =? u32_max) with (variable z). change (hs z + ss z) with (cs_of z). unfold rest.
  assert (Hbody : forall size f, boundary t (cs_of z) = true -> cs_of z <= f ->
    (if len t <? f then Err E_Shortage
     else trim <- str_slice t 0 f;;
       raw <- (if negb (cs_of z mod 4 =? 0) then
             tail <- str_slice trim (cs_of z) (len trim) ;;
             paw <- b64_decode (rep 65 (cs_of z mod 4) ++ tail) ;;
             pre <- slice paw 0 (cs_of z mod 4) ;;
             if negb (read_int pre mod 2 ^ (2 * (cs_of z mod 4)) =? 0) then Err E_Prepad
             else slice paw (cs_of z mod 4) (len paw)
           else
             tail <- str_slice trim (cs_of z) (len trim) ;;
             paw <- b64_decode tail ;;
             pre <- slice paw 0 (ls z) ;;
             if negb (read_int pre =? 0) then
               (if ls z =? 1 then Err E_NonZeroedLeadByte else Err E_NonZeroedLeadBytes)
             else slice paw (ls z) (len paw)) ;;
        Ok {| m_code := take (hs z) t; m_size := size; m_raw := raw |}) = body t (take (hs z) t) z size f).
  { intros size f Hb Hf. unfold body, payload. destruct (len t <? f) eqn:Elf; [reflexivity|]. rewrite str_slice_if.
    destruct (boundary t f) eqn:Bf; [|reflexivity]. cbn [obind].
    assert (Hlt : len (take f t) = f) by (rewrite len_take; lia). rewrite Hlt.
    assert (Es : str_slice (take f t) (cs_of z) f = Ok (drop (cs_of z) (take f t))).
    { rewrite str_slice_ok; [|exact Hf|apply boundary_take; auto|rewrite <- Hlt at 2; apply boundary_len].
      rewrite take_all by (rewrite len_drop, Hlt; lia). reflexivity. }
    rewrite Es. cbn [obind]. reflexivity. }
  destruct (variable z) eqn:V.
  - destruct (zf_var _ _ Z V) as [Hm [Hs [Hhs Hfs]]]. rewrite Hm at 1. change (negb (0 =? 0)) with false. cbv iota.
    destruct (len t <? cs_of z) eqn:Elc; [reflexivity|]. unfold str_slice at 1. rewrite B.
    replace (hs z <=? cs_of z) with true by (unfold cs_of; lia). cbn [andb].
    destruct (boundary t (cs_of z)) eqn:Bc; [|reflexivity]. cbn [obind]. replace (cs_of z - hs z) with (ss z) by (unfold cs_of; lia).
    set (soft := take (ss z) (drop (hs z) t)) in *.
    assert (Hsl : len soft = ss z) by (unfold soft; rewrite len_take, len_drop; unfold cs_of in *; lia).
    destruct (all_b64 soft) eqn:Hb.
    2:{ unfold b64_to_u32. rewrite b64_to_uint_bad by auto. reflexivity. }
    rewrite b64_to_u32_all by (auto; lia). cbn [obind].
    pose proof (val64_lt soft) as Hv. rewrite Hsl in Hv.
    assert (Hv4 : val 64 (ords soft) < 64 ^ 4).
    { eapply N.lt_le_trans; [exact Hv|]. apply N.pow_le_mono_r; lia. }
    rewrite mul32_ok by (unfold U32; npow; lia). cbn [obind].
    rewrite add32_ok by (unfold U32; npow; lia). cbn [obind]. apply Hbody; auto. lia.
  - destruct (zf_fix _ _ Z V) as [Hs [? [? ?]]]. cbn [obind]. apply Hbody; [|lia].
    replace (cs_of z) with (hs z) by (unfold cs_of; lia). auto.
Qed.

(** one decoded byte only: two characters and two '=' *)
Definition one_byte (tl : bytes) : Prop := exists c1 c2, tl = [c1; c2; 61; 61] /\ In c1 b64_alphabet /\ In c2 (s2b "AQgw").

Lemma ord_mod16 c : (exists s, ord64 c = Some s /\ s mod 16 = 0) <-> In c (s2b "AQgw").
Proof.
  split.
  - intros [s [E Hs]]. pose proof (ord64_lt _ _ E). apply chr64_ord64 in E. subst c.
    assert (s = 0 \/ s = 16 \/ s = 32 \/ s = 48) as [ | [ | [ | ]]] by lia; subst s; vm_compute; tauto.
  - intros H. cbn in H. destruct H as [<-|[<-|[<-|[<-|[]]]]]; eexists; (split; [vm_compute; reflexivity|reflexivity]).
Qed.
Lemma decode_one tl paw : b64_decode tl = Ok paw -> len paw = 1 -> one_byte tl.
Proof.
  intros H Hl. destruct tl as [|c1 [|c2 [|c3 [|c4 r]]]]; try discriminate.
  - injection H as <-. discriminate.
  - cbn [b64_decode] in H. destruct (ord64 c1) as [s1|] eqn:E1; [|discriminate].
    destruct (ord64 c2) as [s2|] eqn:E2; [|discriminate].
    destruct (ord64 c3) as [s3|]; destruct (ord64 c4) as [s4|]; try discriminate.
    + inv_bind H rest0 Er. injection H as <-. rewrite !len_cons in Hl. lia.
    + destruct (_ && _); [injection H as <-; discriminate|discriminate].
    + destruct ((c3 =? pad_char) && (c4 =? pad_char) && (s2 mod 16 =? 0) && (len r =? 0)) eqn:E; [|discriminate].
      splitb E. assert (Hr : r = []) by (apply len_zero; lia). unfold pad_char in *. assert (c3 = 61) by lia. assert (c4 = 61) by lia. subst.
      exists c1, c2. split; [reflexivity|]. split.
      * apply is_b64_In. unfold is_b64. rewrite E1. reflexivity.
      * apply ord_mod16. exists s2. split; auto. lia.
Qed.
Lemma one_byte_decode tl : one_byte tl -> exists b, b64_decode tl = Ok [b].
Proof.
  intros [c1 [c2 [-> [H1 H2]]]]. apply is_b64_In in H1. unfold is_b64 in H1. destruct (ord64 c1) as [s1|] eqn:E1; [|discriminate].
  apply ord_mod16 in H2 as [s2 [E2 H2]]. exists (s1 * 4 + s2 / 16). cbn [b64_decode]. rewrite E1, E2.
  change (ord64 61) with (@None N). cbv beta iota. rewrite H2. reflexivity.
Qed.

Lemma decode_len tl paw : b64_decode tl = Ok paw -> len tl mod 4 = 0 /\ len tl * 3 / 4 <= len paw + 2 /\ len paw <= len tl * 3 / 4 /\ (len tl = 0 <-> len paw = 0).
Proof.
  intros H. apply b64_decode_inv in H as [_ H]. rewrite <- H, len_b64_encode. split; [lia|]. split; [lia|]. split; lia.
Qed.

Lemma payload_panic z code tl : get_sizage code = Ok z -> (cs_of z mod 4 + len tl) mod 4 = 0 -> (cs_of z mod 4 <> 0 -> 2 < len tl) ->
  (payload z tl = Panic <-> (0 < ls z /\ tl = []) \/ (ls z = 2 /\ one_byte tl)).
Proof.
  intros Hz Hm Hp. pose proof (get_sizage_zfacts _ _ Hz) as Z. pose proof (zf_cs3 _ _ Z) as Hc3. pose proof (zf_cs_ls _ _ Z) as Hcl.
  pose proof (zf_ls _ _ Z) as Hl2. unfold payload. destruct (N.eqb_spec (cs_of z mod 4) 0) as [E0|E0]; cbn [negb].
  - split.
    + intros H. apply bind_panic in H as [H|[paw [Hd H]]]; [exfalso; eapply b64_decode_not_panic; eauto|].
      destruct (decode_len _ _ Hd) as [Hm4 [L1 [L2 L3]]].
      destruct (ls z <=? len paw) eqn:E.
      * exfalso. rewrite slice_prefix in H by lia. cbn [obind] in H. destruct (negb _); [destruct (ls z =? 1); discriminate|].
        rewrite slice_to_end in H by lia. discriminate.
      * destruct (N.eq_dec (len paw) 0) as [Ep|Ep].
        -- left. split; [lia|]. apply len_zero, L3. auto.
        -- right. split; [lia|]. eapply decode_one; eauto. lia.
    + intros [[Hl ->]|[Hl Ho]].
      * cbn [b64_decode obind]. unfold slice. change (len (@nil N)) with 0. replace (ls z <=? 0) with false by lia. rewrite andb_false_r. reflexivity.
      * destruct (one_byte_decode _ Ho) as [b ->]. cbn [obind]. unfold slice. change (len [b]) with 1. rewrite Hl. reflexivity.
  - split.
    + intros H. apply bind_panic in H as [H|[paw [Hd H]]]; [exfalso; eapply b64_decode_not_panic; eauto|].
      destruct (decode_len _ _ Hd) as [Hm4 [L1 [L2 L3]]]. rewrite len_app, len_rep in *. specialize (Hp E0).
      exfalso. rewrite slice_prefix in H by lia. cbn [obind] in H. destruct (negb _); [discriminate|].
      rewrite slice_to_end in H by lia. discriminate.
    + intros [[Hl _]|[Hl _]]; lia.
Qed.

Lemma fixed_tail code z : get_sizage code = Ok z -> variable z = false -> cs_of z mod 4 <> 0 -> 2 < fs z - cs_of z.
Proof.
  intros H V E. apply get_sizage_In in H.
  assert (X : forallb (fun e => variable (snd e) || (cs_of (snd e) mod 4 =? 0) || (2 <? fs (snd e) - cs_of (snd e))) sizage_table = true) by (vm_compute; reflexivity).
  eapply forallb_forall in X; eauto. cbn [snd] in X. rewrite V in X. lia.
Qed.
End P.

(** the texts with two lead bytes and one quadlet *)
Definition short_heads : list bytes := [s2b "3AAA"; s2b "6AAB"; s2b "6BAB"; s2b "9AAAAAAB"; s2b "9AABAAAB"].

Definition panic_text (t : bytes) : Prop :=
  (exists c r h, t = c :: r /\ hardage c = Ok h /\ inside t h) \/
  (exists code z, get_sizage code = Ok z /\ variable z = false /\ is_prefix code t /\ inside t (fs z)) \/
  (exists code z, get_sizage code = Ok z /\ variable z = true /\ is_prefix code t /\
     (inside t (cs_of z) \/ exists n, n < 64 ^ ss z /\ take (ss z) (drop (hs z) t) = soft_of z n /\ inside t (n * 4 + cs_of z))) \/
  (exists h, In h zero_heads /\ is_prefix h t) \/
  (exists h c1 c2, In h short_heads /\ In c1 b64_alphabet /\ In c2 (s2b "AQgw") /\ is_prefix (h ++ [c1; c2; 61; 61]) t).

Lemma short_head_inv h : In h short_heads -> exists code z, get_sizage code = Ok z /\ ls z = 2 /\
   (if variable z then h = code ++ soft_of z 1 else h = code /\ fs z = 8 /\ cs_of z = 4).
Proof.
  intros H. cbn in H.
  destruct H as [<-|[<-|[<-|[<-|[<-|[]]]]]].
  - exists (s2b "3AAA"), (Sz 4 0 8 2). split; [reflexivity|]. vm_compute. auto.
  - exists (s2b "6A"), (Sz 2 2 u32_max 2). split; [reflexivity|]. vm_compute. auto.
  - exists (s2b "6B"), (Sz 2 2 u32_max 2). split; [reflexivity|]. vm_compute. auto.
  - exists (s2b "9AAA"), (Sz 4 4 u32_max 2). split; [reflexivity|]. vm_compute. auto.
  - exists (s2b "9AAB"), (Sz 4 4 u32_max 2). split; [reflexivity|]. vm_compute. auto.
Qed.
Lemma short_head_var code z : get_sizage code = Ok z -> variable z = true -> ls z = 2 -> In (code ++ soft_of z 1) short_heads.
Proof.
  intros H V L. apply get_sizage_In in H.
  assert (E : forallb (fun e => negb (variable (snd e)) || negb (2 =? ls (snd e)) || mem_code (fst e ++ soft_of (snd e) 1) short_heads) sizage_table = true) by (vm_compute; reflexivity).
  eapply forallb_forall in E; eauto. cbn [fst snd] in E. rewrite V, L in E. cbn in E.
  apply mem_code_In. exact E.
Qed.
Lemma short_head_fix code z : get_sizage code = Ok z -> variable z = false -> ls z = 2 -> In code short_heads.
Proof.
  intros H V L. apply get_sizage_In in H.
  assert (E : forallb (fun e => (variable (snd e)) || negb (2 =? ls (snd e)) || mem_code (fst e) short_heads) sizage_table = true) by (vm_compute; reflexivity).
  eapply forallb_forall in E; eauto. cbn [fst snd] in E. rewrite V, L in E. cbn in E.
  apply mem_code_In. exact E.
Qed.

Lemma inside_len t k : inside t k -> k < len t.
Proof. intros [c [Hc _]]. assert (N.to_nat k < length t)%nat by (apply nth_error_Some; congruence). unfold len. lia. Qed.
Lemma inside_boundary t k : k <> 0 -> k <= len t -> boundary t k = false <-> inside t k.
Proof. intros H0 Hl. rewrite boundary_false_iff by auto. split; [intros [X|X]; [lia|auto]|auto]. Qed.

Section Q.
Context `{P : Profile}.

(** parsing below a known code *)
Lemma exfil_code t code z : get_sizage code = Ok z -> is_prefix code t ->
  matter_exfil t = if boundary t (hs z) then rest t code z else Panic.
Proof.
  intros Hz Hp. pose proof (get_sizage_zfacts _ _ Hz) as Z. destruct (zf_first _ _ Z) as [c [r [i [Ec [Hh _]]]]].
  apply is_prefix_take in Hp as [E Hl]. rewrite (zf_len _ _ Z) in *.
  assert (Et : exists r', t = c :: r').
  { destruct t as [|c' t']; [rewrite take_nil in E; congruence|]. exists t'. f_equal.
    pose proof (zf_hs1 _ _ Z). replace (hs z) with (1 + (hs z - 1)) in E by lia. rewrite take_cons, Ec in E. congruence. }
  destruct Et as [r' Et]. rewrite (exfil_rest t c r' (hs z) Et Hh). replace (len t <? hs z) with false by lia.
  rewrite E, Hz. cbn [obind]. reflexivity.
Qed.

Lemma soft_take t z n : n < 64 ^ ss z -> take (ss z) (drop (hs z) t) = soft_of z n ->
  all_b64 (take (ss z) (drop (hs z) t)) = true /\ val 64 (ords (take (ss z) (drop (hs z) t))) = n.
Proof.
  intros Hn E. rewrite E. unfold soft_of. split; [apply all_b64_chr, digits_lt; lia|].
  rewrite ords_chr by (apply digits_lt; lia). apply digits_small; [lia|]. rewrite N2Nat.id. auto.
Qed.

Lemma exfil_panic_all t : matter_exfil t = Panic <-> panic_text t.
Proof.
  split.
  - intros H. destruct t as [|c r] eqn:Et; [discriminate|]. rewrite <- Et in *.
    destruct (hardage c) as [h|e|] eqn:Hh.
    2,3: unfold matter_exfil in H; rewrite Et in H at 1; rewrite Hh in H; discriminate || (exfalso; eapply hardage_not_panic; eauto).
    rewrite (exfil_rest t c r h Et Hh) in H. destruct (len t <? h) eqn:El; [discriminate|].
    assert (Hh0 : h <> 0) by (apply hardage_vals in Hh; lia).
    destruct (boundary t h) eqn:B.
    2:{ left. exists c, r, h. split; auto. split; auto. apply inside_boundary; auto. lia. }
    apply bind_panic in H as [H|[z [Hz H]]]; [exfalso; eapply get_sizage_not_panic; eauto|].
    pose proof (get_sizage_zfacts _ _ Hz) as Z.
    assert (Hhs : h = hs z). { rewrite <- (zf_len _ _ Z), len_take. lia. } subst h.
    assert (Hpre : is_prefix (take (hs z) t) t) by (exists (drop (hs z) t); symmetry; apply take_drop_id).
    pose proof (zf_cs8 _ _ Z) as H8. remember (take (hs z) t) as code eqn:Ecode.
    assert (Hcode : code ++ take (ss z) (drop (hs z) t) = take (cs_of z) t).
    { subst code. replace (ss z) with (cs_of z - hs z) by (unfold cs_of; lia). apply take_drop_take. unfold cs_of; lia. }
    unfold rest in H. destruct (variable z) eqn:V.
    + destruct (zf_var _ _ Z V) as [Hm [Hs [Hhs Hfs]]]. destruct (len t <? cs_of z) eqn:Elc; [discriminate|].
      right. right.
      destruct (boundary t (cs_of z)) eqn:Bc.
      2:{ left. exists code, z. split; auto. split; auto. split; auto. left. apply inside_boundary; auto; lia. }
      set (soft := take (ss z) (drop (hs z) t)) in *. destruct (all_b64 soft) eqn:Hb; [|discriminate].
      assert (Hsl : len soft = ss z) by (unfold soft; rewrite len_take, len_drop; unfold cs_of in *; lia).
      pose proof (val64_lt soft) as Hv. rewrite Hsl in Hv. cbv zeta in H. unfold body in H.
      assert (Hsr : soft = soft_of z (val 64 (ords soft))) by (symmetry; apply soft_roundtrip; auto; lia).
      remember (val 64 (ords soft)) as n eqn:En. destruct (len t <? n * 4 + cs_of z) eqn:Elf; [discriminate|].
      destruct (boundary t (n * 4 + cs_of z)) eqn:Bf.
      2:{ left. exists code, z. split; auto. split; auto. split; auto. right. exists n. split; auto. split; auto. apply inside_boundary; auto; lia. }
      right. apply bind_panic in H as [H|[? [? H]]]; [|discriminate].
      assert (Hltl : len (drop (cs_of z) (take (n * 4 + cs_of z) t)) = n * 4) by (rewrite len_drop, len_take; lia).
      apply (payload_panic z code) in H; [|auto|rewrite Hltl; lia|lia].
      destruct H as [[Hls E]|[Hls [c1 [c2 [E [Hc1 Hc2]]]]]].
      * left. assert (n = 0) by (rewrite E in Hltl; change (len (@nil N)) with 0 in Hltl; lia). subst n.
        exists (code ++ rep 65 (ss z)). split; [apply zero_head_ok; auto|]. rewrite <- soft_zero. rewrite H in Hsr. rewrite <- Hsr, Hcode.
        exists (drop (cs_of z) t). symmetry. apply take_drop_id.
      * right. rewrite E in Hltl. change (len [c1; c2; 61; 61]) with 4 in Hltl. assert (n = 1) by lia. rewrite H in *.
        exists (code ++ soft_of z 1), c1, c2. split; [apply short_head_var; auto|]. split; auto. split; auto.
        rewrite <- E, <- Hsr, Hcode. exists (drop (1 * 4 + cs_of z) t). rewrite drop_take, take_drop_take by lia. symmetry. apply take_drop_id.
    + destruct (zf_fix _ _ Z V) as [Hs [H4 [Hcf [H124 [Hlz [Hq Hq4]]]]]]. unfold body in H.
      destruct (len t <? fs z) eqn:Elf; [discriminate|].
      destruct (boundary t (fs z)) eqn:Bf.
      2:{ right. left. exists code, z. split; auto. split; auto. split; auto. apply inside_boundary; auto; lia. }
      apply bind_panic in H as [H|[? [? H]]]; [|discriminate].
      assert (Hltl : len (drop (cs_of z) (take (fs z) t)) = fs z - cs_of z) by (rewrite len_drop, len_take; lia).
      apply (payload_panic z code) in H; [|auto|rewrite Hltl; clear - Hq4; rewrite N.add_comm; auto|rewrite Hltl; intros; apply (fixed_tail code); auto].
      right. right. right. destruct H as [[Hls E]|[Hls [c1 [c2 [E [Hc1 Hc2]]]]]].
      * exfalso. rewrite E in Hltl. change (len (@nil N)) with 0 in Hltl. lia.
      * right. exists code, c1, c2. split; [apply (short_head_fix _ z); auto|]. split; auto. split; auto.
        rewrite <- E. subst code. replace (hs z) with (cs_of z) by (unfold cs_of; lia).
        exists (drop (fs z) t). rewrite drop_take, take_drop_take by lia. symmetry. apply take_drop_id.
  - intros [H|[H|[H|[H|H]]]].
    + destruct H as [c [r [h [Et [Hh Hi]]]]]. rewrite (exfil_rest t c r h Et Hh). pose proof (inside_len _ _ Hi) as Hl.
      replace (len t <? h) with false by lia. assert (Hh0 : h <> 0) by (apply hardage_vals in Hh; lia).
      apply inside_boundary in Hi; [|auto|lia]. rewrite Hi. reflexivity.
    + destruct H as [code [z [Hz [V [Hp Hi]]]]]. rewrite (exfil_code t code z Hz Hp). destruct (boundary t (hs z)); [|reflexivity].
      unfold rest, body. rewrite V. pose proof (inside_len _ _ Hi) as Hl. replace (len t <? fs z) with false by lia.
      pose proof (get_sizage_zfacts _ _ Hz) as Z. destruct (zf_fix _ _ Z V) as [Hs [H4 [Hcf _]]].
      apply inside_boundary in Hi; [|lia|lia]. rewrite Hi. reflexivity.
    + destruct H as [code [z [Hz [V [Hp Hi]]]]]. rewrite (exfil_code t code z Hz Hp). destruct (boundary t (hs z)); [|reflexivity].
      unfold rest. rewrite V. pose proof (get_sizage_zfacts _ _ Hz) as Z. pose proof (zf_cs8 _ _ Z) as H8.
      destruct Hi as [Hi|[n [Hn [Es Hi]]]].
      * pose proof (inside_len _ _ Hi) as Hl. replace (len t <? cs_of z) with false by lia. apply inside_boundary in Hi; [|lia|lia]. rewrite Hi. reflexivity.
      * pose proof (inside_len _ _ Hi) as Hl. replace (len t <? cs_of z) with false by lia. destruct (boundary t (cs_of z)); [|reflexivity].
        destruct (soft_take _ _ _ Hn Es) as [Ha Hv]. rewrite Ha, Hv. cbv zeta. unfold body. replace (len t <? n * 4 + cs_of z) with false by lia.
        apply inside_boundary in Hi; [|lia|lia]. rewrite Hi. reflexivity.
    + destruct H as [h [Hin [r Et]]]. destruct (zero_head_inv _ Hin) as [code [z [Hz [V [L Eh]]]]].
      assert (Hp : is_prefix code t) by (exists (rep 65 (ss z) ++ r); rewrite app_assoc, <- Eh; auto).
      rewrite (exfil_code t code z Hz Hp). destruct (boundary t (hs z)); [|reflexivity].
      pose proof (get_sizage_zfacts _ _ Hz) as Z. pose proof (zf_cs8 _ _ Z) as H8. destruct (zf_var _ _ Z V) as [Hm _].
      assert (Hlh : len h = cs_of z) by (rewrite Eh, len_app, len_rep, (zf_len _ _ Z); reflexivity).
      assert (Hlt : cs_of z <= len t) by (rewrite Et, len_app; lia).
      unfold rest. rewrite V. replace (len t <? cs_of z) with false by lia. destruct (boundary t (cs_of z)) eqn:Bc; [|reflexivity].
      assert (Es : take (ss z) (drop (hs z) t) = soft_of z 0).
      { rewrite soft_zero, Et, Eh, <- app_assoc, drop_app_exact by apply (zf_len _ _ Z). apply take_app_exact, len_rep. }
      destruct (soft_take t z 0) as [Ha Hv]; [apply N.neq_0_lt_0, N.pow_nonzero; lia|exact Es|]. rewrite Ha, Hv. cbv zeta. unfold body.
      rewrite N.mul_0_l, N.add_0_l, Bc. replace (len t <? cs_of z) with false by lia.
      rewrite (drop_all (cs_of z)) by (rewrite len_take; lia).
      assert (X : payload z [] = Panic) by (apply (payload_panic z code); [auto|change (len (@nil N)) with 0; lia|lia|left; auto]).
      rewrite X. reflexivity.
    + destruct H as [h [c1 [c2 [Hin [Hc1 [Hc2 [r Et]]]]]]]. destruct (short_head_inv _ Hin) as [code [z [Hz [L Hv]]]].
      pose proof (get_sizage_zfacts _ _ Hz) as Z. pose proof (zf_cs8 _ _ Z) as H8.
      assert (Hone : payload z [c1; c2; 61; 61] = Panic).
      { pose proof (zf_cs3 _ _ Z). pose proof (zf_cs_ls _ _ Z).
        apply (payload_panic z code); [auto|change (len [c1; c2; 61; 61]) with 4; lia|lia|]. right. split; auto. exists c1, c2. auto. }
      destruct (variable z) eqn:V.
      * destruct (zf_var _ _ Z V) as [Hm [Hss _]].
        assert (Hp : is_prefix code t) by (exists (soft_of z 1 ++ [c1; c2; 61; 61] ++ r); rewrite Et, Hv, <- !app_assoc; auto).
        rewrite (exfil_code t code z Hz Hp). destruct (boundary t (hs z)); [|reflexivity].
        assert (Hlh : len h = cs_of z) by (rewrite Hv, len_app; unfold soft_of; rewrite len_map, len_digits, (zf_len _ _ Z); unfold cs_of; lia).
        assert (Hlt : cs_of z + 4 <= len t) by (rewrite Et, !len_app; change (len [c1; c2; 61; 61]) with 4; lia).
        unfold rest. rewrite V. replace (len t <? cs_of z) with false by lia. destruct (boundary t (cs_of z)) eqn:Bc; [|reflexivity].
        assert (Es : take (ss z) (drop (hs z) t) = soft_of z 1).
        { rewrite Et, Hv, <- !app_assoc, drop_app_exact by apply (zf_len _ _ Z). apply take_app_exact. unfold soft_of. rewrite len_map, len_digits. lia. }
        destruct (soft_take t z 1) as [Ha Hv1]; [destruct Hss as [-> | ->]; reflexivity|exact Es|]. rewrite Ha, Hv1. cbv zeta. unfold body.
        replace (len t <? 1 * 4 + cs_of z) with false by lia. destruct (boundary t (1 * 4 + cs_of z)); [|reflexivity].
        rewrite drop_take. replace (1 * 4 + cs_of z - cs_of z) with 4 by lia. rewrite Et, <- app_assoc, drop_app_exact by auto.
        rewrite take_app_exact by reflexivity. rewrite Hone. reflexivity.
      * destruct Hv as [-> [Hf Hc]]. assert (Hp : is_prefix code t) by (exists ([c1; c2; 61; 61] ++ r); rewrite Et, <- !app_assoc; auto).
        rewrite (exfil_code t code z Hz Hp). destruct (boundary t (hs z)); [|reflexivity].
        destruct (zf_fix _ _ Z V) as [Hs _]. assert (Hhs : hs z = 4) by (unfold cs_of in Hc; lia). assert (Hlc : len code = 4) by (rewrite (zf_len _ _ Z); auto).
        unfold rest, body. rewrite V, Hf, Hc. assert (Hlt : 8 <= len t) by (rewrite Et, !len_app; change (len [c1; c2; 61; 61]) with 4; lia).
        replace (len t <? 8) with false by lia. destruct (boundary t 8); [|reflexivity].
        rewrite drop_take. rewrite Et, <- app_assoc, drop_app_exact by auto.
        rewrite take_app_exact by reflexivity. rewrite Hone. reflexivity.
Qed.
End Q.
