(** The toy signature scheme used in examples meets the contract. *)
From Verif Require Import Base MatterTables Matter Crypto Prims PrimsDefs Signer SignerDefs BaseFacts.

Ltac toy_cases I := cbn in I; destruct I as [<-|[<-|[<-|[]]]];
  cbn [su_seed su_key su_key_nt su_sig su_both su_current su_both_big su_current_big su_key_size su_alg] in *.
Lemma bytes_ok_rep v n : v < 256 -> bytes_ok (rep v n) = true.
Proof. intros H. apply forallb_forall. intros x I. unfold rep in I. apply repeat_spec in I. rewrite I. apply N.ltb_lt. exact H. Qed.
Lemma toy_scheme_contract : scheme_contract toy_scheme.
Proof.
  intros u sk pk I L E. cbn [x_public toy_scheme] in E. rewrite L in E. change (32 =? 32) with true in E. cbv iota in E. destruct (bytes_ok sk) eqn:B; [|discriminate].
  injection E as <-. assert (Lk : len (toy_pk (su_alg u) sk) = su_key_size u) by (toy_cases I; cbn [toy_pk]; rewrite ?len_cons, L; reflexivity).
  split; [exact Lk|]. split; [toy_cases I; cbn [toy_pk]; cbn [bytes_ok forallb]; rewrite ?B; auto|].
  intros e msg. exists (toy_sig sk msg). split; [reflexivity|]. unfold toy_sig. rewrite (take_all 32) by lia. split; [rewrite len_app, L, len_rep; reflexivity|].
  split. { rewrite bytes_ok_app, B. apply bytes_ok_rep. apply N.mod_lt. lia. }
  cbn [x_verify toy_scheme]. f_equal. apply bytes_eqb_eq. toy_cases I; unfold toy_sig; cbn [toy_pk]; rewrite (take_all 32); auto; try (change (2 :: sk) with ([2] ++ sk)); rewrite ?drop_app_exact; auto; cbn; lia.
Qed.
(** The toy digests meet the contract. *)
Lemma toy_hash_contract : hash_contract toy_crypto.
Proof.
  intros code n ser I. cbn [x_hash toy_crypto]. unfold toy_hash. rewrite len_rep. split.
  - cbn in I. repeat (destruct I as [I|I]; [injection I as <- <-; reflexivity|]). destruct I.
  - apply bytes_ok_rep. apply N.mod_lt. discriminate.
Qed.
