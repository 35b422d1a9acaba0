(** General lemmas about the foundations. *)
From Verif Require Import Base.
From Coq Require Export Lia.
From Coq Require Export ZifyBool ZifyNat ZifyN.
Ltac Zify.zify_post_hook ::= Z.div_mod_to_equations.

(** [lia] that first forgets the meaning of [/] and [mod] (much faster in large
    contexts), then tries with it. *)
Ltac nodm := repeat match goal with
  | |- context [?a mod ?b] => let x := fresh "q" in set (x := a mod b) in *; clearbody x
  | |- context [?a / ?b] => let x := fresh "q" in set (x := a / b) in *; clearbody x
  | H : context [?a mod ?b] |- _ => let x := fresh "q" in set (x := a mod b) in *; clearbody x
  | H : context [?a / ?b] |- _ => let x := fresh "q" in set (x := a / b) in *; clearbody x
  end.
Ltac lia := first [solve [nodm; Lia.lia] | Lia.lia].

Arguments N.add : simpl never.
Arguments N.sub : simpl never.
Arguments N.mul : simpl never.
Arguments N.div : simpl never.
Arguments N.modulo : simpl never.
Arguments N.pow : simpl never.
Arguments N.ltb : simpl never.
Arguments N.leb : simpl never.
Arguments N.eqb : simpl never.
Arguments N.of_nat : simpl never.
Arguments N.to_nat : simpl never.

(** compute closed powers *)
Ltac npow :=
  repeat match goal with
  | |- context [N.pow ?a ?b] =>
      let v := eval vm_compute in (N.pow a b) in
      match v with N0 => idtac | Npos _ => idtac end; change (N.pow a b) with v
  | H : context [N.pow ?a ?b] |- _ =>
      let v := eval vm_compute in (N.pow a b) in
      match v with N0 => idtac | Npos _ => idtac end; change (N.pow a b) with v in H
  end.

(** ** outcome *)
Lemma obind_ok {A B} (x : outcome A) (f : A -> outcome B) b :
  obind x f = Ok b -> exists a, x = Ok a /\ f a = Ok b.
Proof. destruct x; cbn; intros H; try discriminate; eauto. Qed.

Lemma Ok_inj {A} (a b : A) : Ok a = Ok b -> a = b.
Proof. congruence. Qed.

(** Invert one monadic success hypothesis, naming the value and equation. *)
Ltac inv_bind H x E :=
  apply obind_ok in H; destruct H as [x [E H]].

Lemma obind_Ok {A B} (a : A) (f : A -> outcome B) : obind (Ok a) f = f a.
Proof. reflexivity. Qed.

(** ** bytes_eqb *)
Lemma bytes_eqb_eq a b : bytes_eqb a b = true <-> a = b.
Proof.
  revert b; induction a as [|x a IH]; intros [|y b]; cbn; split; intros H; try discriminate; auto.
  - apply andb_true_iff in H as [H1 H2]. apply N.eqb_eq in H1. apply IH in H2. congruence.
  - injection H as -> ->. rewrite N.eqb_refl. cbn. apply IH; reflexivity.
Qed.
Lemma bytes_eqb_refl a : bytes_eqb a a = true.
Proof. apply bytes_eqb_eq; reflexivity. Qed.
Lemma bytes_eqb_neq a b : bytes_eqb a b = false <-> a <> b.
Proof.
  split; intros H.
  - intros ->. rewrite bytes_eqb_refl in H; discriminate.
  - destruct (bytes_eqb a b) eqn:E; auto. apply bytes_eqb_eq in E; contradiction.
Qed.
Lemma bytes_eq_dec (a b : bytes) : {a = b} + {a <> b}.
Proof. destruct (bytes_eqb a b) eqn:E; [left; apply bytes_eqb_eq|right; apply bytes_eqb_neq]; exact E. Qed.

Lemma mem_code_In c cs : mem_code c cs = true <-> In c cs.
Proof.
  unfold mem_code. rewrite existsb_exists. split.
  - intros [x [Hx E]]. apply bytes_eqb_eq in E. subst; auto.
  - intros H; exists c; split; auto. apply bytes_eqb_refl.
Qed.

Lemma assoc_In {A} k (t : list (bytes * A)) a : assoc k t = Some a -> In (k, a) t.
Proof.
  induction t as [|[k' a'] t IH]; cbn; [discriminate|].
  destruct (bytes_eqb k k') eqn:E.
  - intros [= ->]. apply bytes_eqb_eq in E. subst; auto.
  - auto.
Qed.
Lemma assoc_None {A} k (t : list (bytes * A)) : assoc k t = None <-> ~ In k (map fst t).
Proof.
  induction t as [|[k' a'] t IH]; cbn; [tauto|].
  destruct (bytes_eqb k k') eqn:E.
  - apply bytes_eqb_eq in E. subst. split; [discriminate|]. intros H; exfalso; apply H; auto.
  - apply bytes_eqb_neq in E. rewrite IH. split; intros H; [intros [->|]; auto | tauto].
Qed.

(** ** lengths *)
Lemma len_nil {A} : len (@nil A) = 0. Proof. reflexivity. Qed.
Lemma len_cons {A} (x : A) l : len (x :: l) = 1 + len l.
Proof. unfold len. cbn [length]. lia. Qed.
Lemma len_app {A} (a b : list A) : len (a ++ b) = len a + len b.
Proof. unfold len. rewrite app_length. lia. Qed.
Lemma len_rep {A} (x : A) n : len (rep x n) = n.
Proof. unfold len, rep. rewrite repeat_length. lia. Qed.
Lemma len_map {A B} (f : A -> B) l : len (map f l) = len l.
Proof. unfold len. rewrite map_length. reflexivity. Qed.
Lemma len_take {A} n (l : list A) : len (take n l) = N.min n (len l).
Proof. unfold len, take. rewrite firstn_length. lia. Qed.
Lemma len_drop {A} n (l : list A) : len (drop n l) = len l - n.
Proof. unfold len, drop. rewrite skipn_length. lia. Qed.
Lemma len_zero {A} (l : list A) : len l = 0 -> l = [].
Proof. destruct l; auto. rewrite len_cons. intros; lia. Qed.
Lemma len_pos_cons {A} (l : list A) : 0 < len l -> exists x r, l = x :: r.
Proof. destruct l; intros Hl; [unfold len in Hl; cbn in Hl; lia|eauto]. Qed.

Lemma take_drop_id {A} n (l : list A) : take n l ++ drop n l = l.
Proof. apply firstn_skipn. Qed.
Lemma take_all {A} n (l : list A) : len l <= n -> take n l = l.
Proof. unfold take, len. intros H. apply firstn_all2. lia. Qed.
Lemma drop_all {A} n (l : list A) : len l <= n -> drop n l = [].
Proof. unfold drop, len. intros H. apply skipn_all2. lia. Qed.
Lemma take_0 {A} (l : list A) : take 0 l = []. Proof. reflexivity. Qed.
Lemma drop_0 {A} (l : list A) : drop 0 l = l. Proof. reflexivity. Qed.
Lemma take_nil {A} n : take n (@nil A) = [].
Proof. unfold take. apply firstn_nil. Qed.
Lemma drop_nil {A} n : drop n (@nil A) = [].
Proof. unfold drop. apply skipn_nil. Qed.
Lemma take_app {A} n (a b : list A) : take n (a ++ b) = take n a ++ take (n - len a) b.
Proof. unfold take, len. rewrite firstn_app. f_equal. f_equal. lia. Qed.
Lemma drop_app {A} n (a b : list A) : drop n (a ++ b) = drop n a ++ drop (n - len a) b.
Proof. unfold drop, len. rewrite skipn_app. f_equal. f_equal. lia. Qed.
Lemma take_app_exact {A} n (a b : list A) : len a = n -> take n (a ++ b) = a.
Proof. intros <-. rewrite take_app, take_all by lia. rewrite N.sub_diag, take_0, app_nil_r. reflexivity. Qed.
Lemma drop_app_exact {A} n (a b : list A) : len a = n -> drop n (a ++ b) = b.
Proof. intros <-. rewrite drop_app, drop_all by lia. rewrite N.sub_diag, drop_0. reflexivity. Qed.
Lemma take_take {A} n m (l : list A) : take n (take m l) = take (N.min n m) l.
Proof. unfold take. rewrite firstn_firstn. f_equal. lia. Qed.
Lemma drop_drop {A} n m (l : list A) : drop n (drop m l) = drop (m + n) l.
Proof.
  unfold drop. replace (N.to_nat (m + n)) with (N.to_nat m + N.to_nat n)%nat by lia.
  generalize (N.to_nat m) (N.to_nat n). clear. intros m n. revert l.
  induction m as [|m IH]; intros l; cbn; auto. destruct l; cbn; auto. rewrite skipn_nil; auto.
Qed.
Lemma take_split {A} n m (l : list A) : take (n + m) l = take n l ++ take m (drop n l).
Proof.
  unfold take, drop. replace (N.to_nat (n + m)) with (N.to_nat n + N.to_nat m)%nat by lia.
  generalize (N.to_nat m) (N.to_nat n). clear. intros m n. revert l.
  induction n as [|n IH]; intros l; cbn; auto. destruct l; cbn; [rewrite firstn_nil; auto|]. rewrite IH. auto.
Qed.
Lemma take_drop_take {A} n m (l : list A) : n <= m -> take n l ++ take (m - n) (drop n l) = take m l.
Proof. intros H. rewrite <- take_split. f_equal. lia. Qed.
Lemma drop_take {A} n m (l : list A) : drop n (take m l) = take (m - n) (drop n l).
Proof. unfold take, drop. rewrite skipn_firstn_comm. f_equal. lia. Qed.
Lemma rep_app {A} (x : A) n m : rep x (n + m) = rep x n ++ rep x m.
Proof. unfold rep. rewrite <- repeat_app. f_equal. lia. Qed.
Lemma rep_S {A} (x : A) n : rep x (1 + n) = x :: rep x n.
Proof. unfold rep. replace (N.to_nat (1 + n)) with (S (N.to_nat n)) by lia. reflexivity. Qed.
Lemma nth_error_take {A} i n (l : list A) : i < n -> nth_error (take n l) (N.to_nat i) = nth_error l (N.to_nat i).
Proof. intros H. unfold take. assert (Hn : (N.to_nat i < N.to_nat n)%nat) by lia. revert Hn.
  generalize (N.to_nat i) (N.to_nat n). clear. intros i n. revert i l.
  induction n as [|n IH]; intros i l Hi; [lia|]. destruct l; cbn; [reflexivity|]. destruct i; cbn; auto. apply IH; lia.
Qed.
Lemma nth_error_app_l {A} i (a b : list A) : i < len a -> nth_error (a ++ b) (N.to_nat i) = nth_error a (N.to_nat i).
Proof. intros H. apply nth_error_app1. unfold len in H. lia. Qed.

(** ** bytes_ok *)
Lemma bytes_ok_app a b : bytes_ok (a ++ b) = bytes_ok a && bytes_ok b.
Proof. apply forallb_app. Qed.
Lemma bytes_ok_In l x : bytes_ok l = true -> In x l -> x < 256.
Proof. intros H Hx. eapply forallb_forall in H; eauto. unfold byte_ok in H. lia. Qed.
Lemma bytes_ok_cons x l : bytes_ok (x :: l) = true <-> x < 256 /\ bytes_ok l = true.
Proof. cbn. rewrite andb_true_iff. unfold byte_ok. rewrite N.ltb_lt. reflexivity. Qed.
Lemma forallb_take {A} f n (l : list A) : forallb f l = true -> forallb f (take n l) = true.
Proof. intros H. rewrite <- (take_drop_id n l), forallb_app in H. apply andb_true_iff in H. tauto. Qed.
Lemma forallb_drop {A} f n (l : list A) : forallb f l = true -> forallb f (drop n l) = true.
Proof. intros H. rewrite <- (take_drop_id n l), forallb_app in H. apply andb_true_iff in H. tauto. Qed.
Lemma bytes_ok_take n l : bytes_ok l = true -> bytes_ok (take n l) = true.
Proof. apply forallb_take. Qed.
Lemma bytes_ok_drop n l : bytes_ok l = true -> bytes_ok (drop n l) = true.
Proof. apply forallb_drop. Qed.
Lemma bytes_ok_rep0 n : bytes_ok (rep 0 n) = true.
Proof. unfold rep. induction (N.to_nat n); cbn; auto. Qed.
Lemma forallb_rep {A} (f : A -> bool) x n : f x = true -> forallb f (rep x n) = true.
Proof. intros H. unfold rep. induction (N.to_nat n); cbn; auto. rewrite H; auto. Qed.

(** ** slices *)
Lemma slice_ok {A} (l : list A) a b : a <= b -> b <= len l -> slice l a b = Ok (take (b - a) (drop a l)).
Proof. intros Ha Hb. unfold slice. replace (a <=? b) with true by lia. replace (b <=? len l) with true by lia. reflexivity. Qed.
Lemma slice_inv {A} (l : list A) a b r : slice l a b = Ok r -> a <= b /\ b <= len l /\ r = take (b - a) (drop a l).
Proof. unfold slice. destruct (a <=? b) eqn:Ha; destruct (b <=? len l) eqn:Hb; cbn; try discriminate.
  intros [= <-]. repeat split; lia. Qed.
Lemma slice_not_err {A} (l : list A) a b e : slice l a b <> Err e.
Proof. unfold slice. destruct (_ && _); discriminate. Qed.
Lemma slice_to_end {A} (l : list A) a : a <= len l -> slice l a (len l) = Ok (drop a l).
Proof. intros H. rewrite slice_ok by lia. rewrite take_all; auto. rewrite len_drop. lia. Qed.
Lemma slice_prefix {A} (l : list A) b : b <= len l -> slice l 0 b = Ok (take b l).
Proof. intros H. rewrite slice_ok by lia. rewrite N.sub_0_r, drop_0. reflexivity. Qed.

(** ** ASCII strings *)
Definition ascii_ok (l : bytes) : bool := forallb (fun c => c <? 128) l.

Lemma ascii_ok_app a b : ascii_ok (a ++ b) = ascii_ok a && ascii_ok b.
Proof. apply forallb_app. Qed.

Lemma boundary_len s : boundary s (len s) = true.
Proof.
  unfold boundary. replace (nth_error s (N.to_nat (len s))) with (@None N).
  - apply N.eqb_refl.
  - symmetry. apply nth_error_None. unfold len. lia.
Qed.
Lemma boundary_0 s : boundary s 0 = true.
Proof. unfold boundary. destruct (nth_error s (N.to_nat 0)) eqn:E; auto. destruct s; [reflexivity|discriminate]. Qed.
Lemma boundary_le s i : boundary s i = true -> i <= len s.
Proof.
  unfold boundary. destruct (nth_error s (N.to_nat i)) eqn:E; intros H.
  - assert (N.to_nat i < length s)%nat by (apply nth_error_Some; congruence). unfold len. lia.
  - lia.
Qed.
Lemma boundary_ascii s i : ascii_ok s = true -> i <= len s -> boundary s i = true.
Proof.
  intros Ha Hi. unfold boundary. destruct (nth_error s (N.to_nat i)) as [b|] eqn:E.
  - apply nth_error_In in E. eapply forallb_forall in Ha; [|exact E]. cbn in Ha. unfold is_cont.
    replace (128 <=? b) with false by lia. apply orb_true_r.
  - apply nth_error_None in E. unfold len in *. lia.
Qed.
(** a position strictly inside an ASCII prefix, or at its end when followed by
    the end of text, is a boundary *)
Lemma boundary_app_ascii a b i : ascii_ok a = true -> i < len a -> boundary (a ++ b) i = true.
Proof.
  intros Ha Hi. unfold boundary. rewrite nth_error_app_l by auto.
  destruct (nth_error a (N.to_nat i)) as [x|] eqn:E.
  - apply nth_error_In in E. eapply forallb_forall in Ha; [|exact E]. cbn in Ha. unfold is_cont.
    replace (128 <=? x) with false by lia. apply orb_true_r.
  - apply nth_error_None in E. unfold len in *. lia.
Qed.

Lemma str_slice_inv s a b r : str_slice s a b = Ok r ->
  a <= b /\ b <= len s /\ boundary s a = true /\ boundary s b = true /\ r = take (b - a) (drop a s).
Proof.
  unfold str_slice. destruct (a <=? b) eqn:Ha; destruct (boundary s a) eqn:Hba; destruct (boundary s b) eqn:Hb;
    cbn; try discriminate. intros [= <-]. repeat split; auto; try lia. apply boundary_le; auto.
Qed.
Lemma str_slice_ok s a b : a <= b -> boundary s a = true -> boundary s b = true ->
  str_slice s a b = Ok (take (b - a) (drop a s)).
Proof. intros H1 H2 H3. unfold str_slice. rewrite H2, H3. replace (a <=? b) with true by lia. reflexivity. Qed.
Lemma str_slice_ascii s a b : ascii_ok s = true -> a <= b -> b <= len s ->
  str_slice s a b = Ok (take (b - a) (drop a s)).
Proof. intros. apply str_slice_ok; auto; apply boundary_ascii; auto; lia. Qed.
Lemma str_slice_not_err s a b e : str_slice s a b <> Err e.
Proof. unfold str_slice. destruct (_ && _); discriminate. Qed.

(** ** checked arithmetic *)
Section A.
Context `{P : Profile}.
Lemma add32_ok a b : a + b < U32 -> add32 a b = Ok (a + b).
Proof. intros. unfold add32. replace (a + b <? U32) with true by lia. auto. Qed.
Lemma sub32_ok a b : b <= a -> sub32 a b = Ok (a - b).
Proof. intros. unfold sub32. replace (b <=? a) with true by lia. auto. Qed.
Lemma mul32_ok a b : a * b < U32 -> mul32 a b = Ok (a * b).
Proof. intros. unfold mul32. replace (a * b <? U32) with true by lia. auto. Qed.
Lemma pow64_32_ok k : 64 ^ k < U32 -> pow64_32 k = Ok (64 ^ k).
Proof. intros. unfold pow64_32. replace (64 ^ k <? U32) with true by lia. auto. Qed.
End A.

(** ** three- and four-step induction on lists *)
Lemma list_ind3 {A} (P : list A -> Prop) :
  P [] -> (forall a, P [a]) -> (forall a b, P [a; b]) ->
  (forall a b c r, P r -> P (a :: b :: c :: r)) -> forall l, P l.
Proof.
  intros H0 H1 H2 H3. fix IH 1. intros [|a [|b [|c r]]]; [exact H0|apply H1|apply H2|apply H3; apply IH].
Qed.
Lemma list_ind4 {A} (P : list A -> Prop) :
  P [] -> (forall a, P [a]) -> (forall a b, P [a; b]) -> (forall a b c, P [a; b; c]) ->
  (forall a b c d r, P r -> P (a :: b :: c :: d :: r)) -> forall l, P l.
Proof.
  intros H0 H1 H2 H3 H4. fix IH 1. intros [|a [|b [|c [|d r]]]]; [exact H0|apply H1|apply H2|apply H3|apply H4; apply IH].
Qed.

(** [2 <= len [a]] and the like are absurd by computation *)
Ltac lenbad H := exfalso; vm_compute in H; apply H; reflexivity.
