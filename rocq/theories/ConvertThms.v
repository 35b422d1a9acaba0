From Verif Require Import Base Data Spec DataDefs Float FloatDefs Convert ConvertDefs.
From Verif Require Import BaseFacts StdStr StdStrFacts Json JsonFacts FloatFacts FloatThms.
Ltac lia := Lia.lia.
Ltac nia := Lia.nia.

(** C80: every value converts to what it holds and to nothing else, except that either kind of number converts
    to both kinds; the others are refused with a conversion error, and nothing panics. *)
Lemma C80_kinds_pf : forall v : data,
  converts v = (match v with
                | VNull => [false; false; false; false; false; false]
                | VStr _ => [true; false; false; false; false; false]
                | VBool _ => [false; true; false; false; false; false]
                | VInt _ | VFloat _ => [false; false; true; true; false; false]
                | VArr _ => [false; false; false; false; true; false]
                | VObj _ => [false; false; false; false; false; true]
                end) /\
  (forall s, try_string v = Ok s <-> v = VStr s) /\ (forall b, try_bool v = Ok b <-> v = VBool b) /\
  (forall a, try_vec v = Ok a <-> v = VArr a) /\ (forall o, try_map v = Ok o <-> v = VObj o) /\
  (forall i, to_i64 v = Ok i -> try_i64 v = Ok i) /\ (forall t, to_f64 v = Ok t -> try_f64 v = Ok t) /\
  failed (try_string v) /\ failed (try_bool v) /\ failed (try_i64 v) /\ failed (try_f64 v) /\ failed (try_vec v) /\ failed (try_map v).
Proof.
  intros v. split.
  - destruct v as [| | |t| | |]; try reflexivity. unfold converts, try_i64. cbn. destruct (text_f64 t) as [[neg k]|]; reflexivity.
  - repeat match goal with |- _ /\ _ => split end; try (destruct v as [| | |t| | |]; cbn; try (destruct (text_f64 t) as [[? ?]|]); cbn; auto; fail).
    all: try (intros x; destruct v; cbn; split; intros E; try discriminate E; congruence).
    + intros x. destruct v; cbn; intros E; try discriminate E; exact E.
    + intros x. destruct v; cbn; intros E; try discriminate E; exact E.
Qed.

Lemma C80_kinds_ex_pf : map converts [VStr (s2b "string"); VBool false; VInt 3; VFloat (s2b "6.7"); VArr []; VObj []]
  = [[true; false; false; false; false; false]; [false; true; false; false; false; false]; [false; false; true; true; false; false];
     [false; false; true; true; false; false]; [false; false; false; false; true; false]; [false; false; false; false; false; true]].
Proof. vm_compute. reflexivity. Qed.

Lemma text_f64_printed neg k : is_f64 k -> text_f64 (f64_text neg k) = Some (neg, k).
Proof.
  intros Hk. destruct (print_denotes neg k Hk) as (_ & c & q & x & D & R & _). apply denotes_numeral in D as (d & f & ex & E & Nd & Hdf & Ec & Eq & Ex). unfold text_f64. rewrite E.
  rewrite dec_value_digits by exact Hdf. rewrite <- Ec. change (exponent_number ex) with (exp_value ex). rewrite <- Ex, <- Eq, R. reflexivity.
Qed.
(** C80: a float converts to the integer next to it towards zero, or to the nearest i64
    if there is none. *)
Lemma C80_float_to_integer_pf : forall (neg : bool) (k : N), is_f64 k -> exists z, try_i64 (VFloat (f64_text neg k)) = Ok z /\
  (- 2 ^ 63 <= z < 2 ^ 63)%Z /\ (if neg then z <= 0 else 0 <= z)%Z /\
  (Z.abs z * 2 ^ 1074 <= Z.of_N k)%Z /\
  ((Z.of_N k < (Z.abs z + 1) * 2 ^ 1074)%Z \/ z = (if neg then - 2 ^ 63 else 2 ^ 63 - 1)%Z).
Proof.
  intros neg k Hk. exists (f64_as_i64 neg k). unfold try_i64. rewrite (text_f64_printed neg k Hk). split; [reflexivity|]. unfold f64_as_i64.
  pose proof (N.div_mod' k f64_one) as E. pose proof (N.mod_lt k f64_one f64_one_nz) as L. assert (O : (2 ^ 1074)%Z = Z.of_N f64_one) by (unfold f64_one; rewrite N2Z.inj_pow; reflexivity). rewrite O. set (n := k / f64_one) in *. set (r := k mod f64_one) in *.
  assert (Hk' : (Z.of_N k = Z.of_N f64_one * Z.of_N n + Z.of_N r)%Z) by lia. assert (Hr : (0 <= Z.of_N r < Z.of_N f64_one)%Z) by lia. clear E L O.
  pose proof (N2Z.is_nonneg n) as Hn. revert Hk' Hr Hn. generalize (Z.of_N f64_one) (Z.of_N n) (Z.of_N r). intros o m s Hk' Hs Hm. clear n r.
  assert (P : (1 <= 2 ^ 63)%Z) by discriminate. revert P. generalize (2 ^ 63)%Z. intros p P. rewrite Hk'.
  destruct neg.
  - destruct (Z.max_spec (- p) (- m)) as [[A ->]|[A ->]]; (split; [lia|]; split; [lia|]).
    + rewrite Z.abs_neq, Z.opp_involutive by lia. split; [nia|left; nia].
    + rewrite Z.abs_neq, Z.opp_involutive by lia. split; [nia|right; reflexivity].
  - destruct (Z.min_spec (p - 1) m) as [[A ->]|[A ->]]; (split; [lia|]; split; [lia|]).
    + rewrite Z.abs_eq by lia. split; [nia|right; reflexivity].
    + rewrite Z.abs_eq by lia. split; [nia|left; nia].
Qed.
Lemma C80_float_to_integer_ex_pf : try_i64 (VFloat (s2b "-6.7")) = Ok (-6)%Z /\ try_i64 (VFloat (s2b "1e300")) = Ok (2 ^ 63 - 1)%Z /\ is_f64 (2 ^ 1074) /\ try_i64 (VFloat (f64_text true (2 ^ 1074))) = Ok (-1)%Z.
Proof. split; [vm_compute; reflexivity|]. split; [vm_compute; reflexivity|]. split; [exists 1, 1074; split; reflexivity|]. vm_compute. reflexivity. Qed.

(** C80: an integer converts to the f64 nearest to it; converting this back gives the integer if
    it is at most 2^53 in size (refuted for larger ones). *)
Lemma C80_integer_to_float_pf : forall i : Z, (- 2 ^ 63 <= i < 2 ^ 63)%Z -> exists k, nearest k (Z.abs_N i * 2 ^ 1074) 1 /\
  try_f64 (VInt i) = Ok (f64_text (i <? 0)%Z k) /\ ((Z.abs i <= 2 ^ 53)%Z -> try_i64 (VFloat (f64_text (i <? 0)%Z k)) = Ok i).
Proof.
  intros i Hi. exists (f64_of_int (Z.abs_N i)). split; [apply round_nearest; discriminate|]. split; [reflexivity|]. intros Hs.
  assert (X : f64_of_int (Z.abs_N i) = Z.abs_N i * f64_one /\ is_f64 (Z.abs_N i * f64_one)).
  { assert (Hn : Z.abs_N i <= 2 ^ 53) by (change (2 ^ 53)%Z with (Z.of_N (2 ^ 53)) in Hs; lia). destruct (N.eq_dec (Z.abs_N i) (2 ^ 53)) as [E|E].
    - rewrite E. change (2 ^ 53) with (1 * 2 ^ 53) at 1 2. split; [apply of_int_exact; reflexivity|]. exists 1, (53 + 1074). split; [|reflexivity]. unfold f64_one. rewrite N.mul_1_l, <- N.pow_add_r. reflexivity.
    - pose proof (of_int_exact (Z.abs_N i) 0 ltac:(lia)) as Y. rewrite N.pow_0_r, N.mul_1_r in Y. split; [exact Y|]. apply is_f64_small. lia. }
  destruct X as [X F]. rewrite X. unfold try_i64. rewrite (text_f64_printed _ _ F). f_equal. unfold f64_as_i64. rewrite N.div_mul by apply f64_one_nz. change (2 ^ 63)%Z with 9223372036854775808%Z in *. destruct (Z.ltb_spec i 0); lia.
Qed.
Lemma C80_integer_to_float_ex_pf : try_f64 (VInt (-3)) = Ok (s2b "-3.0") /\ try_f64 (VInt (3 * 10 ^ 17 + 1)) = Ok (s2b "3e17").
Proof. split; vm_compute; reflexivity. Qed.
Lemma C80_integer_to_float_refuted_pf : exists (i : Z) (t : bytes), (- 2 ^ 63 <= i < 2 ^ 63)%Z /\ try_f64 (VInt i) = Ok t /\ try_i64 (VFloat t) = Ok (i - 1)%Z.
Proof. exists (2 ^ 53 + 1)%Z, (s2b "9007199254740992.0"). split; [split; [discriminate|reflexivity]|]. split; vm_compute; reflexivity. Qed.
