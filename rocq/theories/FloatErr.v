(** Error bounds of the reader of floating point numerals (used by FloatThms.v). *)
From Verif Require Import Base Data Spec DataDefs Float FloatDefs.
From Verif Require Import BaseFacts StdStr StdStrFacts Json JsonFacts FloatFacts.
From Coq Require Import QArith Qpower Lqa.
Ltac lia := Lia.lia.
Ltac nia := Lia.nia.
Ltac qlra := Lqa.lra.

Local Open Scope N_scope.
Lemma dist_round a b : b <> 0 -> 2 ^ 53 * dist (round_f64 a b * b) a <= a + 2 ^ 52 * b /\ (2 ^ 53 * b <= a -> 2 ^ 53 * dist (round_f64 a b * b) a <= a).
Proof.
  intros Hb. unfold round_f64. set (v := a / b). set (e := N.log2 v - 52). set (u := 2 ^ e). assert (Hu : u <> 0) by apply pow_nz. assert (HD : b * u <> 0) by nia.
  destruct (half_even_spec a (b * u) HD) as [_ Hn]. set (r := half_even a (b * u)) in *. cbv zeta in *.
  assert (Hh : 2 * dist a (r * (b * u)) <= b * u).
  { destruct (Hn (a / (b * u))) as [H1 _]. destruct (Hn (a / (b * u) + 1)) as [H2 _]. pose proof (N.div_mod' a (b * u)) as E. pose proof (N.mod_lt a (b * u) HD) as L. unfold dist in *. nia. }
  assert (Hlow : (e = 0 /\ v < 2 ^ 53) \/ (2 ^ 52 * u * b <= a /\ 2 ^ 53 <= v)).
  { destruct (N.eq_dec e 0) as [Ez|Ne].
    - left. split; [exact Ez|]. destruct (N.eq_dec v 0) as [->|Nv]; [reflexivity|]. apply N.log2_lt_pow2; lia.
    - right. assert (V : 2 ^ N.log2 v <= v) by (apply N.log2_spec; destruct (N.eq_dec v 0) as [Z|]; [unfold e in Ne; rewrite Z in Ne; cbn in Ne; lia|lia]).
      assert (2 ^ 52 * u <= v) by (unfold u; rewrite <- N.pow_add_r; replace (52 + e) with (N.log2 v) by lia; exact V). assert (2 ^ 53 <= v) by (eapply N.le_trans; [|exact V]; apply N.pow_le_mono_r; lia).
      pose proof (N.mul_div_le a b Hb). fold v in H1. split; [nia|assumption]. }
  replace (r * u * b) with (r * (b * u)) by lia. replace (dist (r * (b * u)) a) with (dist a (r * (b * u))) by (unfold dist; lia). clearbody r. change (2 ^ 53) with (2 * 2 ^ 52) in *. generalize dependent (2 ^ 52). intros t Hlow. generalize dependent (dist a (r * (b * u))). intros d Hh. pose proof (N.mul_div_le a b Hb) as Hv. fold v in Hv. pose proof (N.mul_succ_div_gt a b Hb) as Hv'. fold v in Hv'.
  destruct Hlow as [[Ez Hl]|[Hl Hl']].
  - assert (u = 1) by (unfold u; rewrite Ez; reflexivity). split; [nia|]. intros X. exfalso. nia.
  - split; [nia|]. intros _. nia.
Qed.

Local Open Scope Q_scope.
Definition q_ (n : N) : Q := inject_Z (Z.of_N n).
(** half a unit in the last place *)
Definition u_ : Q := 1 # (2 ^ 53).
(** |x - y| <= b *)
Definition close (x y b : Q) : Prop := x <= y + b /\ y <= x + b.

Lemma q_add a b : q_ (a + b) == q_ a + q_ b.
Proof. unfold q_. rewrite N2Z.inj_add, inject_Z_plus. reflexivity. Qed.
Lemma q_mul a b : q_ (a * b) == q_ a * q_ b.
Proof. unfold q_. rewrite N2Z.inj_mul, inject_Z_mult. reflexivity. Qed.
Lemma q_le a b : (a <= b)%N <-> q_ a <= q_ b.
Proof. unfold q_. rewrite <- Zle_Qle. lia. Qed.
Lemma q_lt a b : (a < b)%N <-> q_ a < q_ b.
Proof. unfold q_. rewrite <- Zlt_Qlt. lia. Qed.
Lemma q_pos a : 0 <= q_ a.
Proof. change 0 with (q_ 0). apply q_le. lia. Qed.
Lemma q_nz a : a <> 0%N -> 0 < q_ a.
Proof. intros H. change 0 with (q_ 0). apply q_lt. lia. Qed.
Lemma q_dist a b c : (dist a b <= c)%N -> close (q_ a) (q_ b) (q_ c).
Proof. intros H. split; rewrite <- q_add; apply q_le; unfold dist in H; lia. Qed.
Lemma close_mul x y b z : 0 < z -> close (x * z) (y * z) (b * z) -> close x y b.
Proof. intros Hz [H1 H2]. split; (apply (Qmult_le_r _ _ z Hz)); qlra. Qed.

(** rounding: x is the exact value *)
Lemma round_close a b x : b <> 0%N -> x * q_ b == q_ a -> close (q_ (round_f64 a b)) x (u_ * x + (1 # 2)) /\ (q_ (2 ^ 53) <= x -> close (q_ (round_f64 a b)) x (u_ * x)).
Proof.
  intros Hb Hx. destruct (dist_round a b Hb) as [H1 H2]. pose proof (q_nz b Hb) as Pb. set (r := round_f64 a b) in *. clearbody r.
  assert (K : forall d, (2 ^ 53 * dist (r * b) a <= d)%N -> close (q_ (2 ^ 53) * (q_ r * q_ b)) (q_ (2 ^ 53) * q_ a) (q_ d)).
  { intros d Hd. assert (X : (dist (2 ^ 53 * (r * b)) (2 ^ 53 * a) <= d)%N) by (unfold dist in *; lia). apply q_dist in X. unfold close in *. rewrite !q_mul in X. exact X. }
  apply K in H1. unfold close in H1. rewrite q_add, q_mul in H1. change (q_ (2 ^ 52)) with 4503599627370496 in H1. change (q_ (2 ^ 53)) with 9007199254740992 in *. change u_ with (1 # 9007199254740992).
  split.
  - apply (close_mul _ _ _ (q_ b) Pb). unfold close in *. qlra.
  - intros X. assert (Y : (2 ^ 53 * b <= a)%N). { apply q_le. rewrite q_mul. change (q_ (2 ^ 53)) with 9007199254740992. rewrite <- Hx. nra. }
    specialize (K a (H2 Y)). change (q_ (2 ^ 53)) with 9007199254740992 in K. apply (close_mul _ _ _ (q_ b) Pb). unfold close in *. qlra.
Qed.

Definition o_ : Q := q_ f64_one.
Definition ten (e : Z) : Q := 10 ^ e.
Lemma o_pos : 0 < o_.
Proof. apply q_nz, f64_one_nz. Qed.
Lemma ten_pos e : 0 < ten e.
Proof. apply Qpower_0_lt. reflexivity. Qed.
Lemma ten_plus a b : ten (a + b) == ten a * ten b.
Proof. apply Qpower_plus. discriminate. Qed.
Lemma ten_N n : q_ (10 ^ n) == ten (Z.of_N n).
Proof. unfold q_, ten. rewrite N2Z.inj_pow, Zpower_Qpower by apply N2Z.is_nonneg. reflexivity. Qed.
Lemma ten_le a b : (a <= b)%Z -> ten a <= ten b.
Proof. intros H. apply Qpower_le_compat_l; [exact H|discriminate]. Qed.
Lemma ten_ge1 e : (0 <= e)%Z -> 1 <= ten e.
Proof. intros H. change 1 with (ten 0). apply ten_le, H. Qed.
Opaque ten.
Lemma u_bounds : 0 < u_ /\ u_ <= 1 # 1000000000.
Proof. split; [reflexivity|discriminate]. Qed.
Lemma q_cong a b : a = b -> q_ a == q_ b.
Proof. intros ->. reflexivity. Qed.

Lemma of_int_close s : close (q_ (f64_of_int s)) (q_ s * o_) (u_ * (q_ s * o_)).
Proof.
  destruct (N.eq_dec s 0) as [->|Ns].
  - replace (f64_of_int 0) with 0%N by (vm_compute; reflexivity). change (q_ 0) with 0. split; qlra.
  - apply (round_close (s * f64_one) 1 (q_ s * o_)); [discriminate|rewrite q_mul; change (q_ 1) with 1; unfold o_; qlra|].
    unfold o_. rewrite <- q_mul. apply q_le. assert (2 ^ 53 <= f64_one)%N by (vm_compute; discriminate). nia.
Qed.
Lemma pow10_close n : close (q_ (pow10 n)) (ten (Z.of_N n) * o_) (u_ * (ten (Z.of_N n) * o_)).
Proof. unfold close. rewrite <- ten_N. apply of_int_close. Qed.
Lemma mul_close F P x : x * o_ == q_ F * q_ P -> close (q_ (fmul F P)) x (u_ * x + (1 # 2)).
Proof. intros H. apply round_close; [apply f64_one_nz|]. rewrite q_mul. exact H. Qed.
Lemma div_close F P x : P <> 0%N -> x * q_ P == q_ F * o_ -> close (q_ (fdiv F P)) x (u_ * x + (1 # 2)).
Proof. intros HP H. apply round_close; [exact HP|]. rewrite q_mul. exact H. Qed.

(** one step of the reader, from F near Y (up to D, or a constant h) *)
Lemma step_div u F P G o Y D h N w E T z : 0 < u -> u <= 1 # 1000000000 -> 0 < o -> 0 < N -> 0 <= w -> 0 <= T -> 0 <= E -> E <= (1 # 8) * w ->
  close F Y (D + h) -> close P (N * o) (u * (N * o)) -> close G z (u * z + (1 # 2)) -> 0 <= z ->
  z * P == F * o -> w * N == Y -> E * N == D -> T * N == h ->
  close G w (E + (5 # 2) * u * w + (5 # 4) * T + (1 # 2)).
Proof.
  intros Hu Hu' Ho HN Hw HT HE HEw [F1 F2] [P1 P2] [G1 G2] Hz Ez Ew EE ET.
  assert (A : z * (1 - u) <= w + E + T).
  { apply (Qmult_le_r _ _ (N * o)); [nra|]. assert (z * (N * o - u * (N * o)) <= z * P) by (rewrite !(Qmult_comm z); apply Qmult_le_compat_r; qlra). assert (F * o <= (Y + (D + h)) * o) by (apply Qmult_le_compat_r; qlra). rewrite <- Ew, <- EE, <- ET in H0. qlra. }
  assert (B : w - E - T <= z * (1 + u)).
  { apply (Qmult_le_r _ _ (N * o)); [nra|]. assert (z * P <= z * (N * o + u * (N * o))) by (rewrite !(Qmult_comm z); apply Qmult_le_compat_r; qlra). assert ((Y - (D + h)) * o <= F * o) by (apply Qmult_le_compat_r; qlra). rewrite <- Ew, <- EE, <- ET in H0. qlra. }
  assert (Z2 : z <= (9 # 8) * w * (1001 # 1000) + (1001 # 1000) * T) by nra.
  assert (U : u * z <= u * ((9 # 8) * w * (1001 # 1000) + (1001 # 1000) * T)) by (rewrite !(Qmult_comm u); apply Qmult_le_compat_r; qlra).
  assert (UT : u * T <= (1 # 1000000000) * T) by (apply Qmult_le_compat_r; qlra).
  assert (Uw : 0 <= u * w) by nra. assert (0 <= u * T) by nra.
  split; qlra.
Qed.
Lemma step_mul u F P G o Y D N w E z : 0 < u -> u <= 1 # 1000000000 -> 0 < o -> 0 < N -> 0 <= w -> 0 <= E -> E <= (1 # 8) * w -> 0 <= F ->
  close F Y D -> close P (N * o) (u * (N * o)) -> close G z (u * z + (1 # 2)) -> 0 <= z ->
  z * o == F * P -> w == Y * N -> E == D * N ->
  close G w (E + (5 # 2) * u * w + (1 # 2)).
Proof.
  intros Hu Hu' Ho HN Hw HE HEw HF [F1 F2] [P1 P2] [G1 G2] Hz Ez Ew EE.
  assert (A : z <= (w + E) * (1 + u)).
  { apply (Qmult_le_r _ _ o); [exact Ho|]. assert (F * P <= F * (N * o + u * (N * o))) by (rewrite !(Qmult_comm F); apply Qmult_le_compat_r; qlra). assert (F * (N * o + u * (N * o)) <= (Y + D) * (N * o + u * (N * o))) by (apply Qmult_le_compat_r; [qlra|nra]). rewrite Ez, Ew, EE. qlra. }
  assert (B : (w - E) * (1 - u) <= z).
  { apply (Qmult_le_r _ _ o); [exact Ho|]. assert (F * (N * o - u * (N * o)) <= F * P) by (rewrite !(Qmult_comm F); apply Qmult_le_compat_r; qlra). assert ((Y - D) * (N * o - u * (N * o)) <= F * (N * o - u * (N * o))) by (apply Qmult_le_compat_r; [qlra|nra]). rewrite Ez, Ew, EE. qlra. }
  assert (Z2 : z <= (9 # 8) * w * (1001 # 1000)) by nra.
  assert (U : u * z <= u * ((9 # 8) * w * (1001 # 1000))) by (rewrite !(Qmult_comm u); apply Qmult_le_compat_r; qlra).
  assert (Uw : 0 <= u * w) by nra. assert (UE : u * E <= u * ((1 # 8) * w)) by (rewrite !(Qmult_comm u); apply Qmult_le_compat_r; qlra). assert (0 <= u * E) by nra.
  split; qlra.
Qed.

Lemma pow10_nonzero n : pow10 n <> 0%N.
Proof.
  destruct (pow10_close n) as [_ H]. intros Z. rewrite Z in H. change (q_ 0) with 0 in H. pose proof (ten_pos (Z.of_N n)) as T. pose proof o_pos as O. destruct u_bounds as [U1 U2]. assert (0 < ten (Z.of_N n) * o_) by nra. nra.
Qed.
Lemma fdiv_step F Y D h e : (0 <= e)%Z -> 0 <= Y -> 0 <= h -> 0 <= D -> D <= (1 # 8) * Y -> close (q_ F) Y (D + h) ->
  close (q_ (fdiv F (pow10 (Z.to_N e)))) (Y * ten (- e)) (D * ten (- e) + (5 # 2) * u_ * (Y * ten (- e)) + (5 # 4) * (h * ten (- e)) + (1 # 2)).
Proof.
  intros He HY Hh HD HDY HF. destruct u_bounds as [U1 U2]. pose proof o_pos as Ho. set (P := pow10 (Z.to_N e)). assert (NP : P <> 0%N) by apply pow10_nonzero. pose proof (q_nz P NP) as HP.
  pose proof (pow10_close (Z.to_N e)) as CP. rewrite Z2N.id in CP by exact He. fold P in CP. pose proof (ten_pos e) as T. pose proof (ten_pos (- e)) as T'. assert (TT : ten (- e) * ten e == 1) by (rewrite <- ten_plus; replace (- e + e)%Z with 0%Z by lia; reflexivity).
  assert (Z : exists z, z * q_ P == q_ F * o_ /\ 0 <= z).
  { exists (q_ F * o_ / q_ P). split; [field; qlra|]. apply Qle_shift_div_l; [exact HP|]. pose proof (q_pos F). nra. }
  destruct Z as (z & Ez & Hz).
  apply (step_div u_ (q_ F) (q_ P) _ o_ Y D h (ten e) (Y * ten (- e)) (D * ten (- e)) (h * ten (- e)) z); try assumption; try nra.
  all: first [apply div_close; assumption|rewrite <- Qmult_assoc, TT; qlra].
Qed.
Lemma fmul_step F Y D e : (0 <= e)%Z -> 0 <= Y -> 0 <= D -> D <= (1 # 8) * Y -> close (q_ F) Y D ->
  close (q_ (fmul F (pow10 (Z.to_N e)))) (Y * ten e) (D * ten e + (5 # 2) * u_ * (Y * ten e) + (1 # 2)).
Proof.
  intros He HY HD HDY HF. destruct u_bounds as [U1 U2]. pose proof o_pos as Ho. set (P := pow10 (Z.to_N e)). pose proof (q_pos P) as HP. pose proof (q_pos F) as HF0.
  pose proof (pow10_close (Z.to_N e)) as CP. rewrite Z2N.id in CP by exact He. fold P in CP. pose proof (ten_pos e) as T.
  assert (Z : exists z, z * o_ == q_ F * q_ P /\ 0 <= z).
  { exists (q_ F * q_ P / o_). split; [field; qlra|]. apply Qle_shift_div_l; [exact Ho|]. nra. }
  destruct Z as (z & Ez & Hz).
  apply (step_mul u_ (q_ F) (q_ P) _ o_ Y D (ten e) (Y * ten e) (D * ten e) z); try assumption; try nra; try reflexivity.
  apply mul_close; assumption.
Qed.
Lemma q_small k : q_ k < 1 -> k = 0%N.
Proof. intros H. change 1 with (q_ 1) in H. apply q_lt in H. lia. Qed.
Lemma fdiv_zero y : y <> 0%N -> fdiv 0 y = 0%N.
Proof. intros H. unfold fdiv. rewrite N.mul_0_l. rewrite <- (N.mul_0_l y). apply round_exact; [exact H|]. exists 0%N, 0%N. split; reflexivity. Qed.
Lemma from_parts_zero fuel e : (e < 0)%Z -> from_parts fuel 0 e = Some 0%N.
Proof.
  intros He. destruct fuel; cbn [from_parts]; (destruct (Z.leb_spec (Z.abs e) 308); [destruct (Z.leb_spec 0 e); [lia|]; rewrite fdiv_zero by apply pow10_nonzero; reflexivity|reflexivity]).
Qed.
Transparent ten.
Lemma ten_308 : ten (- 308) <= 1 # 1000000000.
Proof. vm_compute. discriminate. Qed.
Lemma ten_616 : q_ (2 ^ 64) * o_ * ten (- 616) <= 1 # 1000.
Proof. vm_compute. discriminate. Qed.
Lemma ten_309 : q_ f64_inf <= o_ * ten 309.
Proof. vm_compute. discriminate. Qed.
Lemma inf_big : q_ (2 ^ 64) * o_ * (9 # 8) + 2 < q_ f64_inf.
Proof. vm_compute. reflexivity. Qed.
Opaque ten.

(** from_parts: [W] is the exact value *)
Lemma from_parts_close s e : (s < 2 ^ 64)%N -> let W := q_ s * o_ * ten e in
  match from_parts 8 (f64_of_int s) e with
  | Some k => close (q_ k) W (6 * u_ * W + 2) /\ (k < f64_inf)%N
  | None => q_ f64_inf <= W + 6 * u_ * W + 2
  end.
Proof.
  intros Hs W. destruct u_bounds as [U1 U2]. pose proof o_pos as Ho. pose proof (q_pos s) as Hs0. pose proof (ten_pos e) as T. set (F := f64_of_int s). set (Y := q_ s * o_). assert (HY : 0 <= Y) by (unfold Y; nra). pose proof (of_int_close s) as CF. fold F in CF. fold Y in CF.
  set (D := u_ * Y) in *. assert (HD : 0 <= D) by (unfold D; nra). assert (HDY : D <= (1 # 8) * Y) by (unfold D; nra). assert (WY : W == Y * ten e) by reflexivity. assert (DW : forall x, D * x == u_ * (Y * x)) by (intros x; unfold D; qlra).
  assert (HW : 0 <= W) by (rewrite WY; nra). assert (HUW : 0 <= u_ * W) by nra. assert (UW : u_ * W <= (1 # 1000000000) * W) by nra.
  assert (YB : Y <= q_ (2 ^ 64) * o_). { unfold Y. apply Qmult_le_compat_r; [|qlra]. apply q_le. lia. }
  assert (FIN : forall k, close (q_ k) W (6 * u_ * W + 2) -> (e <= 0)%Z -> (k < f64_inf)%N).
  { intros k [C _] He. apply q_lt. pose proof inf_big. assert (ten e <= 1) by (change 1 with (ten 0); apply ten_le, He). assert (W <= Y) by (rewrite WY; nra). qlra. }
  cbn [from_parts]. destruct (Z.leb_spec (Z.abs e) 308) as [He|He].
  - destruct (Z.leb_spec 0 e) as [Hp|Hp].
    + pose proof (fmul_step F Y D e Hp HY HD HDY CF) as X. cbv zeta. set (g := fmul F (pow10 (Z.to_N e))) in *. assert (C : close (q_ g) W (6 * u_ * W + 2)).
      { destruct X as [X1 X2]. rewrite DW, <- WY in *. split; qlra. }
      destruct (N.leb_spec f64_inf g) as [G|G]; [|split; assumption]. apply q_le in G. destruct C as [C _]. qlra.
    + assert (C : close (q_ (fdiv F (pow10 (Z.to_N (- e))))) W (6 * u_ * W + 2)); [|split; [exact C|apply FIN; [exact C|lia]]].
      pose proof (fdiv_step F Y D 0 (- e) ltac:(lia) HY ltac:(qlra) HD HDY) as X. rewrite Z.opp_involutive in X. destruct X as [X1 X2]; [destruct CF; split; qlra|]. rewrite DW, <- WY in *. split; qlra.
  - assert (Z0 : forall n, n = 0%N -> q_ n == 0) by (intros n ->; reflexivity).
    destruct (N.eqb_spec F 0) as [Fz|Fz].
    + assert (Y0 : Y <= 0). { destruct CF as [_ C]. rewrite (Z0 F Fz) in C. unfold D in C. nra. }
      assert (C : close (q_ 0) W (6 * u_ * W + 2)). { change (q_ 0) with 0. assert (W <= 0) by (rewrite WY; nra). split; nra. }
      split; [exact C|vm_compute; reflexivity].
    + assert (S1 : 1 <= q_ s). { change 1 with (q_ 1). apply q_le. destruct (N.eq_dec s 0) as [Z|]; [|lia]. exfalso. apply Fz. unfold F. rewrite Z. vm_compute. reflexivity. }
      destruct (Z.leb_spec 0 e) as [Hp|Hp].
      * pose proof ten_309. assert (ten 309 <= ten e) by (apply ten_le; lia). assert (o_ * ten 309 <= o_ * ten e) by (rewrite !(Qmult_comm o_); apply Qmult_le_compat_r; qlra). assert (1 * (o_ * ten e) <= q_ s * (o_ * ten e)) by (apply Qmult_le_compat_r; [qlra|nra]). unfold W. unfold W in HUW. qlra.
      * set (F1 := fdiv F (pow10 308)). pose proof (fdiv_step F Y D 0 308 ltac:(lia) HY ltac:(qlra) HD HDY) as X. change (Z.to_N 308) with 308%N in X. fold F1 in X. change (- (308))%Z with (-308)%Z in X. set (W1 := Y * ten (-308)) in *. pose proof (ten_pos (-308)) as T3. assert (HW1 : 0 <= W1) by (unfold W1; nra).
        assert (CX : close (q_ F1) W1 ((7 # 2) * u_ * W1 + (1 # 2))). { destruct X as [X1 X2]; [destruct CF; split; qlra|]. rewrite DW in *. fold W1 in X1, X2. split; qlra. }
        clear X. assert (EW : W == W1 * ten (e + 308)). { rewrite WY. unfold W1. rewrite <- Qmult_assoc, <- ten_plus. replace (-308 + (e + 308))%Z with e by lia. reflexivity. }
        assert (TE : ten (e + 308) <= 1) by (change 1 with (ten 0); apply ten_le; lia). pose proof (ten_pos (e + 308)) as TE0. assert (HUW1 : 0 <= u_ * W1) by nra. assert (UW1 : u_ * W1 <= (1 # 1000000000) * W1) by nra.
        destruct (Z.leb_spec (Z.abs (e + 308)) 308) as [He1|He1].
        -- destruct (Z.leb_spec 0 (e + 308)); [lia|]. assert (C : close (q_ (fdiv F1 (pow10 (Z.to_N (- (e + 308)))))) W (6 * u_ * W + 2)); [|split; [exact C|apply FIN; [exact C|lia]]].
           pose proof (fdiv_step F1 W1 ((7 # 2) * u_ * W1) (1 # 2) (- (e + 308)) ltac:(lia) HW1 ltac:(qlra) ltac:(qlra) ltac:(qlra) CX) as X. rewrite Z.opp_involutive in X. destruct X as [X1 X2].
           assert (EE : (7 # 2) * u_ * W1 * ten (e + 308) == (7 # 2) * u_ * W) by (rewrite EW; qlra). rewrite EE, <- EW in *. split; qlra.
        -- destruct (Z.leb_spec 0 (e + 308)); [lia|]. assert (Lo : (e + 308 < -308)%Z) by lia.
           assert (C : close (q_ 0) W (6 * u_ * W + 2)). { change (q_ 0) with 0. assert (W <= 1). { rewrite WY. apply Qle_trans with (Y * ten (-616)); [rewrite !(Qmult_comm Y); apply Qmult_le_compat_r; [apply ten_le; lia|exact HY]|]. pose proof ten_616. pose proof (ten_pos (-616)). assert (Y * ten (-616) <= q_ (2 ^ 64) * o_ * ten (-616)) by (apply Qmult_le_compat_r; qlra). qlra. } split; qlra. }
           destruct (N.eqb_spec F1 0) as [F1z|F1z]; [split; [exact C|vm_compute; reflexivity]|].
           assert (F2z : fdiv F1 (pow10 308) = 0%N).
           { apply q_small. pose proof (fdiv_step F1 W1 ((7 # 2) * u_ * W1) (1 # 2) 308 ltac:(lia) HW1 ltac:(qlra) ltac:(qlra) ltac:(qlra) CX) as [X1 _]. change (Z.to_N 308) with 308%N in X1. change (- (308))%Z with (-308)%Z in X1.
             pose proof ten_308. pose proof ten_616. assert (W2 : W1 * ten (-308) <= 1 # 1000). { unfold W1. rewrite <- Qmult_assoc, <- ten_plus. change (-308 + -308)%Z with (-616)%Z. apply Qle_trans with (q_ (2 ^ 64) * o_ * ten (- 616)); [|assumption]. pose proof (ten_pos (-616)). apply Qmult_le_compat_r; qlra. }
             assert (0 <= W1 * ten (-308)) by nra. assert (EE : (7 # 2) * u_ * W1 * ten (-308) == (7 # 2) * u_ * (W1 * ten (-308))) by qlra. rewrite EE in X1. set (w2 := W1 * ten (-308)) in *. assert (u_ * w2 <= (1 # 1000000000) * w2) by nra. qlra. }
           rewrite F2z. pose proof (from_parts_zero 6 (e + 308 + 308) ltac:(lia)) as Zr. cbn [from_parts] in Zr. rewrite Zr. split; [exact C|vm_compute; reflexivity].
Qed.

(** ** the digits: those after the u64 is full are dropped *)
Local Open Scope N_scope.
Lemma digits_value_lt d : (forall h, In h d -> digit h) -> digits_value d < 10 ^ len d.
Proof.
  induction d as [|c d IH]; intros H; [reflexivity|]. rewrite digits_value_cons, len_cons, N.pow_add_r, N.pow_1_r. specialize (IH (fun h I => H h (or_intror I))). pose proof (H c (or_introl eq_refl)) as Hc. unfold digit in Hc. nia.
Qed.
Lemma collect_int_spec d : forall s, s < 2 ^ 64 -> (forall h, In h d -> digit h) -> let '(t, m) := collect_int s d in
  t < 2 ^ 64 /\ exists r, s * 10 ^ len d + digits_value d = t * 10 ^ m + r /\ r < 10 ^ m /\ (m = 0 \/ 2 ^ 60 < t).
Proof.
  induction d as [|c d IH]; intros s Hs H; cbn [collect_int].
  - split; [exact Hs|]. exists 0. change (len []) with 0. change (digits_value []) with 0. split; [reflexivity|]. split; [reflexivity|auto].
  - pose proof (H c (or_introl eq_refl)) as Hc. unfold digit in Hc. destruct (N.leb_spec (2 ^ 64) (s * 10 + (c - 48))) as [L|L].
    + split; [exact Hs|]. exists (digits_value (c :: d)). split; [reflexivity|]. split; [apply digits_value_lt, H|]. right. change (2 ^ 64) with 18446744073709551616 in L. change (2 ^ 60) with 1152921504606846976. lia.
    + specialize (IH _ L (fun h I => H h (or_intror I))). destruct (collect_int (s * 10 + (c - 48)) d) as [t m]. destruct IH as (Ht & r & E & Hr & M). split; [exact Ht|]. exists r. split; [|split; assumption]. rewrite digits_value_cons, len_cons, N.pow_add_r, N.pow_1_r, <- E. lia.
Qed.
Lemma collect_frac_spec d : forall s, s < 2 ^ 64 -> (forall h, In h d -> digit h) -> let '(t, l) := collect_frac s d in
  t < 2 ^ 64 /\ l <= len d /\ s * 10 ^ l <= t /\ exists r, s * 10 ^ len d + digits_value d = t * 10 ^ (len d - l) + r /\ r < 10 ^ (len d - l) /\ (l = len d \/ 2 ^ 60 < t).
Proof.
  induction d as [|c d IH]; intros s Hs H; cbn [collect_frac].
  - split; [exact Hs|]. change (len []) with 0. split; [lia|]. split; [rewrite N.pow_0_r; lia|]. exists 0. change (digits_value []) with 0. split; [reflexivity|]. split; [reflexivity|auto].
  - pose proof (H c (or_introl eq_refl)) as Hc. unfold digit in Hc. destruct (N.leb_spec (2 ^ 64) (s * 10 + (c - 48))) as [L|L].
    + split; [exact Hs|]. split; [lia|]. split; [rewrite N.pow_0_r; lia|]. exists (digits_value (c :: d)). rewrite N.sub_0_r. split; [reflexivity|]. split; [apply digits_value_lt, H|]. right. change (2 ^ 64) with 18446744073709551616 in L. change (2 ^ 60) with 1152921504606846976. lia.
    + specialize (IH _ L (fun h I => H h (or_intror I))). destruct (collect_frac (s * 10 + (c - 48)) d) as [t l]. destruct IH as (Ht & Hl & Hm & r & E & Hr & M). split; [exact Ht|]. rewrite len_cons. split; [lia|]. split; [rewrite N.pow_add_r, N.pow_1_r; pose proof (pow10_nz l); nia|].
      exists r. replace (1 + len d - (l + 1)) with (len d - l) by lia. split; [|split; [exact Hr|lia]]. rewrite digits_value_cons, N.pow_add_r, N.pow_1_r, <- E. lia.
Qed.
Lemma collect_close d f : (forall h, In h (d ++ f) -> digit h) -> let '(s, m) := collect_int 0 d in let '(t, l) := collect_frac s f in
  t < 2 ^ 64 /\ m <= len d /\ l <= len f /\ dist (digits_value (d ++ f)) (t * 10 ^ (m + (len f - l))) * 2 ^ 60 <= t * 10 ^ (m + (len f - l)).
Proof.
  intros H. assert (Hd : forall h, In h d -> digit h) by (intros; apply H, in_or_app; auto). assert (Hf : forall h, In h f -> digit h) by (intros; apply H, in_or_app; auto).
  assert (ML : snd (collect_int 0 d) <= len d). { clear. generalize 0. induction d as [|c d IH]; intros s; cbn [collect_int]; [cbn; lia|]. rewrite len_cons. destruct (2 ^ 64 <=? _); [cbn [snd]; rewrite ?len_cons; lia|]. specialize (IH (s * 10 + (c - 48))). lia. }
  pose proof (collect_int_spec d 0 eq_refl Hd) as X. destruct (collect_int 0 d) as [s m]. cbn [snd] in ML. destruct X as (Hs & r1 & E1 & R1 & M1). pose proof (collect_frac_spec f s Hs Hf) as Y. destruct (collect_frac s f) as [t l]. destruct Y as (Ht & Hl & Hm & r2 & E2 & R2 & M2).
  split; [exact Ht|]. split; [exact ML|]. split; [exact Hl|]. rewrite N.mul_0_l, N.add_0_l in E1. rewrite digits_value_app, E1. pose proof (digits_value_lt f Hf) as Df.
  assert (P : 10 ^ len f = 10 ^ l * 10 ^ (len f - l)) by (rewrite <- N.pow_add_r; f_equal; lia). rewrite N.pow_add_r. set (A := 10 ^ len f) in *. set (B := 10 ^ m) in *. set (C := 10 ^ (len f - l)) in *. set (L := 10 ^ l) in *. assert (NB : B <> 0) by apply pow10_nz. assert (NC : C <> 0) by apply pow10_nz. assert (NA : A <> 0) by apply pow10_nz.
  change (2 ^ 60) with 1152921504606846976 in *. destruct (N.eq_dec m 0) as [Zm|Zm].
  - assert (B = 1) by (unfold B; rewrite Zm; reflexivity). assert (r1 = 0) by lia. replace (s * B + r1) with s by nia. replace (t * (B * C)) with (t * C) by nia. destruct M2 as [M2|M2].
    + assert (C = 1) by (unfold C; rewrite M2, N.sub_diag; reflexivity). assert (r2 = 0) by lia. unfold dist. nia.
    + unfold dist. nia.
  - destruct M1 as [M1|M1]; [congruence|]. clear M2. assert (X1 : s * A <= t * C) by (rewrite P; nia). assert (X2 : t * C < s * A + A) by lia. set (X := t * C) in *. replace (t * (B * C)) with (X * B) by (unfold X; lia).
    assert (Y1 : s * B * A <= (s * B + r1) * A + digits_value f) by nia. assert (Y2 : (s * B + r1) * A + digits_value f < s * B * A + B * A) by nia. set (V := (s * B + r1) * A + digits_value f) in *. clearbody V X.
    assert (Z1 : s * B * A <= X * B) by nia. assert (Z2 : X * B <= s * B * A + B * A) by nia. assert (Dd : dist V (X * B) <= B * A) by (unfold dist; lia). nia.
Qed.
Lemma with_exponent_parts s start ex x : x = exp_value ex -> (Z.abs x < 2 ^ 31)%Z -> (Z.abs (start + x) < 2 ^ 31)%Z -> with_exponent s start ex = from_parts 8 (f64_of_int s) (start + x).
Proof.
  intros Ex Hx Hs. destruct ex as [|e r]; [unfold exp_value in Ex; subst x; unfold with_exponent; rewrite Z.add_0_r; reflexivity|].
  unfold with_exponent. unfold exp_value in Ex.
  assert (P : exists positive y, match r with 43 :: d => (true, d) | 45 :: d => (false, d) | _ => (true, r) end = (positive, y) /\ x = if positive then Z.of_N (dec_value y) else (- Z.of_N (dec_value y))%Z).
  { destruct r as [|h r']; [exists true, []; split; [reflexivity|exact Ex]|]. destruct (N.eq_dec h 43) as [->|N1]; [exists true, r'; split; [reflexivity|exact Ex]|]. destruct (N.eq_dec h 45) as [->|N2]; [exists false, r'; split; [reflexivity|exact Ex]|].
    exists true, (h :: r'). assert (M : forall (A : Type) (f g : bytes -> A) (z : A), match h :: r' with 43 :: d => f d | 45 :: d => g d | _ => z end = z). { intros A f0 g0 z. clear - N1 N2. destruct h as [|p]; [reflexivity|]. do 6 (destruct p as [p|p|]; try reflexivity; try (exfalso; congruence)). }
    split; [apply (M _ (fun d => (true, d)) (fun d => (false, d)))|rewrite Ex; apply (M _ (fun d => Z.of_N (dec_value d)) (fun d => (- Z.of_N (dec_value d))%Z))]. }
  destruct P as (positive & y & -> & Px). assert (Hy : dec_value y < 2 ^ 31) by (change (2 ^ 31)%Z with (Z.of_N (2 ^ 31)) in Hx; destruct positive; lia).
  destruct (N.leb_spec (2 ^ 31) (dec_value y)) as [L|L]; [lia|]. f_equal. unfold sat_i32. change (2 ^ 31)%Z with 2147483648%Z in *. destruct positive; lia.
Qed.
Lemma dist_q a b c : close (q_ a) (q_ b) (q_ c) -> dist a b <= c.
Proof. intros [H1 H2]. rewrite <- q_add in H1, H2. apply q_le in H1, H2. unfold dist. lia. Qed.
Lemma ratio_value c q a b : decimal_ratio c q a b -> b <> 0 /\ (q_ c * o_ * ten q * q_ b == q_ a)%Q.
Proof.
  unfold decimal_ratio. destruct (Z.leb_spec 0 q) as [L|L]; intros [-> ->].
  - split; [discriminate|]. rewrite !q_mul, ten_N, Z2N.id by exact L. change (q_ 1) with 1%Q. change (q_ (2 ^ 1074)) with o_. ring.
  - split; [apply pow10_nz|]. rewrite !q_mul, ten_N, Z2N.id by lia. change (q_ (2 ^ 1074)) with o_. assert (T : (ten q * ten (- q) == 1)%Q) by (rewrite <- ten_plus; replace (q + - q)%Z with 0%Z by lia; reflexivity). rewrite <- Qmult_assoc, T. ring.
Qed.
Lemma read_about t neg c q x a b : denotes t neg c q x -> len t <= 10 ^ 9 -> (Z.abs x <= 10 ^ 9)%Z -> decimal_ratio c q a b ->
  match f64_read t with
  | Some (neg', k) => neg' = neg /\ k < f64_inf /\ about k a b
  | None => (2 ^ 50 - 1) * f64_inf * b <= 2 ^ 50 * a
  end.
Proof.
  intros D Hl Hx R. apply denotes_numeral_len in D as (d & f & ex & Lt & E & Nd & Hdf & Ec & Eq & Ex). apply ratio_value in R as [Nb EV]. unfold f64_read. rewrite E.
  pose proof (collect_close d f Hdf) as C. destruct (collect_int 0 d) as [s m]. destruct (collect_frac s f) as [t' l]. destruct C as (Ht & Hm & Hlf & Hd). change (10 ^ 9) with 1000000000 in Hl. change (10 ^ 9)%Z with 1000000000%Z in Hx.
  rewrite (with_exponent_parts _ _ _ _ Ex) by (change (2 ^ 31)%Z with 2147483648%Z; lia). set (e := (Z.of_N m - Z.of_N l + x)%Z).
  pose proof (from_parts_close t' e Ht) as F. cbv zeta in F. rewrite <- Ec in Hd. set (W := (q_ t' * o_ * ten e)%Q) in *. set (V := (q_ c * o_ * ten q)%Q) in *.
  assert (HV : (0 <= V)%Q) by (unfold V; pose proof (q_pos c); pose proof o_pos; pose proof (ten_pos q); assert (0 <= q_ c * o_)%Q by nra; nra).
  assert (HW : (0 <= W)%Q) by (unfold W; pose proof (q_pos t'); pose proof o_pos; pose proof (ten_pos e); assert (0 <= q_ t' * o_)%Q by nra; nra).
  assert (VW : close V W ((1 # 1152921504606846976) * W)).
  { set (M := m + (len f - l)) in *. assert (TM : (q_ (t' * 10 ^ M) * (o_ * ten q) == W)%Q).
    { rewrite q_mul, ten_N. unfold W. assert (T : (ten e == ten (Z.of_N M) * ten q)%Q) by (rewrite <- ten_plus; replace (Z.of_N M + q)%Z with e by (unfold e, M; lia); reflexivity). rewrite T. ring. }
    assert (HD : close (1152921504606846976 * q_ c) (1152921504606846976 * q_ (t' * 10 ^ M)) (q_ (t' * 10 ^ M))).
    { assert (X : dist (1152921504606846976 * c) (1152921504606846976 * (t' * 10 ^ M)) <= t' * 10 ^ M) by (change (2 ^ 60) with 1152921504606846976 in Hd; unfold dist in *; lia). apply q_dist in X. unfold close in X. rewrite !(q_mul 1152921504606846976) in X. exact X. }
    destruct HD as [H1 H2]. pose proof o_pos as Po. pose proof (ten_pos q) as Pt. assert (PT : (0 < o_ * ten q)%Q) by nra. set (w := (o_ * ten q)%Q) in *.
    assert (EVw : (V == q_ c * w)%Q) by (unfold V, w; ring). clearbody w. set (y := q_ (t' * 10 ^ M)) in *. clearbody y. assert (J1 : (1152921504606846976 * q_ c * w <= (1152921504606846976 * y + y) * w)%Q) by (apply Qmult_le_compat_r; qlra). assert (J2 : (1152921504606846976 * y * w <= (1152921504606846976 * q_ c + y) * w)%Q) by (apply Qmult_le_compat_r; qlra). split; qlra. }
  pose proof (q_nz b Nb) as Pb. clearbody V W. change u_ with (1 # 9007199254740992)%Q in F. change (2 ^ 50) with 1125899906842624.
  destruct (from_parts 8 (f64_of_int t') e) as [k|].
  - destruct F as [[F1 F2] Fk]. destruct VW as [V1 V2]. split; [reflexivity|]. split; [exact Fk|]. unfold about. change (2 ^ 50) with 1125899906842624.
    assert (K1 : (q_ k <= V + (1 # 1125899906842624) * V + 2)%Q) by qlra. assert (K2 : (V <= q_ k + (1 # 1125899906842624) * V + 2)%Q) by qlra. clear F1 F2 V1 V2.
    assert (J1 : (q_ k * q_ b <= (V + (1 # 1125899906842624) * V + 2) * q_ b)%Q) by (apply Qmult_le_compat_r; qlra). assert (J2 : (V * q_ b <= (q_ k + (1 # 1125899906842624) * V + 2) * q_ b)%Q) by (apply Qmult_le_compat_r; qlra).
    assert (Z : dist (a * 1125899906842624) (k * b * 1125899906842624) <= a + 2 * 1125899906842624 * b); [|unfold dist in *; lia].
    apply dist_q. unfold close. rewrite q_add, !q_mul. change (q_ 1125899906842624) with 1125899906842624%Q. change (q_ 2) with 2%Q. rewrite <- EV. split; qlra.
  - destruct VW as [V1 V2]. assert (I : (1152921504606846976 <= q_ f64_inf)%Q) by (vm_compute; discriminate). assert (K : (1125899906842623 * q_ f64_inf <= 1125899906842624 * V)%Q) by qlra.
    assert (J : (1125899906842623 * q_ f64_inf * q_ b <= 1125899906842624 * V * q_ b)%Q) by (apply Qmult_le_compat_r; qlra). apply q_le. rewrite !q_mul, <- EV. change (q_ (1125899906842624 - 1)) with 1125899906842623%Q. change (q_ 1125899906842624) with 1125899906842624%Q. qlra.
Qed.
