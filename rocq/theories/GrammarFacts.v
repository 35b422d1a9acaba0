(** The JSON reader accepts exactly the grammar. *)
From Verif Require Import Base StdStr Data Json Spec PrimsDefs DataDefs GrammarDefs.
From Verif Require Import BaseFacts StdStrFacts PrimsFacts DataFacts JsonFacts ImportFacts SaiderFacts.

(** ** white space *)
Lemma skip_ws_ws w s : ws w -> skip_ws (w ++ s) = skip_ws s.
Proof.
  intros H. induction w as [|c w IH]; [reflexivity|]. cbn [app skip_ws]. pose proof (H c (or_introl eq_refl)) as Hc. cbn in Hc.
  replace ((c =? 32) || (c =? 10) || (c =? 9) || (c =? 13)) with true by (destruct Hc as [<-|[<-|[<-|[<-|[]]]]]; reflexivity).
  apply IH. intros x I. apply H. right. exact I.
Qed.
Lemma skip_ws_inv s : exists w, ws w /\ s = w ++ skip_ws s.
Proof.
  induction s as [|c s [w [Hw E]]]; [exists []; split; [intros ? []|reflexivity]|]. cbn [skip_ws].
  destruct ((c =? 32) || (c =? 10) || (c =? 9) || (c =? 13)) eqn:B; [|exists []; split; [intros ? []|reflexivity]].
  exists (c :: w). split; [|cbn; f_equal; exact E]. intros x [<-|I]; [|apply Hw; exact I].
  apply orb_true_iff in B as [B|B]; [apply orb_true_iff in B as [B|B]; [apply orb_true_iff in B as [B|B]|]|]; apply N.eqb_eq in B; subst; cbn; tauto.
Qed.
Lemma ws_nil : ws []. Proof. intros ? []. Qed.

(** ** strings *)
Lemma hex4_iff s n r : hex4 s = Some (n, r) <-> exists h, length h = 4%nat /\ hex_numeral h n /\ s = h ++ r.
Proof.
  split.
  - destruct s as [|a [|b [|c [|d q]]]]; try discriminate. cbn [hex4].
    destruct (digit_val 16 a) as [a'|] eqn:Ea; [|discriminate]. destruct (digit_val 16 b) as [b'|] eqn:Eb; [|discriminate].
    destruct (digit_val 16 c) as [c'|] eqn:Ec; [|discriminate]. destruct (digit_val 16 d) as [d'|] eqn:Ed; [|discriminate].
    intros X. injection X as <- <-. exists [a; b; c; d]. split; [reflexivity|]. split; [|reflexivity]. apply hex_numeral_val. cbn [StdStr.digits_val]. rewrite Ea, Eb, Ec, Ed. f_equal; lia.
  - intros (h & L & Hn & ->). destruct h as [|a [|b [|c [|d [|x h]]]]]; try discriminate L. apply hex_numeral_val in Hn. cbn [app hex4]. cbn [StdStr.digits_val] in Hn.
    destruct (digit_val 16 a) as [a'|]; [|discriminate]. destruct (digit_val 16 b) as [b'|]; [|discriminate].
    destruct (digit_val 16 c) as [c'|]; [|discriminate]. destruct (digit_val 16 d) as [d'|]; [|discriminate].
    injection Hn as <-. rewrite N.mul_0_l, N.add_0_l. reflexivity.
Qed.
Lemma digit_val_16 c d : digit_val 16 c = Some d -> d < 16.
Proof. intros H. apply hex_digit_val in H. unfold hex_digit in H. lia. Qed.
Lemma hex4_bound s n r : hex4 s = Some (n, r) -> n < 65536.
Proof.
  destruct s as [|a [|b [|c [|d q]]]]; try discriminate. cbn [hex4].
  destruct (digit_val 16 a) as [a'|] eqn:Ea; [|discriminate]. destruct (digit_val 16 b) as [b'|] eqn:Eb; [|discriminate].
  destruct (digit_val 16 c) as [c'|] eqn:Ec; [|discriminate]. destruct (digit_val 16 d) as [d'|] eqn:Ed; [|discriminate].
  intros X. injection X as <- <-. apply digit_val_16 in Ea, Eb, Ec, Ed. lia.
Qed.
Lemma div64 n : n = n / 64 * 64 + n mod 64. Proof. pose proof (N.div_mod n 64 ltac:(lia)). lia. Qed.
Lemma utf8_encode_iff n u : n < 1114112 -> utf8_encode n = u <-> utf8_char n u.
Proof.
  intros B. pose proof (div64 n) as E0. pose proof (div64 (n / 64)) as E1. pose proof (div64 (n / 64 / 64)) as E2.
  pose proof (N.mod_lt n 64 ltac:(lia)) as M0. pose proof (N.mod_lt (n / 64) 64 ltac:(lia)) as M1. pose proof (N.mod_lt (n / 64 / 64) 64 ltac:(lia)) as M2.
  assert (Q1 : n / 4096 = n / 64 / 64) by (rewrite N.div_div by lia; reflexivity). assert (Q2 : n / 262144 = n / 64 / 64 / 64) by (rewrite !N.div_div by lia; reflexivity).
  unfold utf8_encode. rewrite Q1, Q2.
  set (q0 := n / 64) in *. set (r0 := n mod 64) in *. set (q1 := q0 / 64) in *. set (r1 := q0 mod 64) in *. set (q2 := q1 / 64) in *. set (r2 := q1 mod 64) in *. clearbody q0 r0 q1 r1 q2 r2. clear Q1 Q2.
  split.
  - intros <-. destruct (N.ltb_spec n 128); [constructor; assumption|]. destruct (N.ltb_spec n 2048); [constructor; Lia.lia|]. destruct (N.ltb_spec n 65536); [apply u3; Lia.lia|apply u4; Lia.lia].
  - intros H. destruct H as [n H|n a b H Hb E|n a b c H Hb Hc E|n a b c d H Hb Hc Hd E].
    + destruct (N.ltb_spec n 128); [reflexivity|Lia.lia].
    + destruct (N.ltb_spec n 128); [Lia.lia|]. destruct (N.ltb_spec n 2048); [|Lia.lia]. repeat f_equal; Lia.lia.
    + destruct (N.ltb_spec n 128); [Lia.lia|]. destruct (N.ltb_spec n 2048); [Lia.lia|]. destruct (N.ltb_spec n 65536); [|Lia.lia].
      assert (a * 64 + b = q0) by Lia.lia. assert (c = r0) by Lia.lia. assert (a = q1) by Lia.lia. assert (b = r1) by Lia.lia. subst. reflexivity.
    + destruct (N.ltb_spec n 128); [Lia.lia|]. destruct (N.ltb_spec n 2048); [Lia.lia|]. destruct (N.ltb_spec n 65536); [Lia.lia|].
      assert ((a * 64 + b) * 64 + c = q0) by Lia.lia. assert (d = r0) by Lia.lia. assert (a * 64 + b = q1) by Lia.lia. assert (c = r1) by Lia.lia. assert (a = q2) by Lia.lia. assert (b = r2) by Lia.lia. subst. reflexivity.
Qed.

(** what an escape is, after the backslash *)
Inductive escape : bytes -> bytes -> Prop :=
| e_short e c : In (e, c) short_escapes -> escape [e] [c]
| e_code h n u : length h = 4%nat -> hex_numeral h n -> ~ (55296 <= n <= 57343) -> utf8_char n u -> escape ([117] ++ h) u
| e_pair h1 h2 n m u : length h1 = 4%nat -> length h2 = 4%nat -> hex_numeral h1 n -> hex_numeral h2 m -> 55296 <= n <= 56319 -> 56320 <= m <= 57343 ->
    utf8_char (65536 + (n - 55296) * 1024 + (m - 56320)) u -> escape ([117] ++ h1 ++ [92; 117] ++ h2) u.
Lemma jbody_escape e u b s : escape e u -> jbody b s -> jbody (92 :: e ++ b) (u ++ s).
Proof.
  intros H Hb. destruct H.
  - apply (jb_short e c b s); auto.
  - rewrite <- app_assoc. apply (jb_code h n u b s); auto.
  - rewrite <- !app_assoc. apply (jb_pair h1 h2 n m u b s); auto.
Qed.
Lemma match117 (A : Type) (f : bytes -> option A) s y : match s with 92 :: 117 :: r => f r | _ => None end = Some y -> exists r, s = 92 :: 117 :: r /\ f r = Some y.
Proof. intros E. peel_num E. eauto. Qed.
Lemma read_escape_u r : read_escape (117 :: r) = match hex4 r with
    | None => None
    | Some (n, r) =>
      if (56320 <=? n) && (n <=? 57343) then None
      else if (55296 <=? n) && (n <=? 56319) then
        match r with
        | 92 :: 117 :: r =>
          match hex4 r with
          | None => None
          | Some (m, r) => if (56320 <=? m) && (m <=? 57343) then Some (utf8_encode (65536 + (n - 55296) * 1024 + (m - 56320)), r) else None
          end
        | _ => None
        end
      else Some (utf8_encode n, r)
    end.
Proof. reflexivity. Qed.
Lemma read_escape_sound s u r : read_escape s = Some (u, r) -> exists e, escape e u /\ s = e ++ r.
Proof.
  intros E. destruct s as [|c s]; [discriminate|]. destruct (N.eq_dec c 117) as [->|Nc].
  - rewrite read_escape_u in E. destruct (hex4 s) as [[n q]|] eqn:H1; [|discriminate]. pose proof (hex4_bound _ _ _ H1) as B1. apply hex4_iff in H1 as (h & L & Hn & ->).
    destruct ((56320 <=? n) && (n <=? 57343)) eqn:T1; [discriminate|]. destruct ((55296 <=? n) && (n <=? 56319)) eqn:T2.
    + apply match117 in E as (q' & -> & E). destruct (hex4 q') as [[m q2]|] eqn:H2; [|discriminate]. apply hex4_iff in H2 as (h2 & L2 & Hm & ->).
      destruct ((56320 <=? m) && (m <=? 57343)) eqn:T3; [|discriminate]. injection E as <- <-. exists ([117] ++ h ++ [92; 117] ++ h2). split; [|rewrite <- !app_assoc; reflexivity].
      apply (e_pair h h2 n m); auto; try lia. apply utf8_encode_iff; [lia|reflexivity].
    + injection E as <- <-. exists ([117] ++ h). split; [|rewrite <- app_assoc; reflexivity]. apply (e_code h n); auto; [lia|]. apply utf8_encode_iff; [lia|reflexivity].
  - assert (X : forall v, Some ([v], s) = Some (u, r) -> In (c, v) short_escapes -> exists e, escape e u /\ c :: s = e ++ r).
    { intros v Ev I. injection Ev as <- <-. exists [c]. split; [constructor; exact I|reflexivity]. }
    cbn [read_escape] in E. destruct c as [|p]; [discriminate|].
    do 7 (destruct p as [p|p|]; try discriminate E; try (exfalso; apply Nc; reflexivity); try (eapply X; [exact E|cbn; tauto])).
Qed.
Lemma read_escape_ok e u r : escape e u -> read_escape (e ++ r) = Some (u, r).
Proof.
  intros H. destruct H as [e c I|h n u L Hn Nn U|h1 h2 n m u L1 L2 Hn Hm Bn Bm U].
  - cbn in I. repeat (destruct I as [I|I]; [injection I as <- <-; reflexivity|]). destruct I.
  - cbn [app]. rewrite read_escape_u. assert (H4 : hex4 (h ++ r) = Some (n, r)) by (apply hex4_iff; eauto). rewrite H4. pose proof (hex4_bound _ _ _ H4).
    replace ((56320 <=? n) && (n <=? 57343)) with false by lia. replace ((55296 <=? n) && (n <=? 56319)) with false by lia. rewrite (proj2 (utf8_encode_iff n u ltac:(lia)) U). reflexivity.
  - cbn [app]. rewrite <- !app_assoc. rewrite read_escape_u. rewrite (proj2 (hex4_iff _ n ([92; 117] ++ h2 ++ r))) by eauto.
    replace ((56320 <=? n) && (n <=? 57343)) with false by lia. replace ((55296 <=? n) && (n <=? 56319)) with true by lia. cbn [app].
    rewrite (proj2 (hex4_iff _ m r)) by eauto. replace ((56320 <=? m) && (m <=? 57343)) with true by lia. assert (B : 65536 + (n - 55296) * 1024 + (m - 56320) < 1114112) by Lia.lia. rewrite (proj2 (utf8_encode_iff _ u B) U). reflexivity.
Qed.
Lemma read_string_S f s : read_string (S f) s =
    match s with
    | [] => None
    | c :: r =>
      if c =? 34 then Some ([], r)
      else if c =? 92 then
        match read_escape r with
        | None => None
        | Some (e, r) => match read_string f r with Some (x, t) => Some (e ++ x, t) | None => None end
        end
      else if c <? 32 then None
      else match read_string f r with Some (x, t) => Some (c :: x, t) | None => None end
    end.
Proof. reflexivity. Qed.
Lemma read_string_sound f : forall s x r, read_string f s = Some (x, r) -> exists b, jbody b x /\ s = b ++ 34 :: r.
Proof.
  induction f as [|f IH]; intros s x r E; [discriminate|]. rewrite read_string_S in E. destruct s as [|c s]; [discriminate|].
  destruct (N.eqb_spec c 34) as [->|N1]; [injection E as <- <-; exists []; split; [constructor|reflexivity]|].
  destruct (N.eqb_spec c 92) as [->|N2].
  - destruct (read_escape s) as [[e q]|] eqn:Ee; [|discriminate]. destruct (read_string f q) as [[y t]|] eqn:Er; [|discriminate]. injection E as <- <-.
    apply read_escape_sound in Ee as (h & He & ->). apply IH in Er as (b & Hb & ->). exists (92 :: h ++ b). split; [apply jbody_escape; auto|]. cbn. rewrite <- app_assoc. reflexivity.
  - destruct (N.ltb_spec c 32); [discriminate|]. destruct (read_string f s) as [[y t]|] eqn:Er; [|discriminate]. injection E as <- <-. apply IH in Er as (b & Hb & ->). exists (c :: b). split; [constructor; auto|reflexivity].
Qed.
Lemma jbody_inv b s : jbody b s -> b = [] /\ s = [] \/ (exists c b' s', b = c :: b' /\ s = c :: s' /\ 32 <= c /\ c <> 34 /\ c <> 92 /\ jbody b' s') \/ exists e u b' s', b = 92 :: e ++ b' /\ s = u ++ s' /\ escape e u /\ jbody b' s'.
Proof.
  intros H. destruct H.
  - left. auto.
  - right. left. exists c, b, s. auto 10.
  - right. right. exists [e], [c], b, s. repeat split; auto. constructor. auto.
  - right. right. exists ([117] ++ h), u, b, s. rewrite <- app_assoc. repeat split; auto. econstructor; eauto.
  - right. right. exists ([117] ++ h1 ++ [92; 117] ++ h2), u, b, s. rewrite <- !app_assoc. repeat split; auto. econstructor; [| | | |exact H3|exact H4|]; eauto.
Qed.
Lemma read_string_ok f : forall b s r, jbody b s -> (length b < f)%nat -> read_string f (b ++ 34 :: r) = Some (s, r).
Proof.
  induction f as [|f IH]; intros b s r Hb L; [Lia.lia|]. rewrite read_string_S. apply jbody_inv in Hb as [[-> ->]|[(c & b' & s' & -> & -> & H1 & H2 & H3 & Hb)|(e & u & b' & s' & -> & -> & He & Hb)]].
  - reflexivity.
  - cbn [app length] in *. replace (c =? 34) with false by lia. replace (c =? 92) with false by lia. replace (c <? 32) with false by lia. rewrite (IH b' s' r Hb) by Lia.lia. reflexivity.
  - cbn [app length] in *. change (92 =? 34) with false. change (92 =? 92) with true. cbv iota. rewrite <- app_assoc. rewrite (read_escape_ok e u _ He). rewrite app_length in L. rewrite (IH b' s' r Hb) by Lia.lia. reflexivity.
Qed.
Lemma read_str_iff s x r : read_str s = Some (x, r) <-> exists b, jbody b x /\ s = b ++ 34 :: r.
Proof.
  unfold read_str. split; [apply read_string_sound|]. intros (b & Hb & ->). apply read_string_ok; [exact Hb|]. rewrite app_length. Lia.lia.
Qed.

(** ** numbers *)
Lemma dec_digits d : (forall c, In c d -> digit c) -> Forall2 (fun c x => digit_val 10 c = Some x) d (map (fun c => c - 48) d).
Proof.
  induction d as [|c d IH]; intros H; cbn [map]; constructor.
  - pose proof (H c (or_introl eq_refl)) as Hc. unfold digit in Hc. unfold digit_val. replace ((48 <=? c) && (c <=? 57)) with true by lia. cbv iota. replace (c - 48 <? 10) with true by lia. reflexivity.
  - apply IH. intros x I. apply H. right. exact I.
Qed.
Lemma decimal_value d : int_part d -> decimal d (dec_value d).
Proof.
  intros I. split; [exact I|]. destruct I as (_ & Hd & _). unfold dec_value. rewrite (digits_val_ok 10 d _ (dec_digits d Hd)). symmetry. apply value_val_eq.
Qed.
Lemma decimal_val d n : decimal d n -> int_part d /\ dec_value d = n.
Proof. intros [I E]. split; [exact I|]. destruct (decimal_value d I) as [_ E']. congruence. Qed.

Definition frac_ok (fr : bytes) : Prop := fr = [] \/ exists f, fr = 46 :: f /\ f <> [] /\ forall c, In c f -> digit c.
Definition exp_ok (ex : bytes) : Prop := ex = [] \/ exists e s x, ex = e :: s ++ x /\ (e = 101 \/ e = 69) /\ (s = [] \/ s = [43] \/ s = [45]) /\ x <> [] /\ forall c, In c x -> digit c.
Lemma read_frac_inv s fr r : read_frac s = Some (fr, r) -> s = fr ++ r /\ frac_ok fr.
Proof.
  intros E. destruct (N.eq_dec (hd 0 s) 46) as [H|H].
  - destruct s as [|c s]; cbn [hd] in H; [discriminate H|]. subst c. cbn [read_frac] in E. destruct (span_digits s) as [d t] eqn:Es. apply span_digits_inv in Es as (-> & Hd & _).
    destruct d as [|c d]; [discriminate E|]. injection E as <- <-. split; [reflexivity|]. right. exists (c :: d). split; [reflexivity|]. split; [discriminate|exact Hd].
  - rewrite read_frac_none in E by (destruct s; [exact I|exact H]). injection E as <- <-. split; [reflexivity|left; reflexivity].
Qed.
Lemma sign_inv (s : bytes) : exists sg q, match s with 43 :: r' => ([43], r') | 45 :: r' => ([45], r') | _ => ([], s) end = ((sg, q) : bytes * bytes) /\ s = sg ++ q /\ (sg = [] \/ sg = [43] \/ sg = [45]).
Proof.
  destruct s as [|c s]; [exists [], []; auto|]. destruct (N.eq_dec c 43) as [->|N1]; [exists [43], s; auto|]. destruct (N.eq_dec c 45) as [->|N2]; [exists [45], s; auto|].
  exists [], (c :: s). split; [|auto]. destruct c as [|p]; [reflexivity|]. do 6 (destruct p as [p|p|]; try reflexivity; try congruence).
Qed.
Lemma read_exp_inv s ex r : read_exp s = Some (ex, r) -> s = ex ++ r /\ exp_ok ex.
Proof.
  intros E. destruct s as [|c s]; [injection E as <- <-; split; [reflexivity|left; reflexivity]|]. cbn [read_exp] in E.
  destruct ((c =? 101) || (c =? 69)) eqn:B; [|injection E as <- <-; split; [reflexivity|left; reflexivity]].
  destruct (sign_inv s) as (sg & q & Eq & Es' & Hs). match type of E with match ?m with _ => _ end = _ => assert (Em : m = (sg, q)) by exact Eq; rewrite Em in E; clear Em end. clear Eq. subst s. destruct (span_digits q) as [d t] eqn:Es. apply span_digits_inv in Es as (-> & Hd & _).
  destruct d as [|x d]; [discriminate E|]. injection E as <- <-. split; [cbn; rewrite <- app_assoc; reflexivity|]. right. exists c, sg, (x :: d). split; [reflexivity|]. split; [lia|]. split; [exact Hs|]. split; [discriminate|exact Hd].
Qed.
Section N.
Context `{F : Floats}.
Definition sgn (neg : bool) (t : bytes) : bytes := if neg then 45 :: t else t.
Lemma read_float_inv t n : read_float t = Some n -> exists u, float_of_text t = Some u /\ n = JFlt u.
Proof. unfold read_float. destruct (float_of_text t) as [u|]; [|discriminate]. intros X. injection X as <-. eauto. Qed.
Lemma read_number_sound neg s n r : read_number neg s = Some (n, r) -> exists t, s = t ++ r /\ jnumber (sgn neg t) n.
Proof.
  unfold read_number. destruct (span_digits s) as [d q] eqn:Es. apply span_digits_inv in Es as (-> & Hd & _). destruct d as [|c d]; [discriminate|].
  destruct ((c =? 48) && negb (len d =? 0)) eqn:Z; [discriminate|].
  assert (I : int_part (c :: d)).
  { split; [discriminate|]. split; [exact Hd|]. intros w Ew. injection Ew as -> <-. change (48 =? 48) with true in Z. cbn [andb] in Z. destruct d as [|x d]; [reflexivity|]. unfold len in Z. cbn [length] in Z. lia. }
  destruct (read_frac q) as [[fr q1]|] eqn:Ef; [|discriminate]. apply read_frac_inv in Ef as (-> & Hf). destruct (read_exp q1) as [[ex q2]|] eqn:Ee; [|discriminate]. apply read_exp_inv in Ee as (-> & He).
  cbv zeta. remember (c :: d) as D eqn:ED. clear ED c d Z. pose proof (decimal_value D I) as V.
  assert (X : forall o, match o with Some x => Some (x, q2) | None => None end = Some (n, r) -> o = Some n /\ q2 = r) by (intros [x|]; [intros Y; injection Y as <- <-; auto|discriminate]).
  assert (Y : fr <> [] \/ ex <> [] -> match read_float ((if neg then [45] else []) ++ D ++ fr ++ ex) with Some x => Some (x, q2) | None => None end = Some (n, r) -> exists t, D ++ fr ++ ex ++ q2 = t ++ r /\ jnumber (sgn neg t) n).
  { intros Hn E. apply X in E as [E <-]. apply read_float_inv in E as (u & E & ->). exists (D ++ fr ++ ex). split; [rewrite <- !app_assoc; reflexivity|]. destruct neg; cbn [sgn app] in *.
    - apply jn_float; [|exact E]. exists [45], D, fr, ex. split; [reflexivity|]. split; [right; reflexivity|]. split; [exact I|]. split; [exact Hf|]. split; [exact He|exact Hn].
    - apply jn_float; [|exact E]. exists [], D, fr, ex. split; [reflexivity|]. split; [left; reflexivity|]. split; [exact I|]. split; [exact Hf|]. split; [exact He|exact Hn]. }
  destruct fr as [|f fr]; [|apply Y; left; discriminate]. destruct ex as [|e ex]; [|apply Y; right; discriminate]. cbn [app]. clear Y. destruct neg.
  - destruct ((dec_value D =? 0) || (2 ^ 63 <? dec_value D)) eqn:T.
    + intros E. apply X in E as [E <-]. apply read_float_inv in E as (u & E & ->). exists D. split; [reflexivity|]. apply (jn_low D (dec_value D)); [exact V| |exact E]. apply orb_true_iff in T as [T|T]; [left; apply N.eqb_eq; exact T|right; apply N.ltb_lt; exact T].
    + intros E. injection E as <- <-. exists D. split; [reflexivity|]. apply jn_neg; [exact V|]. apply orb_false_iff in T as [T1 T2]. apply N.eqb_neq in T1. apply N.ltb_ge in T2. Lia.lia.
  - destruct (N.ltb_spec (dec_value D) (2 ^ 64)) as [T|T].
    + intros E. injection E as <- <-. exists D. split; [reflexivity|]. apply jn_pos; [exact V|exact T].
    + intros E. apply X in E as [E <-]. apply read_float_inv in E as (u & E & ->). exists D. split; [reflexivity|]. apply (jn_big D (dec_value D)); [exact V|exact T|exact E].
Qed.
(** how a number starts, and that the reader takes all of it *)
Lemma read_number_ok t n r : jnumber t n -> num_stop r -> exists neg q, t = sgn neg q /\ (neg = false -> exists c q', q = c :: q' /\ digit c) /\ read_number neg (q ++ r) = Some (n, r).
Proof.
  intros H S. assert (Hd : forall d, int_part d -> exists c q', d = c :: q' /\ digit c) by (intros d (Ne & D & _); destruct d as [|c d]; [congruence|]; exists c, d; split; [reflexivity|apply D; left; reflexivity]).
  destruct H as [d n V L|d n V L|t u Ft Fo|d n u V L Fo|d n u V L Fo].
  - apply decimal_val in V as [I V]. exists false, d. split; [reflexivity|]. split; [intros _; apply Hd; exact I|]. rewrite read_number_int by auto. rewrite V. rewrite (proj2 (N.ltb_lt _ _) L). reflexivity.
  - apply decimal_val in V as [I V]. exists true, d. split; [reflexivity|]. split; [discriminate|]. rewrite read_number_int by auto. rewrite V. rewrite (proj2 (N.eqb_neq n 0)) by Lia.lia. rewrite (proj2 (N.ltb_ge (2 ^ 63) n)) by apply L. reflexivity.
  - destruct Ft as (sign & d & fr & ex & -> & Hs & I & Hf & He & Hn). destruct Hs as [-> | ->].
    + exists false, (d ++ fr ++ ex). split; [reflexivity|]. split. { intros _. destruct (Hd d I) as (c & q & -> & Dc). exists c, (q ++ fr ++ ex). split; [reflexivity|exact Dc]. }
      rewrite <- !app_assoc. rewrite read_number_float by auto. cbn [app]. unfold read_float. cbn [app] in Fo. rewrite Fo. reflexivity.
    + exists true, (d ++ fr ++ ex). split; [reflexivity|]. split; [discriminate|]. rewrite <- !app_assoc. rewrite read_number_float by auto. unfold read_float. rewrite Fo. reflexivity.
  - apply decimal_val in V as [I V]. exists false, d. split; [reflexivity|]. split; [intros _; apply Hd; exact I|]. rewrite read_number_int by auto. rewrite V. rewrite (proj2 (N.ltb_ge n (2 ^ 64)) L). unfold read_float. rewrite Fo. reflexivity.
  - apply decimal_val in V as [I V]. exists true, d. split; [reflexivity|]. split; [discriminate|]. rewrite read_number_int by auto. rewrite V.
    replace ((n =? 0) || (2 ^ 63 <? n)) with true by (symmetry; apply orb_true_iff; destruct L as [L|L]; [left; apply N.eqb_eq; exact L|right; apply N.ltb_lt; exact L]). unfold read_float. rewrite Fo. reflexivity.
Qed.
End N.

(** ** repeated keys *)
Definition entries (l : list (bytes * json)) (acc : list (bytes * json)) : list (bytes * json) := fold_left (fun acc kv => map_insert (fst kv) (snd kv) acc) l acc.
Lemma firsts_In l k : In k (firsts l) <-> In k l.
Proof.
  induction l as [|x l IH]; [reflexivity|]. cbn [firsts In]. rewrite filter_In, IH. split.
  - intros [H|[H _]]; auto.
  - intros [H|H]; auto. destruct (bytes_eqb x k) eqn:E; [left; apply bytes_eqb_eq; exact E|right; split; [exact H|reflexivity]].
Qed.
Lemma firsts_NoDup l : NoDup (firsts l).
Proof.
  induction l as [|x l IH]; constructor.
  - rewrite filter_In. intros [_ H]. rewrite (proj2 (bytes_eqb_eq x x) eq_refl) in H. discriminate H.
  - apply NoDup_filter. exact IH.
Qed.
Lemma firsts_snoc l k : firsts (l ++ [k]) = if existsb (bytes_eqb k) l then firsts l else firsts l ++ [k].
Proof.
  induction l as [|x l IH]; [reflexivity|]. cbn [app firsts existsb]. rewrite IH. destruct (bytes_eqb k x) eqn:E.
  - apply bytes_eqb_eq in E. subst x. cbn [orb]. destruct (existsb _ _); [reflexivity|]. rewrite filter_app. cbn [filter]. rewrite (proj2 (bytes_eqb_eq k k) eq_refl). cbn [negb]. rewrite app_nil_r. reflexivity.
  - cbn [orb]. destruct (existsb _ _); [reflexivity|]. rewrite filter_app. cbn [filter]. replace (bytes_eqb x k) with false; [reflexivity|]. symmetry. apply not_true_iff_false. intros X. apply bytes_eqb_eq in X. subst. rewrite (proj2 (bytes_eqb_eq k k) eq_refl) in E. discriminate E.
Qed.
Lemma last_split {A} (k k' : bytes) (j j' : A) l before after : l ++ [(k', j')] = before ++ (k, j) :: after -> (after = [] /\ before = l /\ (k, j) = (k', j')) \/ exists a, after = a ++ [(k', j')] /\ l = before ++ (k, j) :: a.
Proof.
  intros E. destruct (rev after) as [|x q] eqn:R.
  - left. apply (f_equal (@rev _)) in R. rewrite rev_involutive in R. cbn in R. subst after. apply app_inj_tail in E as [-> ->]. auto.
  - right. apply (f_equal (@rev _)) in R. rewrite rev_involutive in R. cbn in R. subst after. rewrite app_comm_cons, app_assoc in E. apply app_inj_tail in E as [-> ->]. exists (rev q). auto.
Qed.
Lemma entries_last_wins l : last_wins l (entries l []).
Proof.
  induction l as [|[k j] l [IK IV]] using rev_ind; [split; [reflexivity|intros k j; split; [intros []|intros (b & a & E & _); destruct b; discriminate E]]|].
  unfold entries. rewrite fold_left_app. fold (entries l []). cbn [fold_left fst snd]. set (o := entries l []) in *. clearbody o.
  assert (Nd : NoDup (map fst o)) by (rewrite IK; apply firsts_NoDup).
  split.
  - rewrite map_app. cbn [map fst]. rewrite firsts_snoc. destruct (existsb (bytes_eqb k) (map fst l)) eqn:E.
    + apply existsb_exists in E as (x & I & E). apply bytes_eqb_eq in E. subst x. rewrite map_insert_keys; [exact IK|]. rewrite IK. apply firsts_In. exact I.
    + rewrite map_insert_new; [rewrite map_app; cbn; rewrite IK; reflexivity|]. rewrite IK, firsts_In. intros I. rewrite (proj2 (existsb_exists _ _)) in E; [discriminate E|]. exists k. split; [exact I|apply bytes_eqb_eq; reflexivity].
  - intros k' j'. pose proof (map_insert_NoDup k j o Nd) as Nd'. split.
    + intros I. apply In_map_get in I; [|exact Nd']. rewrite map_get_insert in I. destruct (bytes_eqb k' k) eqn:E.
      * apply bytes_eqb_eq in E. subst k'. injection I as <-. exists l, []. split; [reflexivity|intros []].
      * apply map_get_In in I. apply IV in I as (b & a & -> & Na). exists b, (a ++ [(k, j)]). split; [rewrite <- app_assoc; reflexivity|]. rewrite map_app, in_app_iff. cbn. intros [H|[H|[]]]; [apply Na; exact H|]. subst k'. rewrite (proj2 (bytes_eqb_eq k k) eq_refl) in E. discriminate E.
    + intros (b & a & E & Na). apply map_get_In. rewrite map_get_insert. apply last_split in E as [(-> & -> & E)|(a' & -> & ->)].
      * injection E as -> ->. rewrite (proj2 (bytes_eqb_eq k k) eq_refl). reflexivity.
      * rewrite map_app, in_app_iff in Na. cbn in Na. destruct (bytes_eqb k' k) eqn:E; [apply bytes_eqb_eq in E; subst; exfalso; apply Na; right; left; reflexivity|].
        apply In_map_get; [exact Nd|]. apply IV. exists b, a'. split; [reflexivity|]. intros I. apply Na. left. exact I.
Qed.
Lemma last_wins_unique l o : last_wins l o -> o = entries l [].
Proof.
  intros [K V]. destruct (entries_last_wins l) as [K' V']. set (e := entries l []) in *. clearbody e.
  assert (Nd : NoDup (map fst o)) by (rewrite K; apply firsts_NoDup). assert (Ne : NoDup (map fst e)) by (rewrite K'; apply firsts_NoDup).
  apply map_ext_get; [exact Nd|congruence|]. intros k. destruct (map_get k o) as [j|] eqn:E.
  - apply map_get_In in E. apply V in E. apply V' in E. symmetry. apply In_map_get; assumption.
  - apply map_get_None in E. symmetry. apply map_get_None. rewrite K', <- K. exact E.
Qed.

(** ** values *)
Scheme jvalue_m := Minimality for jvalue Sort Prop with jelems_m := Minimality for jelems Sort Prop with jmembers_m := Minimality for jmembers Sort Prop.
Combined Scheme jgrammar_ind from jvalue_m, jelems_m, jmembers_m.
Lemma num_stop_ws w c r : ws w -> num_stop (c :: r) -> num_stop (w ++ c :: r).
Proof. intros H S. destruct w as [|x w]; [exact S|]. pose proof (H x (or_introl eq_refl)) as X. cbn in *. destruct X as [<-|[<-|[<-|[<-|[]]]]]; repeat split; try discriminate; Lia.lia. Qed.
Lemma jstring_head q k : jstring q k -> exists b, q = 34 :: b ++ [34] /\ jbody b k.
Proof. intros (b & -> & H). exists b. split; [reflexivity|exact H]. Qed.
Section V.
Context `{F : Floats}.
Lemma head_text c q w r : ws w -> head_ok c -> skip_ws (w ++ (c :: q) ++ r) = c :: q ++ r.
Proof. intros W H. rewrite skip_ws_ws by exact W. cbn [app]. unfold head_ok in H. apply skip_ws_head; tauto. Qed.
Lemma jvalue_head d t j : jvalue d t j -> exists c q, t = c :: q /\ head_ok c.
Proof.
  intros H. destruct H as [d|d|d|d t n H|d t s H|d w H|d t a H|d w H|d t l o H Hl]; try (eexists _, _; split; [reflexivity|unfold head_ok; lia]).
  - exists 110, (s2b "ull"). split; [reflexivity|unfold head_ok; lia].
  - exists 116, (s2b "rue"). split; [reflexivity|unfold head_ok; lia].
  - exists 102, (s2b "alse"). split; [reflexivity|unfold head_ok; lia].
  - destruct (read_number_ok t n [] H I) as (neg & q & -> & X & _). destruct neg; cbn [sgn].
    + eexists _, _. split; [reflexivity|unfold head_ok; lia].
    + destruct (X eq_refl) as (c & q' & -> & Dc). exists c, q'. split; [reflexivity|apply digit_head_ok; exact Dc].
  - destruct H as (b & -> & _). eexists _, _. split; [reflexivity|unfold head_ok; lia].
Qed.
Lemma jelems_head d t a r : jelems d t a -> exists c q, skip_ws (t ++ r) = c :: q /\ head_ok c.
Proof.
  intros H. destruct H as [d w1 t w2 j W1 V W2|d w1 t w2 j u a W1 V W2 E]; destruct (jvalue_head _ _ _ V) as (c & q & -> & Hc); rewrite <- !app_assoc; rewrite head_text by auto; eauto.
Qed.
Lemma jmembers_head d t l r : jmembers d t l -> exists q, skip_ws (t ++ r) = 34 :: q.
Proof.
  intros H. destruct H as [d w1 q k w2 w3 t w4 j W1 Q|d w1 q k w2 w3 t w4 j u l W1 Q]; destruct (jstring_head _ _ Q) as (b & -> & _); rewrite <- !app_assoc; rewrite head_text by (auto; unfold head_ok; lia); eauto.
Qed.
Lemma read_value_head f D w c q r : ws w -> head_ok c -> read_value (S f) D (w ++ (c :: q) ++ r) = read_value (S f) D (c :: q ++ r).
Proof. intros W H. rewrite !read_value_S. rewrite head_text by auto. pose proof (head_text c q [] r ws_nil H) as X. cbn [app] in X. rewrite X. reflexivity. Qed.

Definition reads_value (d : nat) (t : bytes) (j : json) : Prop := forall f D w r, (2 * length t <= f)%nat -> 1 <= D -> N.to_nat (D - 1) = d -> ws w -> num_stop r -> read_value f D (w ++ t ++ r) = Some (j, r).
Definition reads_elems' (d : nat) (t : bytes) (a : list json) : Prop := forall f D r, (2 * length t + 1 <= f)%nat -> 1 <= D -> N.to_nat (D - 1) = d -> read_elems f D (t ++ 93 :: r) = Some (a, r).
Definition reads_members' (d : nat) (t : bytes) (l : list (bytes * json)) : Prop := forall f D r acc, (2 * length t + 1 <= f)%nat -> 1 <= D -> N.to_nat (D - 1) = d -> read_members f D (t ++ 125 :: r) acc = Some (entries l acc, r).

Ltac head_ne := repeat match goal with |- context [?a =? ?b] => first [change (a =? b) with false | change (a =? b) with true] end; cbv iota.
Lemma reads_grammar : (forall d t j, jvalue d t j -> reads_value d t j) /\ (forall d t a, jelems d t a -> reads_elems' d t a) /\ (forall d t l, jmembers d t l -> reads_members' d t l).
Proof.
  assert (Lit : forall c lit v f D w r, head_ok c -> ws w -> (2 * length (c :: lit) <= f)%nat -> (forall g, read_value (S g) D (c :: lit ++ r) = literal lit v (lit ++ r)) -> read_value f D (w ++ (c :: lit) ++ r) = Some (v, r)).
  { intros c lit v f D w r H W L E. destruct f as [|f]; [cbn in L; Lia.lia|]. rewrite read_value_head by auto. rewrite E. apply literal_ok. }
  apply jgrammar_ind.
  - intros d f D w r L HD Hd W S. apply (Lit 110 (s2b "ull")); [unfold head_ok; lia|exact W|exact L|]. intros g. rewrite read_head by (unfold head_ok; lia). reflexivity.
  - intros d f D w r L HD Hd W S. apply (Lit 116 (s2b "rue")); [unfold head_ok; lia|exact W|exact L|]. intros g. rewrite read_head by (unfold head_ok; lia). reflexivity.
  - intros d f D w r L HD Hd W S. apply (Lit 102 (s2b "alse")); [unfold head_ok; lia|exact W|exact L|]. intros g. rewrite read_head by (unfold head_ok; lia). reflexivity.
  - intros d t n Hn f D w r L HD Hd W S. destruct (read_number_ok t n r Hn S) as (neg & q & -> & Hq & R). destruct neg; cbn [sgn] in *.
    + destruct f as [|f]; [cbn in L; Lia.lia|]. rewrite read_value_head by (auto; unfold head_ok; lia). rewrite read_head by (unfold head_ok; lia). head_ne. rewrite R. reflexivity.
    + destruct (Hq eq_refl) as (c & q' & -> & Dc). destruct f as [|f]; [cbn in L; Lia.lia|]. rewrite read_value_head by (auto using digit_head_ok). rewrite read_head by (apply digit_head_ok; exact Dc).
      unfold digit in Dc. replace (c =? 110) with false by lia. replace (c =? 116) with false by lia. replace (c =? 102) with false by lia. replace (c =? 45) with false by lia. unfold is_digit. replace ((48 <=? c) && (c <=? 57)) with true by lia.
      change (c :: q' ++ r) with ((c :: q') ++ r). rewrite R. reflexivity.
  - intros d t s (b & -> & Hb) f D w r L HD Hd W S. destruct f as [|f]; [cbn in L; Lia.lia|]. change ([34] ++ b ++ [34]) with (34 :: b ++ [34]). rewrite read_value_head by (auto; unfold head_ok; lia). rewrite read_head by (unfold head_ok; lia). head_ne. change (is_digit 34) with false. cbv iota.
    rewrite (proj2 (read_str_iff _ s r)); [reflexivity|]. exists b. split; [exact Hb|]. rewrite <- app_assoc. reflexivity.
  - intros d w0 W0 f D w r L HD Hd W S. destruct f as [|f]; [cbn in L; Lia.lia|]. change ([91] ++ w0 ++ [93]) with (91 :: w0 ++ [93]). rewrite read_value_head by (auto; unfold head_ok; lia). rewrite read_head by (unfold head_ok; lia). head_ne. change (is_digit 91) with false. cbv iota.
    replace (D <=? 1) with false by lia. rewrite <- app_assoc. rewrite skip_ws_ws by exact W0. cbn [app]. rewrite skip_ws_head by lia. reflexivity.
  - intros d t a He IH f D w r L HD Hd W S. destruct f as [|f]; [cbn in L; Lia.lia|]. change ([91] ++ t ++ [93]) with (91 :: t ++ [93]) in *. rewrite read_value_head by (auto; unfold head_ok; lia). rewrite read_head by (unfold head_ok; lia). head_ne. change (is_digit 91) with false. cbv iota.
    replace (D <=? 1) with false by lia. rewrite <- app_assoc. cbn [app]. destruct (jelems_head d t a (93 :: r) He) as (c & q & Eq & Hc). rewrite Eq.
    etransitivity; [apply (match93 _ (fun t => Some (JArr [], t)) _ (c :: q)); cbn [hd]; unfold head_ok in Hc; tauto|]. cbn [length] in L. rewrite app_length in L. cbn [length] in L. rewrite IH; [reflexivity| | |]; Lia.lia.
  - intros d w0 W0 f D w r L HD Hd W S. destruct f as [|f]; [cbn in L; Lia.lia|]. change ([123] ++ w0 ++ [125]) with (123 :: w0 ++ [125]). rewrite read_value_head by (auto; unfold head_ok; lia). rewrite read_head by (unfold head_ok; lia). head_ne. change (is_digit 123) with false. cbv iota.
    replace (D <=? 1) with false by lia. rewrite <- app_assoc. rewrite skip_ws_ws by exact W0. cbn [app]. rewrite skip_ws_head by lia. reflexivity.
  - intros d t l o Hm IH Hl f D w r L HD Hd W S. destruct f as [|f]; [cbn in L; Lia.lia|]. change ([123] ++ t ++ [125]) with (123 :: t ++ [125]) in *. rewrite read_value_head by (auto; unfold head_ok; lia). rewrite read_head by (unfold head_ok; lia). head_ne. change (is_digit 123) with false. cbv iota.
    replace (D <=? 1) with false by lia. rewrite <- app_assoc. cbn [app]. destruct (jmembers_head d t l (125 :: r) Hm) as (q & Eq). rewrite Eq.
    etransitivity; [apply (match125 _ (fun t => Some (JObj [], t)) _ (34 :: q)); cbn [hd]; lia|]. cbn [length] in L. rewrite app_length in L. cbn [length] in L. rewrite IH; [|Lia.lia..]. rewrite <- (last_wins_unique l o Hl). reflexivity.
  - intros d w1 t w2 j W1 _ IH W2 f D r L HD Hd. rewrite !app_length in L. destruct f as [|f]; [Lia.lia|]. rewrite read_elems_S. rewrite <- !app_assoc. rewrite IH; [|Lia.lia|exact HD|exact Hd|exact W1|apply num_stop_ws; [exact W2|cbn; Lia.lia]].
    rewrite skip_ws_ws by exact W2. rewrite skip_ws_head by lia. reflexivity.
  - intros d w1 t w2 j u a W1 _ IH W2 _ IHe f D r L HD Hd. rewrite !app_length in L. cbn [length] in L. destruct f as [|f]; [Lia.lia|]. rewrite read_elems_S. rewrite <- !app_assoc. cbn [app]. rewrite IH; [|Lia.lia|exact HD|exact Hd|exact W1|apply num_stop_ws; [exact W2|cbn; Lia.lia]].
    rewrite skip_ws_ws by exact W2. rewrite skip_ws_head by lia. rewrite IHe; [reflexivity|Lia.lia|exact HD|exact Hd].
  - intros d w1 q k w2 w3 t w4 j W1 (b & -> & Hb) W2 W3 _ IH W4 f D r acc L HD Hd. rewrite !app_length in L. cbn [length] in L. destruct f as [|f]; [Lia.lia|]. rewrite read_members_S. rewrite <- !app_assoc. rewrite skip_ws_ws by exact W1. cbn [app]. rewrite skip_ws_head by lia.
    rewrite (proj2 (read_str_iff _ k (w2 ++ 58 :: w3 ++ t ++ w4 ++ 125 :: r))) by eauto. rewrite skip_ws_ws by exact W2. rewrite skip_ws_head by lia.
    rewrite IH; [|Lia.lia|exact HD|exact Hd|exact W3|apply num_stop_ws; [exact W4|cbn; Lia.lia]]. cbv zeta. rewrite skip_ws_ws by exact W4. rewrite skip_ws_head by lia. reflexivity.
  - intros d w1 q k w2 w3 t w4 j u l W1 (b & -> & Hb) W2 W3 _ IH W4 _ IHm f D r acc L HD Hd. rewrite !app_length in L. cbn [length] in L. destruct f as [|f]; [Lia.lia|]. rewrite read_members_S. rewrite <- !app_assoc. rewrite skip_ws_ws by exact W1. cbn [app]. rewrite skip_ws_head by lia.
    rewrite (proj2 (read_str_iff _ k (w2 ++ 58 :: w3 ++ t ++ w4 ++ 44 :: u ++ 125 :: r))) by eauto. rewrite skip_ws_ws by exact W2. rewrite skip_ws_head by lia.
    rewrite IH; [|Lia.lia|exact HD|exact Hd|exact W3|apply num_stop_ws; [exact W4|cbn; Lia.lia]]. cbv zeta. rewrite skip_ws_ws by exact W4. rewrite skip_ws_head by lia. rewrite IHm; [reflexivity|Lia.lia|exact HD|exact Hd].
Qed.

Lemma m93' (A : Type) (g : bytes -> option A) (h : option A) s y : match s with 93 :: r => g r | _ => h end = Some y -> (exists r, s = 93 :: r /\ g r = Some y) \/ h = Some y.
Proof. destruct (N.eq_dec (hd 0 s) 93) as [E|E]; [destruct s as [|c r]; cbn in E; [discriminate E|]; subst c; eauto|rewrite match93; auto]. Qed.
Lemma m125' (A : Type) (g : bytes -> option A) (h : option A) s y : match s with 125 :: r => g r | _ => h end = Some y -> (exists r, s = 125 :: r /\ g r = Some y) \/ h = Some y.
Proof. destruct (N.eq_dec (hd 0 s) 125) as [E|E]; [destruct s as [|c r]; cbn in E; [discriminate E|]; subst c; eauto|rewrite match125; auto]. Qed.
Lemma m44_93 (A : Type) (g h : bytes -> option A) s y : match s with 44 :: r => g r | 93 :: r => h r | _ => None end = Some y -> (exists r, s = 44 :: r /\ g r = Some y) \/ (exists r, s = 93 :: r /\ h r = Some y).
Proof. intros E. peel_num E; eauto. Qed.
Lemma m44_125 (A : Type) (g h : bytes -> option A) s y : match s with 44 :: r => g r | 125 :: r => h r | _ => None end = Some y -> (exists r, s = 44 :: r /\ g r = Some y) \/ (exists r, s = 125 :: r /\ h r = Some y).
Proof. intros E. peel_num E; eauto. Qed.
Lemma m34 (A : Type) (g : bytes -> option A) s y : match s with 34 :: r => g r | _ => None end = Some y -> exists r, s = 34 :: r /\ g r = Some y.
Proof. intros E. peel_num E; eauto. Qed.
Lemma m58 (A : Type) (g : bytes -> option A) s y : match s with 58 :: r => g r | _ => None end = Some y -> exists r, s = 58 :: r /\ g r = Some y.
Proof. intros E. peel_num E; eauto. Qed.
Lemma literal_inv t v s j r : literal t v s = Some (j, r) -> s = t ++ r /\ j = v.
Proof. unfold literal. destruct (starts_with t s) eqn:E; [|discriminate]. apply starts_with_iff in E as [q ->]. rewrite drop_app_exact by reflexivity. intros X. injection X as <- <-. auto. Qed.

Lemma sound_grammar f :
  (forall D s j r, 1 <= D -> read_value f D s = Some (j, r) -> exists w t, ws w /\ jvalue (N.to_nat (D - 1)) t j /\ s = w ++ t ++ r) /\
  (forall D s a r, 1 <= D -> read_elems f D s = Some (a, r) -> exists t, jelems (N.to_nat (D - 1)) t a /\ s = t ++ 93 :: r) /\
  (forall D s acc o r, 1 <= D -> read_members f D s acc = Some (o, r) -> exists t l, jmembers (N.to_nat (D - 1)) t l /\ s = t ++ 125 :: r /\ o = entries l acc).
Proof.
  induction f as [|f [IHv [IHe IHm]]]; [repeat split; intros; discriminate|]. split; [|split].
  - intros D s j r HD E. rewrite read_value_S in E. destruct (skip_ws_inv s) as (w & W & Es). rewrite Es. exists w. destruct (skip_ws s) as [|c q]; [discriminate|]. clear Es s.
    enough (X : exists t, jvalue (N.to_nat (D - 1)) t j /\ c :: q = t ++ r) by (destruct X as (t & V & ->); exists t; auto).
    destruct (N.eqb_spec c 110) as [->|N1]. { apply literal_inv in E as [-> ->]. exists (s2b "null"). split; [constructor|reflexivity]. }
    destruct (N.eqb_spec c 116) as [->|N2]. { apply literal_inv in E as [-> ->]. exists (s2b "true"). split; [constructor|reflexivity]. }
    destruct (N.eqb_spec c 102) as [->|N3]. { apply literal_inv in E as [-> ->]. exists (s2b "false"). split; [constructor|reflexivity]. }
    destruct (N.eqb_spec c 45) as [->|N4]. { destruct (read_number true q) as [[n u]|] eqn:En; [|discriminate]. injection E as <- <-. apply read_number_sound in En as (t & -> & H). exists (45 :: t). split; [constructor; exact H|reflexivity]. }
    destruct (is_digit c). { destruct (read_number false (c :: q)) as [[n u]|] eqn:En; [|discriminate]. injection E as <- <-. apply read_number_sound in En as (t & -> & H). exists t. split; [constructor; exact H|reflexivity]. }
    destruct (N.eqb_spec c 34) as [->|N5]. { destruct (read_str q) as [[x u]|] eqn:Eq; [|discriminate]. injection E as <- <-. apply read_str_iff in Eq as (b & Hb & ->). exists ([34] ++ b ++ [34]). split; [constructor; exists b; auto|]. cbn. rewrite <- app_assoc. reflexivity. }
    assert (Hlev : (D <=? 1) = false -> N.to_nat (D - 1) = S (N.to_nat (D - 1 - 1)) /\ 1 <= D - 1) by lia.
    destruct (N.eqb_spec c 91) as [->|N6].
    { destruct (D <=? 1) eqn:HL; [discriminate|]. destruct (Hlev eq_refl) as [Lv L1]. rewrite Lv.
      apply (m93' _ (fun t => Some (JArr [], t)) (match read_elems f (D - 1) q with Some (a, t0) => Some (JArr a, t0) | None => None end)) in E as [(t' & Et & E)|E].
      - injection E as <- <-. destruct (skip_ws_inv q) as (w' & W' & Eq). rewrite Et in Eq. exists ([91] ++ w' ++ [93]). split; [constructor; exact W'|]. rewrite Eq. cbn. rewrite <- app_assoc. reflexivity.
      - destruct (read_elems f (D - 1) q) as [[a u]|] eqn:Ea; [|discriminate]. injection E as <- <-. apply IHe in Ea as (t & Ht & ->); [|exact L1]. exists ([91] ++ t ++ [93]). split; [constructor; exact Ht|]. cbn. rewrite <- app_assoc. reflexivity. }
    destruct (N.eqb_spec c 123) as [->|N7]; [|discriminate].
    destruct (D <=? 1) eqn:HL; [discriminate|]. destruct (Hlev eq_refl) as [Lv L1]. rewrite Lv.
    apply (m125' _ (fun t => Some (JObj [], t)) (match read_members f (D - 1) q [] with Some (o, t0) => Some (JObj o, t0) | None => None end)) in E as [(t' & Et & E)|E].
    + injection E as <- <-. destruct (skip_ws_inv q) as (w' & W' & Eq). rewrite Et in Eq. exists ([123] ++ w' ++ [125]). split; [constructor; exact W'|]. rewrite Eq. cbn. rewrite <- app_assoc. reflexivity.
    + destruct (read_members f (D - 1) q []) as [[o u]|] eqn:Ea; [|discriminate]. injection E as <- <-. apply IHm in Ea as (t & l & Ht & -> & ->); [|exact L1]. exists ([123] ++ t ++ [125]). split; [econstructor; [exact Ht|apply entries_last_wins]|]. cbn. rewrite <- app_assoc. reflexivity.
  - intros D s a r HD E. rewrite read_elems_S in E. destruct (read_value f D s) as [[v q]|] eqn:Ev; [|discriminate]. apply IHv in Ev as (w & t & W & V & ->); [|exact HD].
    destruct (skip_ws_inv q) as (w2 & W2 & Eq). apply m44_93 in E as [(q' & Es & E)|(q' & Es & E)]; rewrite Es in Eq; subst q.
    + destruct (read_elems f D q') as [[b u]|] eqn:Eb; [|discriminate]. injection E as <- <-. apply IHe in Eb as (t2 & H2 & ->); [|exact HD]. exists (w ++ t ++ w2 ++ [44] ++ t2). split; [constructor; auto|]. rewrite <- !app_assoc. reflexivity.
    + injection E as <- <-. exists (w ++ t ++ w2). split; [constructor; auto|]. rewrite <- !app_assoc. reflexivity.
  - intros D s acc o r HD E. rewrite read_members_S in E. destruct (skip_ws_inv s) as (w1 & W1 & Es). apply m34 in E as (q & Eq & E). rewrite Eq in Es. subst s.
    destruct (read_str q) as [[k q1]|] eqn:Ek; [|discriminate]. apply read_str_iff in Ek as (b & Hb & ->). destruct (skip_ws_inv q1) as (w2 & W2 & E1). apply m58 in E as (q2 & Eq2 & E). rewrite Eq2 in E1. subst q1.
    destruct (read_value f D q2) as [[v q3]|] eqn:Ev; [|discriminate]. apply IHv in Ev as (w3 & t & W3 & V & ->); [|exact HD]. cbv zeta in E. destruct (skip_ws_inv q3) as (w4 & W4 & E3).
    assert (Q : jstring ([34] ++ b ++ [34]) k) by (exists b; auto).
    apply m44_125 in E as [(q' & Es & E)|(q' & Es & E)]; rewrite Es in E3; subst q3.
    + apply IHm in E as (t2 & l & H2 & -> & ->); [|exact HD]. exists (w1 ++ ([34] ++ b ++ [34]) ++ w2 ++ [58] ++ w3 ++ t ++ w4 ++ [44] ++ t2), ((k, v) :: l). split; [constructor; auto|]. split; [rewrite <- !app_assoc; reflexivity|reflexivity].
    + injection E as <- <-. exists (w1 ++ ([34] ++ b ++ [34]) ++ w2 ++ [58] ++ w3 ++ t ++ w4), [(k, v)]. split; [constructor; auto|]. split; [rewrite <- !app_assoc; reflexivity|reflexivity].
Qed.

Lemma ws_skip_nil w : ws w -> skip_ws w = [].
Proof. intros W. pose proof (skip_ws_ws w [] W) as X. rewrite app_nil_r in X. exact X. Qed.
Lemma skip_nil_ws s : skip_ws s = [] -> ws s.
Proof. intros E. destruct (skip_ws_inv s) as (w & W & Es). rewrite E, app_nil_r in Es. subst. exact W. Qed.
Lemma json_read_iff D s j : 1 <= D -> json_read_depth D s = Some j <-> jtext (N.to_nat (D - 1)) s j.
Proof.
  intros HD. unfold json_read_depth. split.
  - destruct (read_value _ D s) as [[v r]|] eqn:E; [|discriminate]. destruct (skip_ws r) as [|c q] eqn:Er; [|discriminate]. intros X. injection X as <-.
    apply (proj1 (sound_grammar _)) in E as (w & t & W & V & ->); [|exact HD]. exists w, t, r. split; [reflexivity|]. split; [exact W|]. split; [exact V|apply skip_nil_ws; exact Er].
  - intros (w1 & t & w2 & -> & W1 & V & W2). assert (St : num_stop w2). { destruct w2 as [|c w2]; [exact I|]. pose proof (W2 c (or_introl eq_refl)) as Hc. cbn in *. destruct Hc as [<-|[<-|[<-|[<-|[]]]]]; repeat split; try discriminate; Lia.lia. }
    rewrite (proj1 reads_grammar _ _ _ V (S (2 * length (w1 ++ t ++ w2))) D w1 w2) by (auto; rewrite !app_length; Lia.lia). rewrite ws_skip_nil by exact W2. reflexivity.
Qed.
End V.
