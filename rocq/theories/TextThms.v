From Verif Require Import Base Utf8 Matter Counter Indexer StdStr Data Json Crypto Prims Common Sadder Spec MatterDefs CounterDefs IndexerDefs PrimsDefs DataDefs CommonDefs SadderDefs GrammarDefs TextDefs.
From Verif Require Import BaseFacts StdStrFacts DataFacts JsonFacts ImportFacts GrammarFacts CommonFacts2 SadderFacts SadderThms GrammarThms TextFacts SignerToy.

(** C72: the bytes that are taken as text are exactly the UTF-8 of sequences of Unicode scalar values *)
Lemma C72_utf8_pf : forall s : bytes, utf8_valid s = true <-> utf8_text s.
Proof. exact valid_iff. Qed.
(** "aé€😀", and what is refused: an overlong form, a surrogate, a code point above U+10FFFF, a character cut short *)
Lemma C72_utf8_ex_pf : utf8_text [97; 195; 169; 226; 130; 172; 240; 159; 152; 128] /\
  ~ utf8_text [192; 128] /\ ~ utf8_text [224; 159; 191] /\ ~ utf8_text [237; 160; 128] /\ ~ utf8_text [240; 143; 191; 191] /\ ~ utf8_text [244; 144; 128; 128] /\ ~ utf8_text [226; 130].
Proof. rewrite <- !valid_iff. vm_compute. intuition discriminate. Qed.
(** C72: giving a primitive, counter or signature as bytes is the same as giving it as text; bytes that are no text are an error, not a crash *)
Lemma C72_bytes_pf : forall (P : Profile) (t : bytes),
  (utf8_text t -> parse_text_bytes t = parse_text t /\ counter_parse_text_bytes t = counter_parse_text t /\ sig_parse_text_bytes t = sig_parse_text t) /\
  (~ utf8_text t -> parse_text_bytes t = Err E_Utf8 /\ counter_parse_text_bytes t = Err E_Utf8 /\ sig_parse_text_bytes t = Err E_Utf8).
Proof.
  intros P t. rewrite <- valid_iff. unfold parse_text_bytes, counter_parse_text_bytes, sig_parse_text_bytes, matter_new, counter_new, indexer_new, matter_new_with_qb64b, counter_new_with_qb64b, indexer_new_with_qb64b, from_utf8.
  destruct (utf8_valid t); (split; intros H; [|]); try discriminate; try (exfalso; apply H; reflexivity); auto.
Qed.
Lemma C72_bytes_ex_pf : forall P : Profile, (exists m, parse_text_bytes (s2b "BAAAAAAAAAAAAAAAAAAAAAAAAAAAAAAAAAAAAAAAAAAA" ++ [195; 169]) = Ok m) /\ parse_text_bytes (s2b "BAAAAAAAAAAAAAAAAAAAAAAAAAAAAAAAAAAAAAAAAAAA" ++ [195]) = Err E_Utf8.
Proof. intros P. split; [eexists|]; vm_compute; reflexivity. Qed.

Lemma all_texts_iff v : all_texts v <-> texts v.
Proof.
  induction v as [|b|i|t|s|a IHa|o IHo] using value_ind'; (split; intros H; inversion H; subst; constructor); try (apply valid_iff; assumption).
  - intros w I. rewrite Forall_forall in IHa. apply IHa; auto.
  - intros w I. rewrite Forall_forall in IHa. apply IHa; auto.
  - intros k w I. rewrite Forall_forall in IHo. match goal with X : forall k v, In (k, v) o -> _ |- _ => destruct (X k w I) as [X1 X2] end. split; [apply valid_iff; exact X1|]. apply (IHo (k, w) I). exact X2.
  - intros k w I. rewrite Forall_forall in IHo. match goal with X : forall k v, In (k, v) o -> _ |- _ => destruct (X k w I) as [X1 X2] end. split; [apply valid_iff; exact X1|]. apply (IHo (k, w) I). exact X2.
Qed.
(** C72: all strings and keys of a value read from a text are texts, whatever escapes they were written with; and the JSON of a value made of texts is a text *)
Lemma C72_json_pf : forall (F : Floats) (s : bytes) (v : data),
  (utf8_text s -> from_json s = Ok v -> all_texts v) /\ (good float_text v -> all_texts v -> utf8_text (to_json v)).
Proof.
  intros F s v. split.
  - intros U H. apply C71_value_pf in H as (j & (w1 & t & w2 & -> & _ & J & _) & Sm). apply (same_texts j); [|exact Sm]. destruct grammar_texts as [G _]. apply (G _ _ _ J). exists w1, w2. apply valid_iff. exact U.
  - intros G T. apply valid_iff. apply all_texts_iff in T. apply (utf8_json float_text); auto.
Qed.
(** escapes, a surrogate pair and a key with plain multi-byte characters; a lone surrogate would be no text and is refused *)
Lemma C72_json_ex_pf : (exists s, s = s2b "{""" ++ [195; 169] ++ s2b """:""\u00e9\ud83d\ude00\u0800""}" /\ utf8_text s /\ from_json (H := toy_floats) s = Ok (VObj [([195; 169], VStr [195; 169; 240; 159; 152; 128; 224; 160; 128])])) /\
  from_json (H := toy_floats) (s2b """\ud83d""") = Err E_Json.
Proof.
  split; [|vm_compute; reflexivity]. eexists. split; [reflexivity|]. rewrite <- valid_iff. vm_compute. split; reflexivity.
Qed.
(** C72: what is loaded is made of texts, and bytes that are no text are not loaded *)
Lemma C72_loaded_pf : forall (P : Profile) (C : Crypto) (F : Floats) (code : option bytes) (raw : bytes) (s : sadder) new, new = serder_new \/ new = creder_new ->
  new code (Some raw) None None None = Ok s -> utf8_text raw /\ utf8_text (sd_raw s) /\ all_texts (sd_ked s).
Proof.
  intros P C F code raw s new N E. assert (L : exists i, loaded P F i (unwrap_or code (s2b "E")) raw s) by (destruct N as [-> | ->]; apply C50_load_pf in E; eauto).
  destruct L as (i & n & v & m & A & L & U & J & I & ->). cbn [sd_raw sd_ked]. destruct A as (_ & A & _). apply valid_iff in A, U. split; [exact A|]. split; [exact U|]. apply (C72_json_pf F (take n raw) v); assumption.
Qed.
(** C71: a Serder (Creder) is built from bytes exactly when the announced part of them is a text of the JSON grammar that stands for an object with a digest of the
    expected code at "d"; in whatever layout, with whatever escapes *)
Lemma C71_load_pf : forall (P : Profile) (C : Crypto) (F : Floats) (code : option bytes) (raw : bytes) (s : sadder) (new : option bytes -> option bytes -> option bytes -> option data -> option sadder -> outcome sadder) (ident : bytes),
  new = serder_new /\ ident = s2b "KERI" \/ new = creder_new /\ ident = s2b "ACDC" ->
  new code (Some raw) None None None = Ok s <->
  exists size j v m, announces raw ident size /\ size <= len raw /\ utf8_text (take size raw) /\ jtext 127 (take size raw) j /\ same j v /\
    identified v (unwrap_or code (s2b "E")) m /\ s = Sdr (unwrap_or code (s2b "E")) (take size raw) v ident (s2b "JSON") size (Ver 1 0) m.
Proof.
  intros P C F code raw s new ident N.
  assert (X : new code (Some raw) None None None = Ok s <-> loaded P F ident (unwrap_or code (s2b "E")) raw s) by (destruct N as [[-> ->]|[-> ->]]; apply C50_load_pf).
  rewrite X. unfold loaded. split.
  - intros (n & v & m & A & L & U & J & I & E). apply C71_value_pf in J as (j & J & Sm). apply valid_iff in U. exists n, j, v, m. auto 10.
  - intros (n & j & v & m & A & L & U & J & Sm & I & E). exists n, v, m. rewrite valid_iff. repeat (split; [assumption|]). split; [apply C71_value_pf; eauto|]. auto.
Qed.
(** an event written with white space and escapes *)
Lemma C71_load_ex_pf : forall P : Profile, exists s, serder_new (H0 := toy_crypto) (H1 := toy_floats) None (Some (s2b "{""v"" : ""KERI10JSON00005f_"", ""\u0064"" : ""EAAAAAAAAAAAAAAAAAAAAAAAAAAAAAAAAAAAAAAAAAAA"" , ""a"":[]}")) None None None = Ok s /\
  sd_ked s = VObj [(s2b "v", VStr (s2b "KERI10JSON00005f_")); (s2b "d", VStr (s2b "EAAAAAAAAAAAAAAAAAAAAAAAAAAAAAAAAAAAAAAAAAAA")); (s2b "a", VArr [])].
Proof. intros P. eexists. split; vm_compute; reflexivity. Qed.
