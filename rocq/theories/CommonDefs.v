(** Definitions used only to state the properties of version strings and sniffing. *)
From Verif Require Import Base StdStr Data Spec Common.

(** the [k] digit lower case hexadecimal numeral of [n] *)
Definition hex_text (k n : N) : bytes := map (fun d => nth (N.to_nat d) (s2b "0123456789abcdef") 0) (numeral 16 (N.to_nat k) n).
(** A version string: protocol, one hexadecimal digit each for major and minor,
    serialisation kind, size with six digits, underscore. *)
Definition version_text (ident : bytes) (major minor : N) (kind : bytes) (size : N) : bytes :=
  ident ++ hex_text 1 major ++ hex_text 1 minor ++ kind ++ hex_text 6 size ++ s2b "_".
(** four capital letters *)
Definition tag (t : bytes) : Prop := len t = 4 /\ forall c, In c t -> 65 <= c <= 90.
(** a text with the form of a version string *)
Definition version_like (w : bytes) : Prop :=
  exists ident major minor kind size, tag ident /\ tag kind /\ major < 16 /\ minor < 16 /\ size < 2 ^ 24 /\ w = version_text ident major minor kind size.
(** The first version-like text in [t] starts after [k] characters. *)
Definition first_version_at (t : bytes) (k : N) : Prop :=
  (exists w r, version_like w /\ t = take k t ++ w ++ r) /\ k <= len t /\
  forall j w r, j < k -> version_like w -> t <> take j t ++ w ++ r.
