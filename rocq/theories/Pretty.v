(** Model of /repo/src/core/sadder.rs:198-213 [pretty], with
    [serde_json::to_string_pretty] (external: two blanks per level, no line for
    what is empty). *)
From Verif Require Import Base StdStr Data Json Prims Common Sadder.

(** the line break before an element at level [n] *)
Definition new_line (n : N) : bytes := 10 :: rep 32 (2 * n).
Fixpoint json_pretty (n : N) (j : json) : bytes :=
  match j with
  | JNull => s2b "null"
  | JBool b => if b then s2b "true" else s2b "false"
  | JNum x => jnum_text x
  | JStr s => json_string s
  | JArr [] => s2b "[]"
  | JArr a => [91] ++ join [44] (map (fun e => new_line (n + 1) ++ json_pretty (n + 1) e) a) ++ new_line n ++ [93]
  | JObj [] => s2b "{}"
  | JObj o => [123] ++ join [44] (map (fun kv => new_line (n + 1) ++ json_string (fst kv) ++ s2b ": " ++ json_pretty (n + 1) (snd kv)) o) ++ new_line n ++ [125]
  end.

Section Pretty.
Context `{Floats}.
(** sadder.rs:198-213; printing a [serde_json::Value] does not fail *)
Definition sadder_pretty (s : sadder) (size : option N) : outcome bytes :=
  v <- json_from_str (to_json (sd_ked s)) ;;
  let t := json_pretty 0 v in
  let size := unwrap_or size 1024 in
  if size <? len t then str_slice t 0 size else Ok t.
End Pretty.
