(** Model of /repo/src/core/common.rs: version strings, serialisation and sniffing.

    The regular expression REVER (common.rs:102) is external (crate regex); it has
    matches of exactly 17 ASCII characters, so the leftmost match, and
    [shortest_match], are the first window that matches, and [replace_all] goes
    through the text replacing non-overlapping windows. *)
From Verif Require Import Base Utf8 StdStr Data Json Prims.

(** common.rs:32-36; both fields are u8 *)
Record version := Ver { v_major : N; v_minor : N }.
Definition current_version : version := Ver 1 0.
Definition version_eqb (a b : version) : bool := (v_major a =? v_major b) && (v_minor a =? v_minor b).

(** common.rs:103-104 *)
Definition idents : list bytes := [s2b "ACDC"; s2b "KERI"].
Definition serials : list bytes := [s2b "JSON"].
(** common.rs:106, 110-112 *)
Definition dummy : N := 35.
Definition maximum_start_size : N := 12.
Definition version_full_size : N := 17.
Definition minimum_sniff_size : N := 29.

(** the classes [A-Z] and [0-9a-f] *)
Definition is_upper (c : N) : bool := (65 <=? c) && (c <=? 90).
Definition is_hexl (c : N) : bool := ((48 <=? c) && (c <=? 57)) || ((97 <=? c) && (c <=? 102)).
(** [A-Z]{4}[0-9a-f][0-9a-f][A-Z]{4}[0-9a-f]{6}_ *)
Definition rever_pattern : list (N -> bool) :=
  [is_upper; is_upper; is_upper; is_upper; is_hexl; is_hexl; is_upper; is_upper; is_upper; is_upper;
   is_hexl; is_hexl; is_hexl; is_hexl; is_hexl; is_hexl; N.eqb 95].
Fixpoint match_at (p : list (N -> bool)) (s : bytes) : bool :=
  match p, s with
  | [], _ => true
  | f :: p', c :: s' => f c && match_at p' s'
  | _ :: _, [] => false
  end.
Definition rever_at (s : bytes) : bool := match_at rever_pattern s.
(** start of the leftmost match *)
Fixpoint rever_find (s : bytes) : option N :=
  if rever_at s then Some 0
  else match s with [] => None | _ :: r => match rever_find r with Some i => Some (i + 1) | None => None end end.
Definition rever_is_match (s : bytes) : bool := match rever_find s with Some _ => true | None => false end.
(** [REVER.replace_all(s, "$group")], the group being characters [a..b) of the
    match; [skip] characters of the current match remain to be passed over *)
Fixpoint rever_replace (a b : N) (skip : nat) (s : bytes) : bytes :=
  match s with
  | [] => []
  | c :: r =>
    match skip with
    | S k => rever_replace a b k r
    | O => if rever_at s then take (b - a) (drop a s) ++ rever_replace a b 16 r else c :: rever_replace a b 0 r
    end
  end.
Definition group_ident (s : bytes) : bytes := rever_replace 0 4 0 s.
Definition group_major (s : bytes) : bytes := rever_replace 4 5 0 s.
Definition group_minor (s : bytes) : bytes := rever_replace 5 6 0 s.
Definition group_kind (s : bytes) : bytes := rever_replace 6 10 0 s.
Definition group_size (s : bytes) : bytes := rever_replace 10 16 0 s.
Definition parse_hex (max : N) (s : bytes) : outcome N := match parse_uint 16 max s with Some n => Ok n | None => Err E_ParseInt end.

(** common.rs:16-30 DeversifyResult / SniffResult *)
Record vparts := VP { vp_ident : bytes; vp_kind : bytes; vp_version : version; vp_size : N }.

(** common.rs:114-138 *)
Definition deversify (vs : bytes) : outcome vparts :=
  if rever_is_match vs then
    let ident := group_ident vs in
    major <- parse_hex 255 (group_major vs) ;;
    minor <- parse_hex 255 (group_minor vs) ;;
    let kind := group_kind vs in
    size <- parse_hex (U32 - 1) (group_size vs) ;;
    if negb (mem_code ident idents) then Err E_Validation
    else if negb (mem_code kind serials) then Err E_Validation
    else Ok (VP ident kind (Ver major minor) size)
  else Err E_Validation.

(** [format!("{n:0wx}")] *)
Definition hex_padded (w n : N) : bytes := let h := to_hex n in rep 48 (w - len h) ++ h.
(** common.rs:197-221 *)
Definition versify (ident : option bytes) (version : option version) (kind : option bytes) (size : option N) : outcome bytes :=
  let ident := unwrap_or ident (s2b "KERI") in
  let version := unwrap_or version current_version in
  let kind := unwrap_or kind (s2b "JSON") in
  let size := unwrap_or size 0 in
  if negb (mem_code ident idents) then Err E_Validation
  else if negb (mem_code kind serials) then Err E_Validation
  else Ok (ident ++ hex_padded 1 (v_major version) ++ hex_padded 1 (v_minor version) ++ kind ++ hex_padded 6 size ++ [95]).

(** common.rs:246-252 *)
Definition dumps (ked : data) (kind : option bytes) : outcome bytes :=
  if bytes_eqb (unwrap_or kind (s2b "JSON")) (s2b "JSON") then Ok (to_json ked) else Err E_Value.

(** common.rs:223-244; [raw[..size]] panics beyond the end *)
Definition loads `{Floats} (raw : bytes) (size : option N) (kind : option bytes) : outcome data :=
  if bytes_eqb (unwrap_or kind (s2b "JSON")) (s2b "JSON") then
    part <- match size with Some n => slice raw 0 n | None => Ok raw end ;;
    text <- from_utf8 part ;;
    j <- json_from_str text ;;
    import j
  else Err E_Validation.

(** common.rs:7-14 *)
Record sizeified := SZ { sz_raw : bytes; sz_ident : bytes; sz_kind : bytes; sz_ked : data; sz_version : version }.
(** common.rs:140-195.  [String::from_utf8(raw)] cannot fail on the bytes of a
    [String], and the slices are in range because the match is inside raw. *)
Definition sizeify (ked : data) (kind : option bytes) : outcome sizeified :=
  map <- to_map ked ;;
  if negb (contains_key (s2b "v") map) then Err E_Value
  else
    v <- vget ked (s2b "v") ;;
    vs <- to_string v ;;
    result <- deversify vs ;;
    if negb (version_eqb (vp_version result) current_version) then Err E_Value
    else
      let kind := unwrap_or kind (vp_kind result) in
      if negb (mem_code kind serials) then Err E_Value
      else
        raw <- dumps ked (Some kind) ;;
        let size := len raw in
        match rever_find raw with
        | None => Err E_Value
        | Some start =>
          if maximum_start_size <? start then Err E_Value
          else
            let fore := take start raw in
            let back := drop (start + version_full_size) raw in
            vs <- versify (Some (vp_ident result)) (Some (vp_version result)) (Some kind) (Some (as_u32 size)) ;;
            let raw := fore ++ vs ++ back in
            if negb (len raw =? size) then Err E_Value
            else
              ked <- vset ked (s2b "v") (VStr vs) ;;
              Ok (SZ raw (vp_ident result) kind ked (vp_version result))
        end.

(** common.rs:254-292 *)
Definition sniff (raw : bytes) : outcome vparts :=
  if len raw <? minimum_sniff_size then Err E_Value
  else
    raw <- from_utf8 raw ;;
    match rever_find raw with
    | None => Err E_Value
    | Some start =>
      if maximum_start_size <? start then Err E_Value
      else
        vs <- str_slice raw start (start + version_full_size) ;;
        let ident := group_ident vs in
        major <- parse_hex 255 (group_major vs) ;;
        minor <- parse_hex 255 (group_minor vs) ;;
        let kind := group_kind vs in
        size <- parse_hex (U32 - 1) (group_size vs) ;;
        if negb (mem_code kind serials) then Err E_Validation
        else Ok (VP ident kind (Ver major minor) size)
    end.
