(** Model of /repo/src/core/pather.rs. *)
From Verif Require Import Base Utf8 MatterTables Matter StdStr Data Json Crypto Prims Common Saider Tholder Sadder.

(** [Vec::remove]: panics out of range *)
Definition vec_remove {A} (l : list A) (i : N) : outcome (list A) :=
  if i <? len l then Ok (take i l ++ drop (i + 1) l) else Panic.
(** pather.rs:140-141: the entry of [k] in the map that [collect] builds from the
    (component, position) pairs; of several pairs with one key the last one stays *)
Fixpoint position_map (k : bytes) (pos : N) (path : list bytes) : option N :=
  match path with
  | [] => None
  | p :: r => match position_map k (pos + 1) r with
              | Some i => Some i
              | None => if bytes_eqb k p then Some pos else None
              end
  end.
(** [idx.parse::<usize>()], 64 bit *)
Definition parse_usize (s : bytes) : option N := parse_uint 10 (2 ^ 64 - 1) s.

Section Pather.
Context `{P : Profile}.

(** pather.rs:38-50 *)
Definition pather_from_bext (bext code : bytes) : outcome matter :=
  if negb (reb64_match bext) then Err E_Value
  else raw <- rawify bext ;; matter_new (Some code) (Some raw) None None None.

(** pather.rs:186-193: one component *)
Definition component (e : data) : outcome bytes :=
  p <- (match to_string e with Ok p => Ok p | Panic => Panic | Err _ => n <- to_i64 e ;; Ok (show_int n) end) ;;
  if reb64_match p then Ok p else Err E_Value.
(** pather.rs:178-197 *)
Definition bextify (path : data) : outcome bytes :=
  path <- to_vec path ;;
  vath <- each component path ;;
  Ok (s2b "-" ++ join (s2b "-") vath).

(** pather.rs:53-84 *)
Definition pather_new (path : option data) (bext code raw qb64b qb64 qb2 : option bytes) : outcome matter :=
  let code := unwrap_or code (s2b "4A") in
  p <- (if none bext && none raw && none qb64b && none qb64 && none qb2 then
          match path with
          | Some path => t <- bextify path ;; pather_from_bext t code
          | None => Err E_EmptyMaterial
          end
        else match bext with
             | Some t => pather_from_bext t code
             | None => matter_new (Some code) raw qb64b qb64 qb2
             end) ;;
  _ <- validate bexter_codes (m_code p) ;;
  Ok p.

(** pather.rs:110-124; [result[0]] exists as [split] returns at least one part *)
Definition pather_path (self : matter) : outcome data :=
  bext <- bext_of self ;;
  if negb (starts_with (s2b "-") bext) then Err E_Value
  else
    rest <- str_slice bext 1 (len bext) ;;
    let result := map VStr (split_on 45 rest) in
    first <- index_at result 0 ;;
    t <- to_string first ;;
    match t with [] => Ok (VArr []) | _ => Ok (VArr result) end.

(** pather.rs:126-134 *)
Definition pather_root (self root : matter) : outcome matter :=
  path <- pather_path root ;;
  path <- to_vec path ;;
  to_append <- pather_path self ;;
  to_append <- to_vec to_append ;;
  pather_new (Some (VArr (path ++ to_append))) None None None None None None.

(** pather.rs:147-150: the loop of [strip]; the map is not updated *)
Fixpoint strip_loop (original : list bytes) (path : list data) (root_path : list data) : outcome (list data) :=
  match root_path with
  | [] => Ok path
  | p :: r =>
    t <- to_string p ;;
    match position_map t 0 original with
    | None => Panic
    | Some i => path <- vec_remove path i ;; strip_loop original path r
    end
  end.
(** pather.rs:136-153 *)
Definition pather_strip (self root : matter) : outcome matter :=
  root_path <- pather_path root ;;
  root_path <- to_vec root_path ;;
  path <- pather_path self ;;
  path <- to_vec path ;;
  original <- (match each to_string path with Ok l => Ok l | _ => Panic end) ;;
  if len path <? len root_path then Ok self
  else
    path <- strip_loop original path (rev root_path) ;;
    pather_new (Some (VArr path)) None None None None None None.

(** pather.rs:155-157 *)
Definition pather_starts_with (self path : matter) : outcome bool :=
  a <- bext_of self ;;
  b <- bext_of path ;;
  Ok (starts_with b a).

(** pather.rs:199-236 *)
Fixpoint resolve (val : data) (ptr : list data) : outcome data :=
  match ptr with
  | [] => Ok val
  | p :: ptr =>
    idx <- to_string p ;;
    match val with
    | VObj m =>
      match parse_usize idx with
      | Some i => if len m <=? i then Err E_Value
                  else match nth_error m (N.to_nat i) with Some (_, cur) => resolve cur ptr | None => Panic end
      | None =>
        match idx with
        | [] => Ok (VObj m)
        | _ => match map_get idx m with Some cur => resolve cur ptr | None => Err E_Value end
        end
      end
    | VArr a =>
      match parse_usize idx with
      | None => Err E_ParseInt
      | Some i => if len a <=? i then Err E_Value
                  else match nth_error a (N.to_nat i) with Some cur => resolve cur ptr | None => Panic end
      end
    | _ => Err E_Value
    end
  end.
(** pather.rs:159-161 *)
Definition pather_resolve (self : matter) (sad : data) : outcome data :=
  path <- pather_path self ;;
  ptr <- to_vec path ;;
  resolve sad ptr.

(** pather.rs:163-176 *)
Definition pather_tail `{Crypto} (self : matter) (serder : sadder) : outcome bytes :=
  v <- pather_resolve self (sd_ked serder) ;;
  match v with
  | VStr t => _ <- saider_new None None None None None None None (Some t) None ;; Ok t
  | VObj _ | VArr _ => Ok (to_json v)
  | _ => Err E_Value
  end.
End Pather.
