(** Model of /repo/src/core/saider.rs. *)
From Verif Require Import Base Utf8 MatterTables Matter StdStr Data Crypto Prims Common.

(** IndexMap::shift_remove *)
Fixpoint map_remove {A} (k : bytes) (o : list (bytes * A)) : list (bytes * A) :=
  match o with
  | [] => []
  | (k', v) :: r => if bytes_eqb k k' then r else (k', v) :: map_remove k r
  end.

Section Saider.
Context `{Profile} `{Crypto}.

(** saider.rs:20-38; the same codes as Diger *)
Definition saider_codes : list bytes := diger_codes.

(** saider.rs:40-49 *)
Definition serialize (sad : data) (kind : option bytes) : outcome bytes :=
  m <- to_map sad ;;
  knd <- (if contains_key (s2b "v") m then
            v <- vget sad (s2b "v") ;; vs <- to_string v ;; r <- deversify vs ;; Ok (vp_kind r)
          else Ok (s2b "JSON")) ;;
  dumps sad (Some (unwrap_or kind knd)).

(** saider.rs:51-89 *)
Definition said_derive (sad : data) (code kind label : option bytes) (ignore : option (list bytes)) : outcome (bytes * data) :=
  let label := unwrap_or label (s2b "d") in
  let code := unwrap_or code (s2b "E") in
  _ <- validate saider_codes code ;;
  szg <- get_sizage code ;;
  dum <- from_utf8 (rep dummy (fs szg)) ;;
  sad <- vset sad label (VStr dum) ;;
  m <- to_map sad ;;
  '(kind, sad) <- (if contains_key (s2b "v") m then
                     r <- sizeify sad kind ;; Ok (Some (sz_kind r), sz_ked r)
                   else Ok (kind, sad)) ;;
  m <- to_map sad ;;
  let m := fold_left (fun m k => if contains_key k m then map_remove k m else m) (unwrap_or ignore []) m in
  cpa <- serialize (VObj m) kind ;;
  dig <- digest code cpa ;;
  Ok (dig, sad).

(** saider.rs:92-165 *)
Definition saider_new (sad : option data) (label kind : option bytes) (ignore : option (list bytes)) (code raw qb64b qb64 qb2 : option bytes) : outcome matter :=
  if negb (none raw) || negb (none sad) then
    let label := unwrap_or label (s2b "d") in
    '(code, raw) <-
      (match code, raw with
       | Some code, Some raw => _ <- validate saider_codes code ;; Ok (code, raw)
       | _, _ =>
         code <- (match sad with
                  | Some sad =>
                    m <- to_map sad ;;
                    if negb (contains_key label m) then Err E_Value
                    else match code with
                         | Some code => Ok code
                         | None =>
                           v <- vget sad label ;;
                           match to_string v with
                           | Ok t => if len t =? 0 then Ok (s2b "E")
                                     else x <- matter_new None None None (Some t) None ;; Ok (m_code x)
                           | _ => Err E_Validation
                           end
                         end
                  | None => Err E_Validation
                  end) ;;
         _ <- validate saider_codes code ;;
         let sad := unwrap_or sad (VObj []) in
         '(raw, _) <- said_derive sad (Some code) kind (Some label) ignore ;;
         Ok (code, raw)
       end) ;;
    matter_new (Some code) (Some raw) None None None
  else
    s <- matter_new code raw qb64b qb64 qb2 ;;
    _ <- validate saider_codes (m_code s) ;;
    Ok s.

(** saider.rs:167-188 *)
Definition saidify (sad : data) (code kind label : option bytes) (ignore : option (list bytes)) : outcome (matter * data) :=
  let code := unwrap_or code (s2b "E") in
  let label := unwrap_or label (s2b "d") in
  m <- to_map sad ;;
  if negb (contains_key label m) then Err E_Validation
  else
    '(_, sad) <- said_derive sad (Some code) kind (Some label) ignore ;;
    saider <- saider_new (Some sad) (Some label) kind ignore (Some code) None None None None ;;
    q <- matter_qb64 saider ;;
    sad <- vset sad label (VStr q) ;;
    Ok (saider, sad).

(** saider.rs:190-241 *)
Definition said_verify (self : matter) (sad : data) (prefixed versioned : option bool) (kind label : option bytes) (ignore : option (list bytes)) : outcome bool :=
  let label := unwrap_or label (s2b "d") in
  let prefixed := unwrap_or prefixed false in
  let versioned := unwrap_or versioned true in
  match said_derive sad (Some (m_code self)) kind (Some label) ignore with
  | Panic => Panic
  | Err _ => Ok false
  | Ok (raw, dsad) =>
    match saider_new None None None None (Some (m_code self)) (Some raw) None None None with
    | Panic => Panic
    | Err _ => Ok false
    | Ok saider =>
      a <- matter_qb64 self ;;
      b <- matter_qb64 saider ;;
      if negb (bytes_eqb a b) then Ok false
      else
        stop <- (if versioned then
                   m <- to_map sad ;;
                   if contains_key (s2b "v") m then
                     v <- vget sad (s2b "v") ;; x <- to_string v ;; w <- vget dsad (s2b "v") ;; y <- to_string w ;; Ok (negb (bytes_eqb x y))
                   else Ok false
                 else Ok false) ;;
        if stop : bool then Ok false
        else if prefixed then
          v <- vget sad label ;; x <- to_string v ;; a <- matter_qb64 self ;; Ok (bytes_eqb x a)
        else Ok true
    end
  end.
End Saider.
