(** Model of /repo/src/core/prefixer.rs. *)
From Verif Require Import Base Utf8 MatterTables Matter StdStr Data Crypto Prims Common.

(** prefixer.rs:26-53 *)
Definition nontransferable_codes : list bytes := [s2b "B"; s2b "1AAA"; s2b "1AAI"].
Definition transferable_codes : list bytes := [s2b "D"; s2b "1AAB"; s2b "1AAJ"].
Definition prefixer_codes : list bytes :=
  nontransferable_codes ++ transferable_codes ++
  [s2b "E"; s2b "0D"; s2b "F"; s2b "0E"; s2b "G"; s2b "H"; s2b "0F"; s2b "I"; s2b "0G"].
(** prefixer.rs:56, 329: the inception ilks *)
Definition incepting : list bytes := [s2b "icp"; s2b "dip"; s2b "vcp"].

Section Prefixer.
Context `{P : Profile} `{C : Crypto}.

(** prefixer.rs:92-107, 134-149: the only key *)
Definition only_key (ked : data) (map : list (bytes * data)) : outcome matter :=
  if contains_key (s2b "k") map then
    v <- vget ked (s2b "k") ;;
    keys <- to_vec v ;;
    if negb (len keys =? 1) then Err E_Derivation
    else
      e <- index_at keys 0 ;;
      t <- to_string e ;;
      verfer_new None None None (Some t) None
  else Err E_Derivation.

(** prefixer.rs:112-125: the entry is absent or an empty text *)
Definition empty_text (ked : data) (map : list (bytes * data)) (label : bytes) : outcome unit :=
  if contains_key label map then
    v <- vget ked label ;;
    t <- to_string v ;;
    if len t =? 0 then Ok tt else Err E_Derivation
  else Ok tt.

(** prefixer.rs:88-128 *)
Definition derive_nontransferable (ked : data) (code : bytes) : outcome (bytes * bytes) :=
  map <- to_map ked ;;
  verfer <- only_key ked map ;;
  if negb (bytes_eqb (m_code verfer) code) then Err E_Derivation
  else
    _ <- empty_text ked map (s2b "n") ;;
    _ <- empty_text ked map (s2b "b") ;;
    _ <- empty_text ked map (s2b "a") ;;
    Ok (m_raw verfer, m_code verfer).

(** prefixer.rs:130-155 *)
Definition derive_transferable (ked : data) (code : bytes) : outcome (bytes * bytes) :=
  map <- to_map ked ;;
  verfer <- only_key ked map ;;
  if negb (bytes_eqb (m_code verfer) code) then Err E_Derivation
  else Ok (m_raw verfer, m_code verfer).

(** prefixer.rs:157-172 *)
Definition derive_digest (ked : data) (code : bytes) : outcome (bytes * bytes) :=
  szg <- get_sizage code ;;
  dum <- from_utf8 (rep dummy (fs szg)) ;;
  ked <- vset ked (s2b "i") (VStr dum) ;;
  ked <- vset ked (s2b "d") (VStr dum) ;;
  result <- sizeify ked None ;;
  dig <- digest code (sz_raw result) ;;
  Ok (dig, code).

(** prefixer.rs:55-86 *)
Definition prefix_derive (ked : data) (code : bytes) : outcome (bytes * bytes) :=
  v <- vget ked (s2b "t") ;;
  ilk <- to_string v ;;
  if negb (mem_code ilk incepting) then Err E_Value
  else if mem_code code nontransferable_codes then derive_nontransferable ked code
  else if mem_code code transferable_codes then derive_transferable ked code
  else if mem_code code digest_codes then derive_digest ked code
  else Err E_UnexpectedCode.

(** prefixer.rs:177-194, 214-231: the key is the prefix, and so is the entry "i" when asked for *)
Definition verify_key (ked : data) (map : list (bytes * data)) (pre : bytes) (prefixed : bool) : outcome bool :=
  if negb (contains_key (s2b "k") map) then Ok false
  else
    v <- vget ked (s2b "k") ;;
    keys <- to_vec v ;;
    if negb (len keys =? 1) then Ok false
    else
      e <- index_at keys 0 ;;
      t <- to_string e ;;
      if negb (bytes_eqb t pre) then Ok false
      else if prefixed then
        if negb (contains_key (s2b "i") map) then Ok false
        else v <- vget ked (s2b "i") ;; i <- to_string v ;; Ok (bytes_eqb i pre)
      else Ok true.

(** prefixer.rs:174-209 *)
Definition verify_nontransferable (ked : data) (pre : bytes) (prefixed : bool) : outcome bool :=
  map <- to_map ked ;;
  ok <- verify_key ked map pre prefixed ;;
  if negb ok then Ok false
  else if contains_key (s2b "n") map then
    v <- vget ked (s2b "n") ;;
    match v with
    | VArr l => Ok (len l =? 0)
    | VStr t => Ok (len t =? 0)
    | _ => Ok true
    end
  else Ok true.

(** prefixer.rs:211-234 *)
Definition verify_transferable (ked : data) (pre : bytes) (prefixed : bool) : outcome bool :=
  map <- to_map ked ;;
  verify_key ked map pre prefixed.

(** prefixer.rs:236-251 *)
Definition verify_digest (ked : data) (pre : bytes) (prefixed : bool) (code : bytes) : outcome bool :=
  '(raw, code) <- derive_digest ked code ;;
  crymat <- diger_new None (Some code) (Some raw) None None None ;;
  q <- matter_qb64 crymat ;;
  if negb (bytes_eqb q pre) then Ok false
  else
    map <- to_map ked ;;
    if prefixed then
      if negb (contains_key (s2b "i") map) then Ok false
      else v <- vget ked (s2b "i") ;; i <- to_string v ;; Ok (bytes_eqb i pre)
    else Ok true.

(** prefixer.rs:254-306 *)
Definition prefixer_new (ked : option data) (allows : option (list bytes)) (code raw qb64b qb64 qb2 : option bytes) : outcome matter :=
  if negb (none raw) || negb (none qb64b) || negb (none qb64) || negb (none qb2) then
    _ <- validate prefixer_codes (unwrap_or code (s2b "B")) ;;
    matter_new code raw qb64b qb64 qb2
  else
    ked <- (match ked with
            | Some ked =>
              bad <- (match code with
                      | None => m <- to_map ked ;; Ok (negb (contains_key (s2b "i") m))
                      | Some _ => Ok false
                      end) ;;
              if bad : bool then Err E_Validation else Ok ked
            | None => Err E_Validation
            end) ;;
    code <- (match code with
             | Some code => Ok code
             | None =>
               v <- vget ked (s2b "i") ;;
               t <- to_string v ;;
               m <- matter_new None None None (Some t) None ;;
               Ok (m_code m)
             end) ;;
    _ <- validate prefixer_codes code ;;
    let allows := unwrap_or allows [] in
    if negb (len allows =? 0) && negb (mem_code code allows) then Err E_UnexpectedCode
    else
      '(raw, code) <- prefix_derive ked code ;;
      matter_new (Some code) (Some raw) None None None.

(** prefixer.rs:328-362 *)
Definition prefixer_verify (self : matter) (ked : data) (prefixed : option bool) : outcome bool :=
  let prefixed := unwrap_or prefixed false in
  v <- vget ked (s2b "t") ;;
  ilk <- to_string v ;;
  if negb (mem_code ilk incepting) then Err E_Value
  else if mem_code (m_code self) nontransferable_codes then q <- matter_qb64 self ;; verify_nontransferable ked q prefixed
  else if mem_code (m_code self) transferable_codes then q <- matter_qb64 self ;; verify_transferable ked q prefixed
  else if mem_code (m_code self) digest_codes then q <- matter_qb64 self ;; verify_digest ked q prefixed (m_code self)
  else Err E_UnexpectedCode.
End Prefixer.
