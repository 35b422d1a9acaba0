(** Model of the thin primitive types over Matter and Indexer:
    /repo/src/core/{verfer,cigar,siger,diger,number,seqner,dater,bexter}.rs. *)
From Verif Require Import Base Utf8 B64 Util MatterTables Matter IndexerTables Indexer StdStr Crypto.

(** the [validate_code] functions: e.g. verfer.rs:18-35 *)
Definition validate (codes : list bytes) (code : bytes) : outcome unit :=
  if mem_code code codes then Ok tt else Err E_UnexpectedCode.

(** verfer.rs:19-28 *)
Definition verfer_codes : list bytes := [s2b "B"; s2b "D"; s2b "1AAA"; s2b "1AAB"; s2b "1AAI"; s2b "1AAJ"].
(** cigar.rs:25-30 *)
Definition cigar_codes : list bytes := [s2b "0B"; s2b "0C"; s2b "0I"].
(** siger.rs:27-44 *)
Definition siger_codes : list bytes :=
  [s2b "A"; s2b "B"; s2b "C"; s2b "D"; s2b "E"; s2b "F"; s2b "2A"; s2b "2B"; s2b "2C"; s2b "2D"; s2b "2E"; s2b "2F"].
(** diger.rs:39-49 *)
Definition diger_codes : list bytes :=
  [s2b "E"; s2b "0D"; s2b "F"; s2b "0E"; s2b "G"; s2b "H"; s2b "I"; s2b "0F"; s2b "0G"].
(** number.rs:17-25: Short, Long, Big, Huge *)
Definition number_codes : list bytes := [s2b "M"; s2b "0H"; s2b "N"; s2b "0A"].
(** bexter.rs:46-63 *)
Definition bexter_codes : list bytes := [s2b "4A"; s2b "5A"; s2b "6A"; s2b "7AAA"; s2b "8AAA"; s2b "9AAA"].

Definition none {A} (o : option A) : bool := match o with None => true | Some _ => false end.
Definition unwrap_or {A} (o : option A) (d : A) : A := match o with Some a => a | None => d end.

Section Prims.
Context `{P : Profile}.

(** verfer.rs:37-49 *)
Definition verfer_new (code raw qb64b qb64 qb2 : option bytes) : outcome matter :=
  let code := unwrap_or code (s2b "B") in
  v <- matter_new (Some code) raw qb64b qb64 qb2 ;;
  _ <- validate verfer_codes (m_code v) ;;
  Ok v.

(** verfer.rs:67-70 *)
Definition verfer_verify `{Crypto} (v : matter) (sig ser : bytes) : outcome bool :=
  _ <- validate verfer_codes (m_code v) ;;
  sign_verify (m_code v) (m_raw v) sig ser.

(** verfer.rs:12-16 Default *)
Definition verfer_default : matter := Mat (s2b "D") 0 [].

(** cigar.rs:5-11: a signature with its verfer *)
Record cigar := Cig { cg_matter : matter; cg_verfer : matter }.
(** cigar.rs:40-54 *)
Definition cigar_new (verfer : option matter) (code raw qb64b qb64 qb2 : option bytes) : outcome cigar :=
  c <- matter_new code raw qb64b qb64 qb2 ;;
  _ <- validate cigar_codes (m_code c) ;;
  Ok (Cig c (unwrap_or verfer verfer_default)).

(** siger.rs:5-12 *)
Record siger := Sg { sg_indexer : indexer; sg_verfer : matter }.
(** siger.rs:53-71 *)
Definition siger_new (verfer : option matter) (index ondex : option N) (code raw qb64b qb64 qb2 : option bytes) : outcome siger :=
  s <- indexer_new index ondex code raw qb64b qb64 qb2 ;;
  _ <- validate siger_codes (x_code s) ;;
  Ok (Sg s (unwrap_or verfer verfer_default)).

(** diger.rs:59-80; [result.is_ok()] keeps only success, every error falls
    through to hashing [ser] *)
Definition diger_new `{Crypto} (ser code raw qb64b qb64 qb2 : option bytes) : outcome matter :=
  match matter_new code raw qb64b qb64 qb2 with
  | Panic => Panic
  | Ok d => _ <- validate diger_codes (m_code d) ;; Ok d
  | Err _ =>
    match ser with
    | Some ser =>
        let code := unwrap_or code (s2b "E") in
        _ <- validate diger_codes code ;;
        dig <- digest code ser ;;
        matter_new (Some code) (Some dig) None None None
    | None => Err E_Validation
    end
  end.

(** diger.rs:102-105 *)
Definition diger_verify `{Crypto} (d : matter) (ser : bytes) : outcome bool :=
  dig <- digest (m_code d) ser ;; Ok (bytes_eqb dig (m_raw d)).

(** diger.rs:117-133 *)
Definition diger_compare_dig `{Crypto} (d : matter) (ser dig : bytes) : outcome bool :=
  q <- matter_qb64b d ;;
  if bytes_eqb dig q then Ok true
  else
    d2 <- matter_new None None (Some dig) None None ;;
    if bytes_eqb (m_code d2) (m_code d) then Ok false
    else
      v2 <- diger_verify d2 ser ;;
      if v2 then v1 <- diger_verify d ser ;; Ok v1 else Ok false.

(** diger.rs:135-150 *)
Definition diger_compare_diger `{Crypto} (d : matter) (ser : bytes) (d2 : matter) : outcome bool :=
  q2 <- matter_qb64 d2 ;;
  q <- matter_qb64 d ;;
  if bytes_eqb q2 q then Ok true
  else if bytes_eqb (m_code d2) (m_code d) then Ok false
  else
    v2 <- diger_verify d2 ser ;;
    if v2 then v1 <- diger_verify d ser ;; Ok v1 else Ok false.

(** diger.rs:107-115 *)
Definition diger_compare `{Crypto} (d : matter) (ser : bytes) (dig : option bytes) (diger : option matter) : outcome bool :=
  match dig with
  | Some dig => diger_compare_dig d ser dig
  | None => match diger with Some d2 => diger_compare_diger d ser d2 | None => Err E_Value end
  end.

(** [u128::from_str_radix(s, 16)?] *)
Definition parse_hex_u128 (s : bytes) : outcome N :=
  match parse_uint 16 (U128 - 1) s with Some n => Ok n | None => Err E_ParseInt end.

(** number.rs:44-94.  [num] is a u128 (below 2^128). *)
Definition number_new (num : option N) (numh code raw qb64b qb64 qb2 : option bytes) : outcome matter :=
  if none raw && none qb64b && none qb64 && none qb2 then
    num <- (match num with
            | Some n => Ok n
            | None => match numh with
                      | Some h => match h with [] => Ok 0 | _ => parse_hex_u128 h end
                      | None => Ok 0
                      end
            end) ;;
    let '(code, width) :=
      if num <? 256 ^ 2 then (s2b "M", 2%nat)
      else if num <? 256 ^ 4 then (s2b "0H", 4%nat)
      else if num <? 256 ^ 8 then (s2b "N", 8%nat)
      else (s2b "0A", 16%nat) in
    matter_new (Some code) (Some (to_be width num)) None qb64 None
  else
    let code := unwrap_or code (s2b "M") in
    _ <- validate number_codes code ;;
    matter_new (Some code) raw qb64b qb64 qb2.

(** number.rs:120-147; [copy_from_slice] panics unless the lengths agree *)
Definition number_num (m : matter) : outcome N :=
  let width :=
    if bytes_eqb (m_code m) (s2b "M") then Some 2
    else if bytes_eqb (m_code m) (s2b "0H") then Some 4
    else if bytes_eqb (m_code m) (s2b "N") then Some 8
    else if bytes_eqb (m_code m) (s2b "0A") then Some 16
    else None in
  match width with
  | Some w => if len (m_raw m) =? w then Ok (from_be (m_raw m)) else Panic
  | None => Err E_UnexpectedCode
  end.

(** number.rs:149-152 *)
Definition number_numh (m : matter) : outcome bytes := n <- number_num m ;; Ok (to_hex n).
(** number.rs:154-156 *)
Definition number_positive (m : matter) : outcome bool := n <- number_num m ;; Ok (0 <? n).

(** seqner.rs:26-55 *)
Definition seqner_new (sn : option N) (snh code raw qb64b qb64 qb2 : option bytes) : outcome matter :=
  let code := unwrap_or code (s2b "0A") in
  raw <- (if none raw && none qb64b && none qb64 && none qb2 then
            n <- (match sn with
                  | Some n => Ok n
                  | None => match snh with Some h => parse_hex_u128 h | None => Ok 0 end
                  end) ;;
            Ok (Some (to_be 16 n))
          else Ok raw) ;;
  s <- matter_new (Some code) raw qb64b qb64 qb2 ;;
  _ <- validate [s2b "0A"] (m_code s) ;;
  Ok s.

(** seqner.rs:81-83: [raw[0..16]] panics on shorter raw *)
Definition seqner_sn (m : matter) : outcome N := r <- slice (m_raw m) 0 16 ;; Ok (from_be r).
(** seqner.rs:85-87 *)
Definition seqner_snh (m : matter) : outcome bytes := n <- seqner_sn m ;; Ok (to_hex n).

(** dater.rs:25-31 *)
Definition iso_8601_to_b64 (s : bytes) : bytes := replace_char 43 112 (replace_char 46 100 (replace_char 58 99 s)).
Definition b64_to_iso_8601 (s : bytes) : bytes := replace_char 112 43 (replace_char 100 46 (replace_char 99 58 s)).

(** dater.rs:43-64; [now] is the clock reading of [now_as_iso8601] (33-36) *)
Definition dater_new (now : bytes) (dts code raw qb64b qb64 qb2 : option bytes) : outcome matter :=
  let code := unwrap_or code (s2b "1AAG") in
  d <- (if none raw && none qb64b && none qb64 && none qb2 then
          let b64 := iso_8601_to_b64 (unwrap_or dts now) in
          matter_new (Some code) raw qb64b (Some (s2b "1AAG" ++ b64)) qb2
        else matter_new (Some code) raw qb64b qb64 qb2) ;;
  _ <- validate [s2b "1AAG"] (m_code d) ;;
  Ok d.

(** dater.rs:86-90 *)
Definition dater_dts (m : matter) : outcome bytes :=
  z <- get_sizage (m_code m) ;;
  q <- matter_qb64 m ;;
  r <- str_slice q (hs z) (len q) ;;
  Ok (b64_to_iso_8601 r).

(** the regular expression "^[A-Za-z0-9\-_]*$" (util.rs:3) *)
Definition reb64_match (s : bytes) : bool := forallb is_b64 s.

(** bexter.rs:74-80 *)
Definition rawify (bext : bytes) : outcome bytes :=
  let ts := len bext mod 4 in
  let ws := (4 - ts) mod 4 in
  let ls := (3 - ts) mod 3 in
  d <- b64_decode (rep 65 ws ++ bext) ;;
  slice d ls (len d).

(** bexter.rs:13-29 [Bext::bext] *)
Definition bext_of (m : matter) : outcome bytes :=
  z <- get_sizage (m_code m) ;;
  let t := b64_encode (rep 0 (ls z) ++ m_raw m) in
  let ws := if ls z =? 0 then (match t with c :: _ => if c =? 65 then 1 else 0 | [] => 0 end)
            else (ls z + 1) mod 4 in
  str_slice t ws (len t).

(** bexter.rs:82-119 *)
Definition bexter_new (bext code raw qb64b qb64 qb2 : option bytes) : outcome matter :=
  let code := unwrap_or code (s2b "4A") in
  b <- (if none bext && none raw && none qb64b && none qb64 && none qb2 then Err E_EmptyMaterial
        else match bext with
             | Some t =>
                 if negb (reb64_match t) then Err E_Value
                 else raw <- rawify t ;; matter_new (Some code) (Some raw) None None None
             | None => matter_new (Some code) raw qb64b qb64 qb2
             end) ;;
  _ <- validate bexter_codes (m_code b) ;;
  Ok b.
End Prims.
