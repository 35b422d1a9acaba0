(** Model of /repo/src/core/matter/mod.rs (trait Matter). *)
From Verif Require Import Base Utf8 B64 Util MatterTables.

(** The state every implementor of the trait keeps: code, size, raw
    (e.g. /repo/src/core/verfer.rs:8-14). *)
Record matter := Mat { m_code : bytes; m_size : N; m_raw : bytes }.

Section Matter.
Context `{Profile}.

(** mod.rs:42-113 [new_with_code_and_raw].
    [raw.len() as u32] wraps; the later arithmetic on rize is u32 and cannot
    overflow except [rize + ls], which is written with its check. *)
Definition matter_new_with_code_and_raw (code raw : bytes) : outcome matter :=
  match code with
  | [] => Err E_EmptyMaterial
  | first :: _ =>
    let small := existsb (N.eqb first) small_vrz in
    let large := existsb (N.eqb first) large_vrz in
    '(code', size, rize) <-
      (if small || large then
         let rize := as_u32 (len raw) in
         let l := (3 - rize mod 3) mod 3 in
         t <- add32 rize l ;;
         let size := t / 3 in
         if small then
           if size <? 64 ^ 2 then
             sfx <- str_slice code 1 2 ;;
             s <- index_at small_vrz l ;;
             Ok ([s] ++ sfx, size, rize)
           else if size <? 64 ^ 4 then
             sfx <- str_slice code 1 2 ;;
             s <- index_at large_vrz l ;;
             Ok ([s] ++ s2b "AA" ++ sfx, size, rize)
           else Err E_InvalidVarRawSize
         else
           if size <? 64 ^ 4 then
             sfx <- str_slice code 1 4 ;;
             s <- index_at large_vrz l ;;
             Ok ([s] ++ sfx, size, rize)
           else Err E_InvalidVarRawSize
       else
         r <- raw_size code ;; Ok (code, 0, r)) ;;
    if len raw <? rize then Err E_Shortage
    else Ok (Mat code' size (take rize raw))
  end.

(** mod.rs:187-253 [infil] *)
Definition matter_infil (m : matter) : outcome bytes :=
  let code := m_code m in
  let raw := m_raw m in
  let ps := (3 - len raw mod 3) mod 3 in
  szg <- get_sizage code ;;
  if fs szg =? u32_max then
    let cs := hs szg + ss szg in
    if negb (cs mod 4 =? 0) then Err E_InvalidCodeSize
    else
      p <- pow64_32 (ss szg) ;;
      lim <- sub32 p 1 ;;
      if lim <? m_size m then Err E_InvalidVarSize
      else
        soft <- u32_to_b64 (m_size m) (ss szg) ;;
        let both := code ++ soft in
        if ((ls szg <=? ps) && negb (len both mod 4 =? ps - ls szg))
           || ((ps <? ls szg) && negb (len both mod 4 =? ls szg - ps))
        then Err E_InvalidCodeSize
        else
          let buffer := rep 0 (ls szg) ++ raw in
          b64 <- b64_encode_slice buffer (len buffer * 4 / 3) ;;
          b64 <- from_utf8 b64 ;;
          Ok (both ++ b64)
  else
    let cs := len code in
    d <- sub32 ps (ls szg) ;;
    if negb (cs mod 4 =? d) then Err E_InvalidCodeSize
    else
      let buffer := rep 0 ps ++ raw in
      b64 <- b64_encode_slice buffer (len buffer * 4 / 3) ;;
      b64 <- from_utf8 b64 ;;
      tail <- str_slice b64 (cs mod 4) (len b64) ;;
      Ok (code ++ tail).

(** mod.rs:255-319 [binfil] *)
Definition matter_binfil (m : matter) : outcome bytes :=
  let code := m_code m in
  let raw := m_raw m in
  szg <- get_sizage code ;;
  let cs := hs szg + ss szg in
  '(full_sz, both) <-
    (if fs szg =? u32_max then
       if negb (cs mod 4 =? 0) then Err E_InvalidCodeSize
       else
         p <- pow64_32 (ss szg) ;;
         lim <- sub32 p 1 ;;
         if lim <? m_size m then Err E_InvalidVarSize
         else
           soft <- u32_to_b64 (m_size m) (ss szg) ;;
           q <- mul32 (m_size m) 4 ;;
           f <- add32 cs q ;;
           Ok (f, code ++ soft)
     else Ok (fs szg, code)) ;;
  if negb (len both =? cs) then Err E_InvalidCodeSize
  else
    let n := ((cs + 1) * 3) / 4 in
    full <- code_full both cs n ;;
    let bcode := drop (len full - n) full in
    let buffer := bcode ++ rep 0 (ls szg) ++ raw in
    let bfs := len buffer in
    if negb (bfs mod 3 =? 0) || negb (bfs * 4 / 3 =? full_sz) then Err E_InvalidCodeSize
    else Ok buffer.

(** big-endian integer of the first bytes: the readInt loops of exfil
    (mod.rs:379-383, 396-399); at most two bytes, no overflow *)
Definition read_int (l : bytes) : N := from_be l.

(** mod.rs:321-420 [exfil]; the result of a successful parse replaces the whole
    state (code, size, raw), so it is returned as a new value. *)
Definition matter_exfil (qb64 : bytes) : outcome matter :=
  match qb64 with
  | [] => Err E_EmptyMaterial
  | first :: _ =>
    hs0 <- hardage first ;;
    if len qb64 <? hs0 then Err E_Shortage
    else
      hard <- str_slice qb64 0 hs0 ;;
      szg <- get_sizage hard ;;
      let cs := hs szg + ss szg in
      '(full_sz, size) <-
        (if fs szg =? u32_max then
           if negb (cs mod 4 =? 0) then Err E_InvalidCodeSize
           else if len qb64 <? cs then Err E_Shortage
           else
             soft <- str_slice qb64 (hs szg) cs ;;
             size <- b64_to_u32 soft ;;
             q <- mul32 size 4 ;;
             f <- add32 q cs ;;
             Ok (f, size)
         else Ok (fs szg, 0)) ;;
      if len qb64 <? full_sz then Err E_Shortage
      else
        trim <- str_slice qb64 0 full_sz ;;
        let ps := cs mod 4 in
        raw <-
          (if negb (ps =? 0) then
             tail <- str_slice trim cs (len trim) ;;
             paw <- b64_decode (rep 65 ps ++ tail) ;;
             pre <- slice paw 0 ps ;;
             if negb (read_int pre mod 2 ^ (2 * ps) =? 0) then Err E_Prepad
             else slice paw ps (len paw)
           else
             tail <- str_slice trim cs (len trim) ;;
             paw <- b64_decode tail ;;
             pre <- slice paw 0 (ls szg) ;;
             if negb (read_int pre =? 0) then
               (if ls szg =? 1 then Err E_NonZeroedLeadByte else Err E_NonZeroedLeadBytes)
             else slice paw (ls szg) (len paw)) ;;
        Ok (Mat hard size raw)
  end.

(** mod.rs:422-506 [bexfil] *)
Definition matter_bexfil (qb2 : bytes) : outcome matter :=
  match qb2 with
  | [] => Err E_EmptyMaterial
  | _ =>
    sx <- nab_sextets qb2 1 ;;
    first <- index_at sx 0 ;;
    hs0 <- bardage first ;;
    let bhs := (hs0 * 3 + 3) / 4 in
    if len qb2 <? bhs then Err E_Shortage
    else
      hard <- code_b2_to_b64 qb2 hs0 ;;
      szg <- get_sizage hard ;;
      let cs := hs szg + ss szg in
      let bcs := ((cs + 1) * 3) / 4 in
      '(full_sz, size) <-
        (if fs szg =? u32_max then
           if negb (cs mod 4 =? 0) then Err E_ParseQb2
           else if len qb2 <? bcs then Err E_Shortage
           else
             both <- code_b2_to_b64 qb2 cs ;;
             soft <- str_slice both (hs szg) cs ;;
             size <- b64_to_u32 soft ;;
             q <- mul32 size 4 ;;
             f <- add32 q cs ;;
             Ok (f, size)
         else Ok (fs szg, 0)) ;;
      f1 <- add32 full_sz 1 ;;
      f3 <- mul32 f1 3 ;;
      let bfs := f3 / 4 in
      if len qb2 <? bfs then Err E_Shortage
      else
        trim <- slice qb2 0 bfs ;;
        let ps := cs mod 4 in
        _ <-
          (if negb (ps =? 0) then
             pi <- index_at trim (bcs - 1) ;;
             if negb (pi mod 2 ^ (2 * ps) =? 0) then Err E_NonZeroedPadBits else Ok tt
           else
             if forallb (N.eqb 0) (drop bcs (take (bcs + ls szg) trim)) then Ok tt
             else if ls szg =? 1 then Err E_NonZeroedLeadByte else Err E_NonZeroedLeadBytes) ;;
        raw <- slice trim (bcs + ls szg) (len trim) ;;
        Ok (Mat hard size raw)
  end.

(** mod.rs:115-122 *)
Definition matter_new_with_qb64 (t : bytes) : outcome matter := matter_exfil t.
(** mod.rs:124-133 *)
Definition matter_new_with_qb64b (t : bytes) : outcome matter :=
  s <- from_utf8 t ;; matter_exfil s.
(** mod.rs:135-142 *)
Definition matter_new_with_qb2 (b : bytes) : outcome matter := matter_bexfil b.

(** mod.rs:17-40 [new] *)
Definition matter_new (code raw qb64b qb64 qb2 : option bytes) : outcome matter :=
  match raw with
  | Some raw =>
      match code with
      | Some code => matter_new_with_code_and_raw code raw
      | None => Err E_EmptyMaterial
      end
  | None =>
    match qb64b with
    | Some t => matter_new_with_qb64b t
    | None =>
      match qb64 with
      | Some t => matter_new_with_qb64 t
      | None =>
        match qb2 with
        | Some b => matter_new_with_qb2 b
        | None => Err E_Validation
        end
      end
    end
  end.

(** mod.rs:144-154 *)
Definition matter_qb64 (m : matter) := matter_infil m.
Definition matter_qb64b (m : matter) := matter_infil m.
Definition matter_qb2 (m : matter) := matter_binfil m.

(** mod.rs:508-516 [full_size] *)
Definition matter_full_size (m : matter) : outcome N :=
  szg <- get_sizage (m_code m) ;;
  if negb (fs szg =? u32_max) then Ok (fs szg)
  else
    q <- mul32 (m_size m) 4 ;;
    c <- add32 (hs szg) (ss szg) ;;
    add32 c q.
End Matter.

(** mod.rs:156-172 *)
Definition digestive_codes : list bytes :=
  [s2b "E"; s2b "0D"; s2b "F"; s2b "0E"; s2b "G"; s2b "H"; s2b "0F"; s2b "I"; s2b "0G"].
Definition matter_digestive (m : matter) : bool := mem_code (m_code m) digestive_codes.

(** mod.rs:174-185 *)
Definition nontransferable_codes : list bytes := [s2b "B"; s2b "1AAA"; s2b "1AAC"; s2b "1AAI"].
Definition matter_transferable (m : matter) : bool :=
  negb (mem_code (m_code m) nontransferable_codes).
