(** Model of /repo/src/core/indexer/mod.rs. *)
From Verif Require Import Base Utf8 B64 Util IndexerTables.

(** the state of an implementation of the trait (mod.rs:15-27; e.g. siger.rs) *)
Record indexer := Idx { x_code : bytes; x_raw : bytes; x_index : N; x_ondex : N }.

Section Indexer.
Context `{Profile}.

(** [index * 4 + cs] on u32 (mod.rs:130, 228, 324, 448, 582, 639) *)
Definition var_full (index cs : N) : outcome N := q <- mul32 index 4 ;; add32 q cs.

(** [64_u32.pow(k) - 1] *)
Definition pow_lim (k : N) : outcome N := p <- pow64_32 k ;; sub32 p 1.

(** mod.rs:113-131 (constructor), same code in 212-229 (infil) and 308-327
    (binfil): the full size, variable length material sized by the index *)
Definition i_full (szg : isizage) (index : N) (e : error) : outcome N :=
  let cs := i_hs szg + i_ss szg in
  if i_fs szg =? u32_max then
    if negb (cs mod 4 =? 0) then Err e
    else if negb (i_os szg =? 0) then Err e
    else var_full index cs
  else Ok (i_fs szg).

(** mod.rs:60-148 [new_with_code_and_raw] *)
Definition indexer_new_with_code_and_raw (code raw : bytes) (index : N) (ondex : option N) : outcome indexer :=
  match code with
  | [] => Err E_EmptyMaterial
  | _ =>
    szg <- get_isizage code ;;
    let cs := i_hs szg + i_ss szg in
    let ms := i_ss szg - i_os szg in
    lim <- pow_lim ms ;;
    if lim <? index then Err E_InvalidVarIndex
    else
      bad <- (match ondex with
              | Some o => if 0 <? i_os szg then olim <- pow_lim (i_os szg) ;; Ok (olim <? o) else Ok false
              | None => Ok false
              end) ;;
      if bad : bool then Err E_InvalidVarIndex
      else if mem_code code current_sig_codes && (match ondex with Some _ => true | None => false end)
      then Err E_InvalidVarIndex
      else
        ondex <- (if mem_code code both_sig_codes then
                    match ondex with None => Ok (Some index) | Some o => Ok (Some o) end
                  else match ondex with
                       | Some o => if negb (o =? index) && (i_os szg =? 0) then Err E_InvalidVarIndex else Ok (Some o)
                       | None => Ok None
                       end) ;;
        fs <- i_full szg index E_InvalidCodeSize ;;
        d <- sub32 fs cs ;;
        d3 <- mul32 d 3 ;;
        let rize := d3 / 4 in
        if len raw <? rize then Err E_Shortage
        else
          raw <- slice raw 0 rize ;;
          Ok (Idx code raw index (match ondex with Some o => o | None => 0 end))
  end.

(** mod.rs:201-279 [infil] *)
Definition indexer_infil (x : indexer) : outcome bytes :=
  let ps := (3 - len (x_raw x) mod 3) mod 3 in
  szg <- get_isizage (x_code x) ;;
  let cs := i_hs szg + i_ss szg in
  let ms := i_ss szg - i_os szg in
  fs <- i_full szg (x_index x) E_InvalidCodeSize ;;
  lim <- pow_lim ms ;;
  if lim <? x_index x then Err E_InvalidVarIndex
  else
    bad <- (if 0 <? i_os szg then olim <- pow_lim (i_os szg) ;; Ok (olim <? x_ondex x) else Ok false) ;;
    if bad : bool then Err E_InvalidVarIndex
    else
      a <- u32_to_b64 (x_index x) ms ;;
      b <- u32_to_b64 (x_ondex x) (i_os szg) ;;
      let both := x_code x ++ a ++ b in
      if negb (len both =? cs) then Err E_InvalidCodeSize
      else
        d <- sub32 ps (i_ls szg) ;;
        if negb (cs mod 4 =? d) then Err E_InvalidCodeSize
        else
          let b64 := b64_encode (rep 0 ps ++ x_raw x) in
          tail <- str_slice b64 (ps - i_ls szg) (len b64) ;;
          let full := both ++ tail in
          if negb (len full =? fs) then Err E_InvalidCodeSize else Ok full.

(** mod.rs:284-376 [binfil] *)
Definition indexer_binfil (x : indexer) : outcome bytes :=
  let ps := (3 - len (x_raw x) mod 3) mod 3 in
  szg <- get_isizage (x_code x) ;;
  let cs := i_hs szg + i_ss szg in
  let ms := i_ss szg - i_os szg in
  lim <- pow_lim (i_ss szg) ;;
  if lim <? x_index x then Err E_InvalidVarIndex
  else
    bad <- (if i_os szg =? 1 then olim <- pow_lim (i_os szg) ;; Ok (olim <? x_ondex x) else Ok false) ;;
    if bad : bool then Err E_InvalidVarIndex
    else
      fs <- i_full szg (x_index x) E_InvalidCodeSize ;;
      a <- u32_to_b64 (x_index x) ms ;;
      b <- u32_to_b64 (x_ondex x) (i_os szg) ;;
      let both := x_code x ++ a ++ b in
      if negb (len both =? cs) then Err E_InvalidCodeSize
      else
        d <- sub32 ps (i_ls szg) ;;
        if negb (cs mod 4 =? d) then Err E_InvalidCodeSize
        else
          let n := ((cs + 1) * 3) / 4 in
          full <- code_full both cs n ;;
          let buffer := drop (len full - n) full ++ rep 0 (i_ls szg) ++ x_raw x in
          let bfs := len buffer in
          if negb (bfs mod 3 =? 0) || negb (bfs * 4 / 3 =? fs) then Err E_InvalidCodeSize
          else Ok buffer.

(** mod.rs:413-429 and 546-565: the ondex as read back *)
Definition read_ondex (hard odx : bytes) (os index : N) : outcome N :=
  if mem_code hard current_sig_codes then
    if negb (os =? 0) then
      o <- b64_to_u32 odx ;;
      if negb (o =? 0) then Err E_Value else Ok 0
    else Ok 0
  else if negb (os =? 0) then b64_to_u32 odx
  else Ok index.

(** mod.rs:382-508 [exfil] *)
Definition indexer_exfil (qb64 : bytes) : outcome indexer :=
  match qb64 with
  | [] => Err E_EmptyMaterial
  | first :: _ =>
    hs0 <- i_hardage first ;;
    if len qb64 <? hs0 then Err E_Shortage
    else
      hard <- str_slice qb64 0 hs0 ;;
      szg <- get_isizage hard ;;
      let cs := i_hs szg + i_ss szg in
      let ms := i_ss szg - i_os szg in
      if len qb64 <? cs then Err E_Shortage
      else
        it <- str_slice qb64 hs0 (hs0 + ms) ;;
        index <- b64_to_u32 it ;;
        odx <- str_slice qb64 (hs0 + ms) (hs0 + ms + i_os szg) ;;
        ondex <- read_ondex hard odx (i_os szg) index ;;
        fs <- i_full szg index E_Validation ;;
        if len qb64 <? fs then Err E_Shortage
        else
          trim <- str_slice qb64 0 fs ;;
          let ps := cs mod 4 in
          raw <-
            (if negb (ps =? 0) then
               tail <- str_slice trim cs (len trim) ;;
               paw <- b64_decode (rep 65 ps ++ tail) ;;
               pre <- slice paw 0 ps ;;
               if negb (from_be pre mod 2 ^ (2 * ps) =? 0) then Err E_Prepad
               else slice paw ps (len paw)
             else
               tail <- str_slice trim cs (len trim) ;;
               paw <- b64_decode tail ;;
               pre <- slice paw 0 (i_ls szg) ;;
               if negb (from_be pre =? 0) then
                 (if i_ls szg =? 1 then Err E_NonZeroedLeadByte else Err E_NonZeroedLeadBytes)
               else slice paw ps (len paw)) ;;
          Ok (Idx hard raw index ondex)
  end.

(** mod.rs:514-631 [bexfil]; [fs + 1] and [* 3] on u32 *)
Definition indexer_bexfil (qb2 : bytes) : outcome indexer :=
  match qb2 with
  | [] => Err E_EmptyMaterial
  | _ =>
    sx <- nab_sextets qb2 1 ;;
    first <- index_at sx 0 ;;
    hs0 <- i_bardage first ;;
    let bhs := (hs0 * 3 + 3) / 4 in
    if len qb2 <? bhs then Err E_Shortage
    else
      hard <- code_b2_to_b64 qb2 hs0 ;;
      szg <- get_isizage hard ;;
      let cs := i_hs szg + i_ss szg in
      let ms := i_ss szg - i_os szg in
      let bcs := ((cs + 1) * 3) / 4 in
      if len qb2 <? bcs then Err E_Shortage
      else
        both <- code_b2_to_b64 qb2 cs ;;
        it <- str_slice both hs0 (hs0 + ms) ;;
        index <- b64_to_u32 it ;;
        odx <- str_slice both (hs0 + ms) (hs0 + ms + i_os szg) ;;
        ondex <- read_ondex hard odx (i_os szg) index ;;
        fs <- i_full szg index E_ParseQb2 ;;
        f1 <- add32 fs 1 ;;
        f3 <- mul32 f1 3 ;;
        let bfs := f3 / 4 in
        if len qb2 <? bfs then Err E_Shortage
        else
          trim <- slice qb2 0 bfs ;;
          let ps := cs mod 4 in
          _ <-
            (if negb (ps =? 0) then
               pi <- index_at trim (bcs - 1) ;;
               if negb (pi mod 2 ^ (2 * ps) =? 0) then Err E_NonZeroedPadBits else Ok tt
             else
               if forallb (N.eqb 0) (drop bcs (take (bcs + i_ls szg) trim)) then Ok tt
               else if i_ls szg =? 1 then Err E_NonZeroedLeadByte else Err E_NonZeroedLeadBytes) ;;
          raw <- slice trim (bcs + i_ls szg) (len trim) ;;
          Ok (Idx hard raw index ondex)
  end.

(** mod.rs:150-177 *)
Definition indexer_new_with_qb64 (t : bytes) := indexer_exfil t.
Definition indexer_new_with_qb64b (t : bytes) : outcome indexer := s <- from_utf8 t ;; indexer_exfil s.
Definition indexer_new_with_qb2 (b : bytes) := indexer_bexfil b.

(** mod.rs:30-58 [new] *)
Definition indexer_new (index ondex : option N) (code raw qb64b qb64 qb2 : option bytes) : outcome indexer :=
  let index := match index with Some i => i | None => 0 end in
  match raw with
  | Some raw =>
      match code with
      | Some code => indexer_new_with_code_and_raw code raw index ondex
      | None => Err E_EmptyMaterial
      end
  | None =>
    match qb64b with
    | Some t => indexer_new_with_qb64b t
    | None =>
      match qb64 with
      | Some t => indexer_new_with_qb64 t
      | None => match qb2 with Some b => indexer_new_with_qb2 b | None => Err E_Validation end
      end
    end
  end.

(** mod.rs:181-194 *)
Definition indexer_qb64 (x : indexer) := indexer_infil x.
Definition indexer_qb64b (x : indexer) := indexer_infil x.
Definition indexer_qb2 (x : indexer) := indexer_binfil x.

(** mod.rs:633-641 [full_size] *)
Definition indexer_full_size (x : indexer) : outcome N :=
  szg <- get_isizage (x_code x) ;;
  if negb (i_fs szg =? u32_max) then Ok (i_fs szg)
  else var_full (x_index x) (i_hs szg + i_ss szg).

(** siger.rs / struct setters: [set_index], [set_ondex] (trait methods 24, 27) *)
Definition set_index (x : indexer) (i : N) : indexer := Idx (x_code x) (x_raw x) i (x_ondex x).
Definition set_ondex (x : indexer) (o : N) : indexer := Idx (x_code x) (x_raw x) (x_index x) o.
End Indexer.
