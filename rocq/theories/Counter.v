(** Model of /repo/src/core/counter/mod.rs. *)
From Verif Require Import Base Utf8 B64 Util MatterTables CounterTables StdStr.

(** mod.rs:6-10 *)
Record counter := Ctr { c_code : bytes; c_count : N }.

Section Counter.
Context `{Profile}.

(** mod.rs:109-133 *)
Definition counter_new_with_code_and_count (code : bytes) (count : N) : outcome counter :=
  match code with
  | [] => Err E_EmptyMaterial
  | _ =>
    szg <- c_sizage code ;;
    let cs := hs szg + ss szg in
    if negb (fs szg =? cs) || negb (cs mod 4 =? 0) then Err E_InvalidCodeSize
    else
      p <- pow64_32 (ss szg) ;;
      lim <- sub32 p 1 ;;
      if lim <? count then Err E_InvalidVarIndex else Ok (Ctr code count)
  end.

(** mod.rs:174-211 [infil] *)
Definition counter_infil (c : counter) : outcome bytes :=
  szg <- c_sizage (c_code c) ;;
  let cs := hs szg + ss szg in
  if negb (fs szg =? cs) || negb (cs mod 4 =? 0) then Err E_InvalidCodeSize
  else
    p <- pow64_32 (ss szg) ;;
    lim <- sub32 p 1 ;;
    if lim <? c_count c then Err E_InvalidVarIndex
    else
      soft <- u32_to_b64 (c_count c) (ss szg) ;;
      let both := c_code c ++ soft in
      if negb (len both =? cs) then Err E_InvalidCodeSize else Ok both.

(** mod.rs:213-216 [binfil] *)
Definition counter_binfil (c : counter) : outcome bytes :=
  both <- counter_infil c ;; code_b64_to_b2 both.

(** mod.rs:218-253 [exfil] *)
Definition counter_exfil (qb64 : bytes) : outcome counter :=
  match qb64 with
  | [] => Err E_EmptyMaterial
  | _ =>
    first <- str_slice qb64 0 2 ;;
    hs0 <- c_hardage first ;;
    if len qb64 <? hs0 then Err E_Shortage
    else
      hard <- str_slice qb64 0 hs0 ;;
      szg <- c_sizage hard ;;
      let cs := hs szg + ss szg in
      if len qb64 <? cs then Err E_Shortage
      else
        soft <- str_slice qb64 (hs szg) cs ;;
        n <- b64_to_u64 soft ;;
        Ok (Ctr hard (as_u32 n))
  end.

(** mod.rs:255-308 [bexfil]; the count loop (mod.rs:297-301) is the body of
    [b64_to_u32]: shift by 6 (dropping high bits), add the index. *)
Definition counter_bexfil (qb2 : bytes) : outcome counter :=
  match qb2 with
  | [] => Err E_EmptyMaterial
  | _ =>
    sx <- nab_sextets qb2 2 ;;
    f0 <- index_at sx 0 ;;
    if 62 <? f0 then (if f0 =? 63 then Err E_UnexpectedOpCode else Err E_UnexpectedCode)
    else
      hs0 <- c_bardage sx ;;
      let bhs := ((hs0 + 1) * 3) / 4 in
      if len qb2 <? bhs then Err E_Shortage
      else
        hard <- code_b2_to_b64 qb2 hs0 ;;
        szg <- c_sizage hard ;;
        let cs := hs szg + ss szg in
        let bcs := ((cs + 1) * 3) / 4 in
        if len qb2 <? bcs then Err E_Shortage
        else
          both <- code_b2_to_b64 qb2 cs ;;
          soft <- str_slice both hs0 cs ;;
          count <- b64_to_u32 soft ;;
          Ok (Ctr hard count)
  end.

(** mod.rs:135-154 *)
Definition counter_new_with_qb64 (t : bytes) := counter_exfil t.
Definition counter_new_with_qb64b (t : bytes) : outcome counter := s <- from_utf8 t ;; counter_exfil s.
Definition counter_new_with_qb2 (b : bytes) := counter_bexfil b.

(** mod.rs:13-40 [new] *)
Definition counter_new (count : option N) (count_b64 code qb64b qb64 qb2 : option bytes) : outcome counter :=
  match code with
  | Some code =>
      count <- (match count with
                | Some n => Ok n
                | None => match count_b64 with Some t => b64_to_u32 t | None => Ok 1 end
                end) ;;
      counter_new_with_code_and_count code count
  | None =>
    match qb64b with
    | Some t => counter_new_with_qb64b t
    | None =>
      match qb64 with
      | Some t => counter_new_with_qb64 t
      | None => match qb2 with Some b => counter_new_with_qb2 b | None => Err E_Validation end
      end
    end
  end.

(** mod.rs:50-53 [count_as_b64] *)
Definition counter_count_as_b64 (c : counter) (length : N) : outcome bytes :=
  l <- (if length =? 0 then szg <- c_sizage (c_code c) ;; Ok (ss szg) else Ok length) ;;
  u32_to_b64 (c_count c) l.

(** mod.rs:55-65 *)
Definition counter_qb64 (c : counter) := counter_infil c.
Definition counter_qb64b (c : counter) := counter_infil c.
Definition counter_qb2 (c : counter) := counter_binfil c.

(** mod.rs:310-312 *)
Definition counter_full_size (c : counter) : outcome N := szg <- c_sizage (c_code c) ;; Ok (fs szg).

(** mod.rs:156-172 [sem_ver_parts_to_b64]; [u32_to_b64] cannot fail on parts
    below 64 ([unreachable!] otherwise, modelled as Panic) *)
Fixpoint parts_to_b64 (parts : list N) : outcome bytes :=
  match parts with
  | [] => Ok []
  | p :: ps =>
      s <- (match u32_to_b64 p 1 with Ok s => Ok s | _ => Panic end) ;;
      r <- parts_to_b64 ps ;; Ok (s ++ r)
  end.
Definition sem_ver_parts_to_b64 (parts : list N) : outcome bytes :=
  if existsb (fun p => 63 <? p) parts then Err E_Parsing else parts_to_b64 parts.

(** mod.rs:104-107 *)
Definition sem_ver_to_b64 (major minor patch : N) : outcome bytes := sem_ver_parts_to_b64 [major; minor; patch].

(** mod.rs:77-99: one part; i8 parse, negative rejected, empty is zero *)
Definition sem_ver_part (s : bytes) : outcome N :=
  match parse_int 10 (-128) 127 s with
  | Some n => if (n <? 0)%Z then Err E_Conversion else Ok (Z.to_N n)
  | None => match s with [] => Ok 0 | _ => Err E_Conversion end
  end.
Fixpoint sem_ver_parts (l : list bytes) : outcome (list N) :=
  match l with
  | [] => Ok []
  | s :: r => n <- sem_ver_part s ;; ns <- sem_ver_parts r ;; Ok (n :: ns)
  end.
(** mod.rs:67-102 *)
Definition sem_ver_str_to_b64 (version : bytes) : outcome bytes :=
  let strings := split_on 46 version in
  if 3 <? len strings then Err E_Conversion
  else
    ns <- sem_ver_parts strings ;;
    sem_ver_parts_to_b64 (ns ++ rep 0 (3 - len ns)).
End Counter.
