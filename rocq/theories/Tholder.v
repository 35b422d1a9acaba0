(** Model of /repo/src/core/tholder.rs, and of the part of the external crate
    num-rational (0.4) that it uses: [Rational32], a fraction of two i32. *)
From Verif Require Import Base Utf8 MatterTables Matter StdStr Data Json Prims.

(** run [f] on every element, stop at the first failure (a [for] loop with [?]) *)
Fixpoint each {A B} (f : A -> outcome B) (l : list A) : outcome (list B) :=
  match l with
  | [] => Ok []
  | v :: r => x <- f v ;; xs <- each f r ;; Ok (x :: xs)
  end.

(** ** num-rational *)
Record ratio := Rat { numer : Z; denom : Z }.
Section Ratio.
Context `{P : Profile}.
Open Scope Z_scope.

(** the i32 result of an operation: panics or wraps on overflow *)
Definition wrap32 (z : Z) : Z := (z + 2 ^ 31) mod 2 ^ 32 - 2 ^ 31.
Definition i32 (z : Z) : outcome Z :=
  if (- 2 ^ 31 <=? z) && (z <? 2 ^ 31) then Ok z
  else if overflow_checks then Panic else Ok (wrap32 z).

(** [Ratio::reduce] *)
Definition ratio_reduce (n d : Z) : outcome ratio :=
  if d =? 0 then Panic
  else if n =? 0 then Ok (Rat 0 1)
  else if n =? d then Ok (Rat 1 1)
  else
    let g := Z.gcd n d in
    let n := Z.quot n g in
    let d := Z.quot d g in
    if d <? 0 then n <- i32 (0 - n) ;; d <- i32 (0 - d) ;; Ok (Rat n d)
    else Ok (Rat n d).
(** [Ratio::new] *)
Definition ratio_new (n d : Z) : outcome ratio := ratio_reduce n d.
(** [AddAssign for Ratio]; num-integer's [lcm] is [(a * (b / gcd)).abs()] *)
Definition ratio_add (a b : ratio) : outcome ratio :=
  if denom a =? denom b then
    n <- i32 (numer a + numer b) ;;
    ratio_reduce n (denom a)
  else
    let g := Z.gcd (denom a) (denom b) in
    m <- i32 (denom a * Z.quot (denom b) g) ;;
    m <- i32 (Z.abs m) ;;
    l <- i32 (numer a * Z.quot m (denom a)) ;;
    r <- i32 (numer b * Z.quot m (denom b)) ;;
    n <- i32 (l + r) ;;
    ratio_reduce n m.
(** [r < 1]; comparison is exact, and denominators are positive *)
Definition ratio_lt_one (r : ratio) : bool := numer r <? denom r.

(** [s.parse::<i32>()?] *)
Definition parse_i32 (s : bytes) : outcome Z :=
  match parse_int 10 (- 2 ^ 31) (2 ^ 31 - 1) s with Some z => Ok z | None => Err E_ParseInt end.

(** tholder.rs:38-59: one weight.  [split] returns at least one part. *)
Definition weight_of_text (t : bytes) : outcome ratio :=
  match split_on 47 t with
  | [a; b] =>
    n <- parse_i32 a ;;
    d <- parse_i32 b ;;
    if (n <? 0) || (d <? 0) then Err E_Value
    else if d <? n then Err E_Value
    else ratio_new n d
  | a :: _ => if bytes_eqb a (s2b "0") then Ok (Rat 0 1) else if bytes_eqb a (s2b "1") then Ok (Rat 1 1) else Err E_Value
  | [] => Panic
  end.
(** tholder.rs:35-61: one clause *)
Definition clause_of_value (c : data) : outcome (list ratio) :=
  ws <- to_vec c ;; each (fun w => t <- to_string w ;; weight_of_text t) ws.
(** tholder.rs:65-69 *)
Fixpoint ratio_sum (acc : ratio) (c : list ratio) : outcome ratio :=
  match c with
  | [] => Ok acc
  | w :: r => s <- ratio_add acc w ;; ratio_sum s r
  end.
(** tholder.rs:64-77 *)
Definition check_clause (c : list ratio) : outcome unit :=
  s <- ratio_sum (Rat 0 1) c ;; if ratio_lt_one s then Err E_Value else Ok tt.
(** tholder.rs:29-80 *)
Definition values_to_rationals (v : data) : outcome (list (list ratio)) :=
  threshold <- to_vec v ;;
  clauses <- each clause_of_value threshold ;;
  _ <- each check_clause clauses ;;
  Ok clauses.

(** tholder.rs:87-91 with separator 's', 373-377 with '/' *)
Definition show_weight (sep : N) (w : ratio) : bytes :=
  if denom w =? 1 then show_int (numer w) else show_int (numer w) ++ [sep] ++ show_int (denom w).
(** tholder.rs:82-96 *)
Definition rationals_to_bext (cs : list (list ratio)) : bytes := join (s2b "a") (map (fun c => join (s2b "c") (map (show_weight 115) c)) cs).
End Ratio.

(** ** Tholder *)
(** tholder.rs:14-21 *)
Record tholder := Th { th_thold : data; th_weighted : bool; th_size : N; th_number : option matter; th_bexter : option matter }.
(** tholder.rs:23-27 *)
Definition tholder_default : tholder := Th (VInt 1) false 1 None None.

(** [indices.sort(); indices.dedup()] *)
Fixpoint insert_sorted (x : N) (l : list N) : list N :=
  match l with
  | [] => [x]
  | y :: r => if x <=? y then x :: l else y :: insert_sorted x r
  end.
Definition sort_n (l : list N) : list N := fold_right insert_sorted [] l.
Fixpoint dedup (l : list N) : list N :=
  match l with
  | x :: r => match r with y :: _ => if x =? y then dedup r else x :: dedup r | [] => [x] end
  | [] => []
  end.

Section Tholder.
Context `{P : Profile}.

(** tholder.rs:349-361 *)
Definition process_unweighted (thold : Z) : outcome tholder :=
  if (thold <? 0)%Z then Err E_Value
  else if (Z.of_N u32_max <? thold)%Z then Err E_TryFromInt
  else
    number <- number_new (Some (Z.to_N thold)) None None None None None None ;;
    Ok (Th (VInt thold) false (Z.to_N thold) (Some number) None).
(** tholder.rs:365-368: the number of weights, a u32 *)
Fixpoint count_weights (n : N) (cs : list (list ratio)) : outcome N :=
  match cs with
  | [] => Ok n
  | c :: r => m <- add32 n (as_u32 (len c)) ;; count_weights m r
  end.
(** tholder.rs:363-390 *)
Definition process_weighted (thold : data) : outcome tholder :=
  threshold <- values_to_rationals thold ;;
  size <- count_weights 0 threshold ;;
  let outer := map (fun c => VArr (map (fun w => VStr (show_weight 47 w)) c)) threshold in
  bexter <- bexter_new (Some (rationals_to_bext threshold)) None None None None None ;;
  Ok (Th (VArr outer) true size None (Some bexter)).
(** tholder.rs:249-259 *)
Definition process_thold (thold : data) : outcome tholder :=
  match to_i64 thold with Ok n => process_unweighted n | _ => process_weighted thold end.
(** tholder.rs:261-295; nothing happens if [limen] is empty *)
Definition process_limen (self : tholder) (limen : bytes) : outcome tholder :=
  match limen with
  | [] => Ok self
  | c :: _ =>
    limen <- from_utf8 limen ;;
    hs <- hardage c ;;
    code <- str_slice limen 0 hs ;;
    if mem_code code number_codes then
      number <- number_new None None None None None (Some limen) None ;;
      num <- number_num number ;;
      if 2 ^ 63 - 1 <? num then Err E_TryFromInt else process_unweighted (Z.of_N num)
    else if mem_code code bexter_codes then
      bexter <- bexter_new None None None None (Some limen) None ;;
      bext <- bext_of bexter ;;
      let t := replace_char 115 47 bext in
      process_weighted (VArr (map (fun clause => VArr (map VStr (split_on 99 clause))) (split_on 97 t)))
    else Err E_UnexpectedCode
  end.
(** [i64::from_str_radix(s, 16)?] *)
Definition parse_hex_i64 (s : bytes) : outcome Z :=
  match parse_int 16 (- 2 ^ 63) (2 ^ 63 - 1) s with Some z => Ok z | None => Err E_ParseInt end.
Definition is_vec (v : data) : bool := match v with VArr _ => true | _ => false end.
Definition is_text (v : data) : bool := match v with VStr _ => true | _ => false end.
(** tholder.rs:319-344: a list of weights, or a list of lists of weights *)
Definition process_sith_list (sith : data) : outcome tholder :=
  array <- to_vec sith ;;
  match array with
  | [] => Err E_Value
  | _ =>
    let sith := if forallb is_vec array then sith else VArr [sith] in
    array <- to_vec sith ;;
    _ <- each (fun clause => ws <- to_vec clause ;; if forallb is_text ws then Ok tt else Err E_Value) array ;;
    process_weighted sith
  end.
(** tholder.rs:297-347 *)
Definition process_sith `{Floats} (sith : data) : outcome tholder :=
  match sith with
  | VInt n => process_unweighted n
  | VStr s =>
    if starts_with (s2b "[") s then
      j <- json_from_str s ;;
      v <- import j ;;
      process_sith_list v
    else
      thold <- parse_hex_i64 s ;;
      process_unweighted thold
  | _ => process_sith_list sith
  end.

(** tholder.rs:99-119 *)
Definition tholder_new `{Floats} (thold : option data) (limen : option bytes) (sith : option data) : outcome tholder :=
  t <- match thold with Some v => process_thold v | None => Ok tholder_default end ;;
  t <- match limen with Some l => process_limen t l | None => Ok t end ;;
  t <- match sith with Some v => process_sith v | None => Ok t end ;;
  match t with
  | Th (VInt 1) false 1 None None => Err E_EmptyMaterial
  | _ => Ok t
  end.

(** tholder.rs:145-151 *)
Definition tholder_num (t : tholder) : outcome (option N) :=
  if th_weighted t then Ok None
  else
    n <- to_i64 (th_thold t) ;;
    if ((n <? 0) || (Z.of_N u32_max <? n))%Z then Err E_TryFromInt else Ok (Some (Z.to_N n)).
(** tholder.rs:161-175 *)
Definition tholder_limen (t : tholder) : outcome bytes :=
  if th_weighted t then match th_bexter t with Some b => matter_qb64b b | None => Err E_Value end
  else match th_number t with Some n => matter_qb64b n | None => Err E_Value end.
(** tholder.rs:177-190; [{:x}] of a non-negative i64 *)
Definition tholder_sith (t : tholder) : outcome data :=
  if th_weighted t then
    l <- to_vec (th_thold t) ;;
    if len l =? 1 then vnth (th_thold t) 0 else Ok (th_thold t)
  else
    n <- to_i64 (th_thold t) ;;
    Ok (VStr (to_hex (Z.to_N (n mod 2 ^ 64)))).
(** tholder.rs:192-194 *)
Definition tholder_to_json (t : tholder) : outcome bytes := s <- tholder_sith t ;; Ok (to_json s).

(** tholder.rs:206-214; a positive i64 is the same usize *)
Definition satisfy_numeric (t : tholder) (indices : list N) : outcome bool :=
  thold <- to_i64 (th_thold t) ;;
  Ok ((0 <? thold)%Z && (thold <=? Z.of_N (len indices))%Z).
(** tholder.rs:225-228 *)
Fixpoint mark (sats : list bool) (indices : list N) : outcome (list bool) :=
  match indices with
  | [] => Ok sats
  | i :: r => match list_set (fun _ => true) (N.to_nat i) sats with Some sats' => mark sats' r | None => Panic end
  end.
(** tholder.rs:234-240; returns the position reached too *)
Fixpoint clause_weight (sats : list bool) (wio : N) (cw : ratio) (c : list ratio) : outcome (ratio * N) :=
  match c with
  | [] => Ok (cw, wio)
  | w :: r =>
    s <- index_at sats wio ;;
    cw <- (if s : bool then ratio_add cw w else Ok cw) ;;
    clause_weight sats (wio + 1) cw r
  end.
(** tholder.rs:232-246 *)
Fixpoint satisfy_clauses (sats : list bool) (wio : N) (cs : list (list ratio)) : outcome bool :=
  match cs with
  | [] => Ok true
  | c :: r =>
    '(cw, wio) <- clause_weight sats wio (Rat 0 1) c ;;
    if ratio_lt_one cw then Ok false else satisfy_clauses sats wio r
  end.
(** tholder.rs:216-247 *)
Definition satisfy_weighted (t : tholder) (indices : list N) : outcome bool :=
  sats <- mark (rep false (th_size t)) (dedup (sort_n indices)) ;;
  clauses <- values_to_rationals (th_thold t) ;;
  satisfy_clauses sats 0 clauses.
(** tholder.rs:196-204 *)
Definition satisfy (t : tholder) (indices : list N) : outcome bool :=
  match th_number t, th_bexter t with
  | Some _, _ => satisfy_numeric t indices
  | None, Some _ => satisfy_weighted t indices
  | None, None => Ok false
  end.
End Tholder.
