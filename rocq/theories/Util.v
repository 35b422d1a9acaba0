(** Model of /repo/src/core/util.rs. *)
From Verif Require Import Base Utf8 B64.

(** util.rs:5-73 [b64_char_to_index]: the 64 match arms are the URL-safe
    alphabet in order; any other char (here: any other byte, in particular the
    lead byte of a non-ASCII char) is InvalidBase64Character. *)
Definition b64_char_to_index (c : N) : outcome N :=
  match ord64 c with Some i => Ok i | None => Err E_InvalidBase64Character end.

(** util.rs:75-143 [b64_index_to_char]. *)
Definition b64_index_to_char (i : N) : outcome N :=
  match nth_error alphabet (N.to_nat i) with
  | Some c => Ok c
  | None => Err E_InvalidBase64Index
  end.

(** util.rs:145-153 [b64_to_u32]: [(out << 6) + idx]; the shift drops high bits
    (no panic), the low six bits are then zero so the addition cannot overflow. *)
Fixpoint b64_to_uint (modulus : N) (t : bytes) (out : N) : outcome N :=
  match t with
  | [] => Ok out
  | c :: r => i <- b64_char_to_index c ;; b64_to_uint modulus r ((out * 64) mod modulus + i)
  end.
Definition b64_to_u32 (t : bytes) : outcome N := b64_to_uint U32 t 0.
(** util.rs:155-163 [b64_to_u64]. *)
Definition b64_to_u64 (t : bytes) : outcome N := b64_to_uint U64 t 0.

(** util.rs:173 / 199: [overflow = length as f32 - log2(n)/log2(64)], then
    incremented by one for every skipped digit while negative.  Simplification:
    computed exactly, i.e. the number of skipped digits is the least k with
    n <= 64^(length+k).  (In f32 this agrees for every n <= 64^length, the only
    case reached by constructed objects, and for every n < 2^24, which covers the
    theorems about counts and indices that do not fit, C17 and C74; beyond that it agrees except for n just above a power
    64^(length+k) >= 2^24, where f32 rounding hides the excess.) *)
Fixpoint skip_digits (fuel : nat) (n length k : N) : N :=
  match fuel with
  | O => k
  | S f => if n <=? 64 ^ (length + k) then k else skip_digits f n length (k + 1)
  end.

(** util.rs:174-181 / 200-207: the digit loop.  11 iterations exhaust a u64
    (64^11 > 2^64). *)
Fixpoint u2b_loop (fuel : nat) (x skip : N) (out : bytes) : outcome bytes :=
  match fuel with
  | O => Ok out
  | S f =>
    if x =? 0 then Ok out
    else if skip =? 0 then
      c <- b64_index_to_char (x mod 64) ;; u2b_loop f (x / 64) 0 (c :: out)
    else u2b_loop f (x / 64) (skip - 1) out
  end.

(** util.rs:165-189 [u32_to_b64] and 191-215 [u64_to_b64] (same body). *)
Definition u32_to_b64 (n length : N) : outcome bytes :=
  if length =? 0 then Ok []
  else
    out <- u2b_loop 11 n (skip_digits 11 n length 0) [] ;;
    Ok (rep 65 (length - len out) ++ out).   (* 'A' *)
Definition u64_to_b64 := u32_to_b64.

(** [uN::from_be_bytes], [to_be_bytes]. *)
Definition from_be (l : bytes) : N := fold_left (fun acc b => acc * 256 + b) l 0.
Fixpoint to_be (k : nat) (n : N) : bytes :=
  match k with O => [] | S k' => to_be k' (n / 256) ++ [n mod 256] end.

(** util.rs:217-243 [code_b2_to_b64].  [length] is a usize. *)
Definition code_b2_to_b64 (b2 : bytes) (length : N) : outcome bytes :=
  if length =? 0 then Ok []
  else
    let n := ((length + 1) * 3) / 4 in
    if len b2 <? n then Err E_Matter
    else if length <=? 4 then
      let i := from_be (take n b2 ++ rep 0 (4 - n)) in
      u32_to_b64 (i / 2 ^ (2 * (length mod 4) + (4 - n) * 8)) length
    else if length <=? 8 then
      let i := from_be (take n b2 ++ rep 0 (8 - n)) in
      u64_to_b64 (i / 2 ^ (2 * (length mod 4) + (8 - n) * 8)) length
    else Err E_Matter.

(** util.rs:245-250 [code_b64_to_b2].  [8 - n] underflows (panic or a wild slice
    start, which panics too) when n > 8. *)
Definition code_b64_to_b2 (code : bytes) : outcome bytes :=
  i <- b64_to_u64 code ;;
  let i := (i * 2 ^ (2 * (len code mod 4))) mod U64 in
  let n := ((len code + 1) * 3) / 4 in
  if 8 <? n then Panic else Ok (drop (8 - n) (to_be 8 i)).

(** util.rs:252-281 [nab_sextets].  The mask/shift extraction of four sextets
    from a 24 bit group is [sextets]. *)
Definition nab_sextets (binary : bytes) (count : N) : outcome bytes :=
  let n := ((count + 1) * 3) / 4 in
  if len binary <? n then Err E_TooSmall
  else
    let bps := 3 - (len binary mod 3) in
    let out := sextets (binary ++ rep 0 bps) in
    slice out 0 count.

(** [code.len()] based pieces shared by binfil of matter and indexer:
    [(util::b64_to_u32(both)? << (2 * (cs % 4))).to_be_bytes()]
    (/repo/src/core/matter/mod.rs:281-290, indexer/mod.rs:341-351). *)
Definition code_full (both : bytes) (cs n : N) : outcome bytes :=
  if n <=? 3 then
    i <- b64_to_u32 both ;; Ok (to_be 4 ((i * 2 ^ (2 * (cs mod 4))) mod U32))
  else if n <=? 6 then
    i <- b64_to_u64 both ;; Ok (to_be 8 ((i * 2 ^ (2 * (cs mod 4))) mod U64))
  else Err E_InvalidCodeSize.
