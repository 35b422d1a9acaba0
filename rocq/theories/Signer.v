(** Model of /repo/src/core/signer.rs and salter.rs. *)
From Verif Require Import Base Util MatterTables Matter IndexerTables Indexer StdStr Crypto Prims.

(** signer.rs:58-63 *)
Definition signer_codes : list bytes := [s2b "A"; s2b "J"; s2b "Q"].

(** signer.rs:36-46 *)
Record signer := Sgn { sn_matter : matter; sn_verfer : matter }.

Section Signer.
Context `{P : Profile} `{C : Crypto}.

(** signer.rs:72-90 *)
Definition derive_verfer (code sk : bytes) (transferable : bool) : outcome matter :=
  vcode <-
    (if transferable then
       if bytes_eqb code (s2b "A") then Ok (s2b "D")
       else if bytes_eqb code (s2b "J") then Ok (s2b "1AAB")
       else if bytes_eqb code (s2b "Q") then Ok (s2b "1AAJ")
       else Err E_UnexpectedCode
     else
       if bytes_eqb code (s2b "A") then Ok (s2b "B")
       else if bytes_eqb code (s2b "J") then Ok (s2b "1AAA")
       else if bytes_eqb code (s2b "Q") then Ok (s2b "1AAI")
       else Err E_UnexpectedCode) ;;
  raw <- sign_public_key code sk ;;
  verfer_new (Some vcode) (Some raw) None None None.

(** signer.rs:93-117, [entropy] feeds key generation *)
Definition signer_new (entropy : N) (transferable : option bool) (code raw qb64b qb64 qb2 : option bytes) : outcome signer :=
  let transferable := unwrap_or transferable true in
  m <- (if none qb64b && none qb64 && none qb2 then
          let code := unwrap_or code (s2b "A") in
          _ <- validate signer_codes code ;;
          raw <- (match raw with Some r => Ok r | None => sign_generate code entropy end) ;;
          matter_new (Some code) (Some raw) None None None
        else
          m <- matter_new code raw qb64b qb64 qb2 ;;
          _ <- validate signer_codes (m_code m) ;;
          Ok m) ;;
  v <- derive_verfer (m_code m) (m_raw m) transferable ;;
  Ok (Sgn m v).

(** signer.rs:143-153 *)
Definition sign_unindexed (s : signer) (entropy : N) (ser : bytes) : outcome cigar :=
  let code := m_code (sn_matter s) in
  scode <- (if bytes_eqb code (s2b "A") then Ok (s2b "0B")
            else if bytes_eqb code (s2b "J") then Ok (s2b "0C")
            else if bytes_eqb code (s2b "Q") then Ok (s2b "0I")
            else Err E_UnexpectedCode) ;;
  sig <- sign_sign code entropy (m_raw (sn_matter s)) ser ;;
  cigar_new (Some (sn_verfer s)) (Some scode) (Some sig) None None None.

(** signer.rs:155-221 *)
Definition pick3 (code a j q : bytes) : outcome bytes :=
  if bytes_eqb code (s2b "A") then Ok a
  else if bytes_eqb code (s2b "J") then Ok j
  else if bytes_eqb code (s2b "Q") then Ok q
  else Err E_UnexpectedCode.

Definition sign_indexed (s : signer) (entropy : N) (ser : bytes) (only : bool) (index : N) (ondex : option N) : outcome siger :=
  let code := m_code (sn_matter s) in
  '(icode, ondex) <-
    (if only then
       c <- (if index <? 64 then pick3 code (s2b "B") (s2b "D") (s2b "F")
             else pick3 code (s2b "2B") (s2b "2D") (s2b "2F")) ;;
       Ok (c, None)
     else
       let ondex := unwrap_or ondex index in
       c <- (if (index =? ondex) && (index <? 64) then pick3 code (s2b "A") (s2b "C") (s2b "E")
             else pick3 code (s2b "2A") (s2b "2C") (s2b "2E")) ;;
       Ok (c, Some ondex)) ;;
  sig <- sign_sign code entropy (m_raw (sn_matter s)) ser ;;
  siger_new (Some (sn_verfer s)) (Some index) ondex (Some icode) (Some sig) None None None.

(** salter.rs:12-22 *)
Record salter := Slt { sl_matter : matter; sl_tier : bytes }.

(** salter.rs:34-63; [entropy] feeds the random salt *)
Definition salter_new (entropy : N) (tier code raw qb64b qb64 qb2 : option bytes) : outcome salter :=
  let code := unwrap_or code (s2b "0A") in
  _ <- validate [s2b "0A"] code ;;
  m <- (if none raw && none qb64b && none qb64 && none qb2
        then matter_new (Some code) (Some (x_random16 entropy)) None None None
        else matter_new (Some code) raw qb64b qb64 qb2) ;;
  Ok (Slt m (unwrap_or tier (s2b "low"))).

(** salter.rs:85-101 *)
Definition salter_stretch (s : salter) (size : option N) (path tier : option bytes) (temp : option bool) : outcome bytes :=
  let tier := if unwrap_or temp false then s2b "min" else unwrap_or tier (sl_tier s) in
  salt_stretch (unwrap_or path []) (m_raw (sl_matter s)) (unwrap_or size 32) tier.

(** salter.rs:107-127; the signer gets an explicit raw, no entropy is used *)
Definition salter_signer (s : salter) (code : option bytes) (transferable : option bool) (path tier : option bytes) (temp : option bool) : outcome signer :=
  let code := unwrap_or code (s2b "A") in
  let transferable := unwrap_or transferable true in
  let path := unwrap_or path [] in
  let temp := unwrap_or temp false in
  size <- raw_size code ;;
  seed <- salter_stretch s (Some size) (Some path) tier (Some temp) ;;
  signer_new 0 (Some transferable) (Some code) (Some seed) None None None.

(** Rust [i + start] on usize (64 bit) *)
Definition add64 (a b : N) : outcome N :=
  if a + b <? U64 then Ok (a + b) else if overflow_checks then Panic else Ok ((a + b) mod U64).

(** salter.rs:129-152: loop [for i in 0..count] *)
Fixpoint salter_signers_loop (s : salter) (n : nat) (i start : N) (path : bytes) (code : option bytes)
    (transferable : option bool) (tier : option bytes) (temp : option bool) : outcome (list signer) :=
  match n with
  | O => Ok []
  | S n' =>
      k <- add64 i start ;;
      x <- salter_signer s code transferable (Some (path ++ to_hex k)) tier temp ;;
      r <- salter_signers_loop s n' (i + 1) start path code transferable tier temp ;;
      Ok (x :: r)
  end.
Definition salter_signers (s : salter) (count start : option N) (path code : option bytes)
    (transferable : option bool) (tier : option bytes) (temp : option bool) : outcome (list signer) :=
  salter_signers_loop s (N.to_nat (unwrap_or count 1)) 0 (unwrap_or start 0) (unwrap_or path []) code transferable tier temp.
End Signer.
