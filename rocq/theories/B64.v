(** The [base64] crate's [URL_SAFE] engine (external code, version 0.22 in
    /repo/Cargo.toml), by contract: URL-safe alphabet, canonical '=' padding
    written on encoding and required on decoding, trailing bits must be zero. *)
From Verif Require Import Base.

(** RFC 4648 section 5 alphabet. *)
Definition alphabet : bytes :=
  s2b "ABCDEFGHIJKLMNOPQRSTUVWXYZabcdefghijklmnopqrstuvwxyz0123456789-_".

Definition pad_char : N := 61. (* '=' *)

(** Character of a sextet (only used below 64). *)
Definition chr64 (i : N) : N := nth (N.to_nat i) alphabet 0.

Fixpoint position (c : N) (l : bytes) (i : N) : option N :=
  match l with
  | [] => None
  | x :: r => if c =? x then Some i else position c r (i + 1)
  end.

(** Sextet of a character, [None] outside the alphabet. *)
Definition ord64 (c : N) : option N := position c alphabet 0.

Definition is_b64 (c : N) : bool := match ord64 c with Some _ => true | None => false end.

(** Sextets of a byte string; the last group is completed with zero bits
    (2 sextets for one byte, 3 for two). *)
Fixpoint sextets (bs : bytes) : list N :=
  match bs with
  | a :: b :: c :: r =>
      a / 4 :: (a mod 4) * 16 + b / 16 :: (b mod 16) * 4 + c / 64 :: c mod 64 :: sextets r
  | [a; b] => [a / 4; (a mod 4) * 16 + b / 16; (b mod 16) * 4]
  | [a] => [a / 4; (a mod 4) * 16]
  | [] => []
  end.

(** [URL_SAFE.encode] *)
Definition b64_encode (bs : bytes) : bytes :=
  map chr64 (sextets bs) ++ rep pad_char ((3 - len bs mod 3) mod 3).

(** [URL_SAFE.encode_slice(input, out)] where [out] has length [cap]: error if
    the encoded text does not fit; the rest of [out] keeps its zeros. *)
Definition b64_encode_slice (bs : bytes) (cap : N) : outcome bytes :=
  let t := b64_encode bs in
  if len t <=? cap then Ok (t ++ rep 0 (cap - len t)) else Err E_Base64.

(** [URL_SAFE.decode] *)
Fixpoint b64_decode (t : bytes) : outcome bytes :=
  match t with
  | [] => Ok []
  | c1 :: c2 :: c3 :: c4 :: r =>
    match ord64 c1, ord64 c2, ord64 c3, ord64 c4 with
    | Some s1, Some s2, Some s3, Some s4 =>
        rest <- b64_decode r ;;
        Ok (s1 * 4 + s2 / 16 :: (s2 mod 16) * 16 + s3 / 4 :: (s3 mod 4) * 64 + s4 :: rest)
    | Some s1, Some s2, Some s3, None =>
        if (c4 =? pad_char) && (s3 mod 4 =? 0) && (len r =? 0)
        then Ok [s1 * 4 + s2 / 16; (s2 mod 16) * 16 + s3 / 4]
        else Err E_Base64
    | Some s1, Some s2, None, None =>
        if (c3 =? pad_char) && (c4 =? pad_char) && (s2 mod 16 =? 0) && (len r =? 0)
        then Ok [s1 * 4 + s2 / 16]
        else Err E_Base64
    | _, _, _, _ => Err E_Base64
    end
  | _ => Err E_Base64
  end.
