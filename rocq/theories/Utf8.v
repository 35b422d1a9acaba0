(** UTF-8 validity, as [String::from_utf8] / [std::str::from_utf8] decide it
    (standard library, RFC 3629 table). *)
From Verif Require Import Base.

Definition rng (lo hi b : N) : bool := (lo <=? b) && (b <=? hi).

Fixpoint utf8_valid (s : bytes) : bool :=
  match s with
  | [] => true
  | b0 :: r0 =>
    if b0 <? 128 then utf8_valid r0
    else match r0 with
    | b1 :: r1 =>
      if rng 194 223 b0 then rng 128 191 b1 && utf8_valid r1
      else match r1 with
      | b2 :: r2 =>
        if rng 224 239 b0 then
          (if b0 =? 224 then rng 160 191 b1
           else if b0 =? 237 then rng 128 159 b1
           else rng 128 191 b1) && rng 128 191 b2 && utf8_valid r2
        else match r2 with
        | b3 :: r3 =>
          rng 240 244 b0 &&
          (if b0 =? 240 then rng 144 191 b1
           else if b0 =? 244 then rng 128 143 b1
           else rng 128 191 b1) && rng 128 191 b2 && rng 128 191 b3 && utf8_valid r3
        | [] => false
        end
      | [] => false
      end
    | [] => false
    end
  end.

(** [String::from_utf8(v)] *)
Definition from_utf8 (v : bytes) : outcome bytes :=
  if utf8_valid v then Ok v else Err E_Utf8.
