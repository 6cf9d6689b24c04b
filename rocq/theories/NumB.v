(** The IEEE 754 reading of the models: binary64 for the [double] routines and
    binary32 for the [float] ones, round to nearest even, signed zeros,
    infinities and one NaN (Flocq's BinarySingleNaN).

    std::sin and the other libm functions without an exact definition are a
    parameter: the theorems hold for every choice, or state what they need. *)
From Coq Require Import ZArith Reals Bool Lia.
From Flocq Require Import Core BinarySingleNaN Bracket.
From Verif Require Import Int32 Num.

Section Binary.
Context (prec emax : Z) {Hp : Prec_gt_0 prec} {Hm : Prec_lt_emax prec emax}.
Notation bf := (binary_float prec emax).

Definition of_spec (z : SpecFloat.spec_float) : bf :=
  match Sumbool.sumbool_of_bool (SpecFloat.valid_binary prec emax z) with
  | left H => SF2B z H
  | right _ => B754_nan
  end.

(** Correctly rounded quotient of two integers, [d] positive: the floor of the
    quotient scaled to more than [prec] bits, with the position of the remainder. *)
Definition Bquot (n d : Z) : bf :=
  let k := (prec + 2 + Zdigits radix2 d)%Z in
  let a := (Z.abs n * 2 ^ k)%Z in
  of_spec (binary_round_aux prec emax mode_NE (n <? 0)%Z (a / d) (- k) (new_location d (a mod d) SpecFloat.loc_Exact)).

(** Decimal literal m * 10^e, correctly rounded. *)
Definition Blit (m e : Z) : bf :=
  if (m =? 0)%Z then B754_zero false else Bquot (m * 10 ^ Z.max e 0) (10 ^ Z.max (- e) 0).

(** Conversion from an integer type. *)
Definition BofZ (z : Z) : bf := binary_normalize prec emax Hp Hm mode_NE z 0 false.

(** (int) x. *)
Definition BtoZ (x : bf) : option Z := if is_finite x then chk (Btrunc x) else None.

(** std::fmod: exact, with the sign of [x]. *)
Definition Bfmod (x y : bf) : bf :=
  match x, y with
  | B754_nan, _ | _, B754_nan | B754_infinity _, _ | _, B754_zero _ => B754_nan
  | B754_zero _, _ | _, B754_infinity _ => x
  | B754_finite sx mx ex _, B754_finite _ my ey _ =>
    let e := Z.min ex ey in
    let r := ((Zpos mx * 2 ^ (ex - e)) mod (Zpos my * 2 ^ (ey - e)))%Z in
    binary_normalize prec emax Hp Hm mode_NE (SpecFloat.cond_Zopp sx r) e sx
  end.

Record libm := Libm {
  m_sin : bf -> bf; m_cos : bf -> bf; m_tan : bf -> bf; m_asin : bf -> bf; m_acos : bf -> bf; m_atan : bf -> bf;
  m_exp : bf -> bf; m_log : bf -> bf; m_atan2 : bf -> bf -> bf; m_pow : bf -> bf -> bf }.

Definition BNum (lm : libm) : Num := MkNum bf Blit
  (Blit 3141592653589793238462643 (-24)) (Blit 6283185307179586476925287 (-24)) BofZ
  Bopp Babs (Bsqrt mode_NE) (m_sin lm) (m_cos lm) (m_tan lm) (m_asin lm) (m_acos lm) (m_atan lm)
  (m_exp lm) (m_log lm) (Bnearbyint mode_ZR) (Bnearbyint mode_NA)
  (Bplus mode_NE) (Bminus mode_NE) (Bmult mode_NE) (Bdiv mode_NE) (m_atan2 lm) Bfmod (m_pow lm)
  Bltb Bleb Beqb BtoZ.

End Binary.
Arguments m_pow {prec emax} _ _ _.

Global Instance Hp53 : Prec_gt_0 53. Proof. easy. Qed.
Global Instance Hm1024 : Prec_lt_emax 53 1024. Proof. easy. Qed.
Global Instance Hp24 : Prec_gt_0 24. Proof. easy. Qed.
Global Instance Hm128 : Prec_lt_emax 24 128. Proof. easy. Qed.

Notation double := (binary_float 53 1024).
Notation single := (binary_float 24 128).
Definition B64 (lm : libm 53 1024) : Num := BNum 53 1024 lm.
Definition B32 (lm : libm 24 128) : Num := BNum 24 128 lm.
