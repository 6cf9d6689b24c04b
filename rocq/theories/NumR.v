(** The exact-real reading of the models. *)
From Coq Require Import ZArith Reals Lra Bool.
From Flocq Require Import Core.Raux.
From Verif Require Import Int32 Num.
Open Scope R_scope.

Definition Rltb (x y : R) : bool := if Rlt_dec x y then true else false.
Definition Rleb (x y : R) : bool := if Rle_dec x y then true else false.
Definition Reqb (x y : R) : bool := if Req_EM_T x y then true else false.

(** [m * 10^e] as a quotient of integers. *)
Definition Rdec (m e : Z) : R :=
  match e with
  | Z0 => IZR m
  | Zpos p => IZR (m * Z.pow_pos 10 p)
  | Zneg p => IZR m / IZR (Z.pow_pos 10 p)
  end.

(** The angle of the point (x, y), in (-pi, pi]; 0 at the origin. *)
Definition Ratan2 (y x : R) : R :=
  if Rlt_dec 0 x then atan (y / x)
  else if Rlt_dec x 0 then (if Rle_dec 0 y then atan (y / x) + PI else atan (y / x) - PI)
  else if Rlt_dec 0 y then PI / 2 else if Rlt_dec y 0 then - (PI / 2) else 0.

Definition Rtrunc (x : R) : R := IZR (Ztrunc x).
(** Nearest integer, halves away from zero. *)
Definition Zround (x : R) : Z := if Rle_dec 0 x then Zfloor (x + / 2) else Zceil (x - / 2).
Definition Rround (x : R) : R := IZR (Zround x).
Definition Rfmod (x y : R) : R := x - y * Rtrunc (x / y).
(** std::pow: zero base and, for integral exponents, negative base included; 0
    stands for the pole and domain errors. *)
Definition Rpow (x y : R) : R :=
  if Rlt_dec 0 x then Rpower x y
  else if Req_EM_T y (IZR (Zfloor y)) then (if Req_EM_T y 0 then 1 else powerRZ x (Zfloor y))
  else 0.
Definition RtoZ (x : R) : option Z := chk (Ztrunc x).

Definition RNum : Num := MkNum R Rdec PI (2 * PI) IZR
  Ropp Rabs sqrt sin cos tan asin acos atan exp ln Rtrunc Rround
  Rplus Rminus Rmult Rdiv Ratan2 Rfmod Rpow Rltb Rleb Reqb RtoZ.

(** Replace the interface operations at [RNum] by the real ones. *)
Ltac unR :=
  cbv beta iota delta [RNum car n_lit n_pi n_2pi n_ofZ n_opp n_abs n_sqrt n_sin n_cos n_tan n_asin n_acos
    n_atan n_exp n_log n_trunc n_round n_add n_sub n_mul n_div n_atan2 n_fmod n_pow n_ltb n_leb n_eqb n_toZ
    f_sign f_nint f_aint f_anint n_min n_max].
Ltac unR_in H :=
  cbv beta iota delta [RNum car n_lit n_pi n_2pi n_ofZ n_opp n_abs n_sqrt n_sin n_cos n_tan n_asin n_acos
    n_atan n_exp n_log n_trunc n_round n_add n_sub n_mul n_div n_atan2 n_fmod n_pow n_ltb n_leb n_eqb n_toZ
    f_sign f_nint f_aint f_anint n_min n_max] in H.

Lemma Rltb_true x y : Rltb x y = true <-> x < y.
Proof. unfold Rltb. destruct (Rlt_dec x y); split; intros; congruence || lra. Qed.
Lemma Rltb_false x y : Rltb x y = false <-> y <= x.
Proof. unfold Rltb. destruct (Rlt_dec x y); split; intros; congruence || lra. Qed.
Lemma Rleb_true x y : Rleb x y = true <-> x <= y.
Proof. unfold Rleb. destruct (Rle_dec x y); split; intros; congruence || lra. Qed.
Lemma Rleb_false x y : Rleb x y = false <-> y < x.
Proof. unfold Rleb. destruct (Rle_dec x y); split; intros; congruence || lra. Qed.
Lemma Reqb_true x y : Reqb x y = true <-> x = y.
Proof. unfold Reqb. destruct (Req_EM_T x y); split; intros; congruence || lra. Qed.
Lemma Reqb_false x y : Reqb x y = false <-> x <> y.
Proof. unfold Reqb. destruct (Req_EM_T x y); split; intros; congruence || lra. Qed.

Lemma Rltb_spec x y : reflect (x < y) (Rltb x y).
Proof. apply iff_reflect. symmetry. apply Rltb_true. Qed.
Lemma Rleb_spec x y : reflect (x <= y) (Rleb x y).
Proof. apply iff_reflect. symmetry. apply Rleb_true. Qed.
Lemma Reqb_spec x y : reflect (x = y) (Reqb x y).
Proof. apply iff_reflect. symmetry. apply Reqb_true. Qed.

(** Split on every comparison in the goal. *)
Ltac rcase1 :=
  match goal with
  | |- context [Rltb ?x ?y] => destruct (Rltb_spec x y)
  | |- context [Rleb ?x ?y] => destruct (Rleb_spec x y)
  | |- context [Reqb ?x ?y] => destruct (Reqb_spec x y)
  end.
Ltac rcases := repeat rcase1.

Lemma Rpow_pos x y : 0 < x -> Rpow x y = Rpower x y.
Proof. intros H. unfold Rpow. destruct (Rlt_dec 0 x); [reflexivity|contradiction]. Qed.
