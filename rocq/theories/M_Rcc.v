(** Model of the relativistic clock correction, rcc.cc:86-981, over any [Num];
    table in M_RccTab.v. *)
From Coq Require Import ZArith Bool List.
From Verif Require Import Num M_EphTab M_Eph M_RccTab.
Import ListNotations.
Open Scope num_scope.

Section Rcc.
Context {N : Num}.

(** fb_coeffs[lo .. hi]. *)
Definition rows (lo hi : nat) (l : list term) : list term := firstn (S hi - lo) (skipn lo l).

(** rcc.cc:938-967, one of five loops: for (i = hi; i >= lo; i--) w += ... *)
Definition rcc_terms (t : N) (l : list term) : N :=
  fold_right (fun (r : term) w => let '(ra, rf, rp) := r in w + lit ra * n_sin (lit rf * t + lit rp)) #0 l.

(** rcc.cc:938-970. *)
Definition rcc_fairhead (tab : list term) (t : N) : N :=
  let w0 := rcc_terms t (rows 0 473 tab) in
  let w1 := rcc_terms t (rows 474 678 tab) in
  let w2 := rcc_terms t (rows 679 763 tab) in
  let w3 := rcc_terms t (rows 764 783 tab) in
  let w4 := rcc_terms t (rows 784 786 tab) in
  t * (t * (t * (t * w4 + w3) + w2) + w1) + w0.

(** rcc.cc:973-977. *)
Definition rcc_jpl (t : N) : N :=
  n_lit 65 (-11) * n_sin (n_lit 6069776754 (-6) * t + n_lit 4021194 (-6)) +
  n_lit 33 (-11) * n_sin (n_lit 213299095 (-6) * t + n_lit 5543132 (-6)) +
  (- n_lit 196 (-11)) * n_sin (n_lit 6208294251 (-6) * t + n_lit 5696701 (-6)) +
  (- n_lit 173 (-11)) * n_sin (n_lit 74781599 (-6) * t + n_lit 2435900 (-6)) +
  n_lit 3638 (-11) * t * t.

(** rcc.cc:88. *)
Definition rcc_pi2 : N := n_lit 6283185307179586476925287 (-24).

(** rcc.cc:909-921, five times the same statement; 89 is [deg]. *)
Definition rcc_arg (c0 c1 w : N) : N := n_fmod (c0 + c1 * w) #360 * deg.

(** rcc.cc:901-933. *)
Definition rcc_topo (t ut1 cl cda cdp : N) : N :=
  let t_sol := n_fmod ut1 #1 * rcc_pi2 - cl in
  let w := t / #3600 in
  let sun_ml := rcc_arg (n_lit 28046645683 (-8)) (n_lit 129602771103429 (-5)) w in
  let sun_ma := rcc_arg (n_lit 35752910918 (-8)) (n_lit 1295965810481 (-3)) w in
  let moon_me := rcc_arg (n_lit 29785019547 (-8)) (n_lit 1602961601209 (-2)) w in
  let jupiter_ml := rcc_arg (n_lit 3435151874 (-8)) (n_lit 10930689989453 (-5)) w in
  let saturn_ml := rcc_arg (n_lit 500774443 (-7)) (n_lit 4404639847038 (-5)) w in
  n_lit 29 (-15) * cda * n_sin (t_sol + sun_ml - saturn_ml)
  + n_lit 100 (-15) * cda * n_sin (t_sol - #2 * sun_ma)
  + n_lit 133 (-15) * cda * n_sin (t_sol - moon_me)
  + n_lit 133 (-15) * cda * n_sin (t_sol + sun_ml - jupiter_ml)
  - n_lit 229 (-15) * cda * n_sin (t_sol + #2 * sun_ml + sun_ma)
  - n_lit 2200 (-15) * cdp * n_cos (sun_ml + sun_ma)
  + n_lit 5312 (-15) * cda * n_sin (t_sol - sun_ma)
  - n_lit 13677 (-15) * cda * n_sin (t_sol + #2 * sun_ml)
  - n_lit 131840 (-15) * cdp * n_cos sun_ml
  + n_lit 317679 (-15) * cda * n_sin t_sol.

(** rcc.cc:86-981, 895. *)
Definition rcc (tdb ut1 cl cda cdp : N) : N :=
  let t := (tdb - n_lit 515445 (-1)) / #365250 in
  rcc_topo t ut1 cl cda cdp + rcc_fairhead fb_coeffs t + rcc_jpl t.

End Rcc.
