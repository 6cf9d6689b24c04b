(** Models of the refraction routines, over any [Num].  Files are relative to
    /repo/src.  [None] would mean that a loop did not end within the fuel it is
    given; [P_Refr] shows that this never happens. *)
From Coq Require Import ZArith Bool.
From Verif Require Import Num M_Angle.
Open Scope num_scope.

Section Refr.
Context {N : Num}.

(** std::min(std::max(x, lo), hi), the clamping idiom of refro.cc:181-189,
    refcoq.cc:145-148 and atmdsp.cc:79-81. *)
Definition clip (x lo hi : N) : N := n_min (n_max x lo) hi.

(** refro.cc:37-42: refractive index and r * dn/dr in the stratosphere. *)
Definition atms (rt tt dnt gamal r : N) : N * N :=
  let b := gamal / tt in
  let w := (dnt - #1) * n_exp (- b * (r - rt)) in
  (#1 + w, - r * b * w).

(** The eleven leading arguments of atmt (refro.cc:66-67), bundled. *)
Record tropo := Tropo { t_r0 : N; t_t0 : N; t_alpha : N; t_gamm2 : N; t_delm2 : N;
  t_c1 : N; t_c2 : N; t_c3 : N; t_c4 : N; t_c5 : N; t_c6 : N }.

(** refro.cc:69: the temperature that atmt returns. *)
Definition atmt_t (m : tropo) (r : N) : N :=
  n_max (n_min (t_t0 m - t_alpha m * (r - t_r0 m)) #320) #100.

(** refro.cc:66-75: refractive index and r * dn/dr in the troposphere. *)
Definition atmt (m : tropo) (r : N) : N * N :=
  let t := atmt_t m r in
  let tt0 := t / t_t0 m in
  let tt0gm2 := n_pow tt0 (t_gamm2 m) in
  let tt0dm2 := n_pow tt0 (t_delm2 m) in
  (#1 + (t_c1 m * tt0gm2 - (t_c2 m - t_c5 m / t) * tt0dm2) * tt0,
   r * (- t_c3 m * tt0gm2 + (t_c4 m - t_c6 m / tt0) * tt0dm2)).

(** refro.cc:172-174: the refraction integrand. *)
Definition integrand (p : N * N) : N := let (dn, rdndr) := p in rdndr / (dn + rdndr).

(** refro.cc:289-298: the Newton loop for the radius, [j] iterations left. *)
Fixpoint find_r (prof : N -> N * N) (ww : N) (j : nat) (rg dr : N) : N :=
  match j with
  | O => rg
  | S j =>
    if n_abs dr >? #1 then
      let (dn, rdndr) := prof rg in
      let dr := (rg * dn - ww) / (dn + rdndr) in
      find_r prof ww j (rg - dr) dr
    else rg
  end.

(** refro.cc:281-300: the radius at which the next sample is taken. *)
Definition radius (prof : N -> N * N) (sk0 z0 h : N) (i : Z) (r : N) : N :=
  let sine_zd := n_sin (z0 + h * n_ofZ i) in
  if sine_zd >? n_lit 1 (-20) then find_r prof (sk0 / sine_zd) 4 r (n_lit 1 6) else r.

(** The variables r, f_odd and f_even, and a counter (not in the program) of
    the samples taken. *)
Record pass_st := Pass { p_r : N; p_odd : N; p_even : N; p_cnt : Z }.

(** refro.cc:279-317: one pass over the points i, i + step, ... < num_strips. *)
Fixpoint pass (prof : N -> N * N) (sk0 z0 h : N) (num_strips step : Z) (fuel : nat) (i : Z)
    (s : pass_st) : option pass_st :=
  match fuel with
  | O => None
  | S fuel =>
    if (i <=? num_strips - 1)%Z then
      let r := radius prof sk0 z0 h i (p_r s) in
      let f := integrand (prof r) in
      pass prof sk0 z0 h num_strips step fuel (i + step)%Z
        (if (step =? 1)%Z && (i mod 2 =? 0)%Z
         then Pass r (p_odd s) (p_even s + f) (p_cnt s + 1)
         else Pass r (p_odd s + f) (p_even s) (p_cnt s + 1))
    else Some s
  end.

(** refro.cc:272-342: the doubling loop of one part; the result is [refp] and
    the number of samples taken.  [fuel] passes are allowed. *)
Fixpoint quad (prof : N -> N * N) (sk0 rstart z0 z_range fb ff tolerance : N) (fuel : nat)
    (num_strips step : Z) (ref_old f_odd f_even : N) (cnt : Z) : option (N * Z) :=
  match fuel with
  | O => None
  | S fuel =>
    let h := z_range / n_ofZ num_strips in
    match pass prof sk0 z0 h num_strips step (Z.to_nat num_strips) 1 (Pass rstart f_odd f_even cnt) with
    | None => None
    | Some s =>
      let refp := h * (fb + #4 * p_odd s + #2 * p_even s + ff) / #3 in
      if (n_abs (refp - ref_old) >? tolerance) && (num_strips <? 16384)%Z then
        quad prof sk0 rstart z0 z_range fb ff tolerance fuel (num_strips + num_strips)%Z 2 refp
          #0 (p_even s + p_odd s) (p_cnt s)
      else Some (refp, p_cnt s)
    end
  end.

(** refro.cc:251-276: one part, from 8 strips. *)
Definition quadrature (prof : N -> N * N) (sk0 rstart z0 z_range fb ff tolerance : N) : option (N * Z) :=
  quad prof sk0 rstart z0 z_range fb ff tolerance 12 8 1 #1 #0 #0 0%Z.

(** refro.cc:153: 93 degrees. *)
Definition deg93 : N := n_lit 1623156204 (-9).
(** refro.cc:161 and 167. *)
Definition earth_radius : N := #6378120.
Definition height_limit : N := #80000.
(** refro.cc:163. *)
Definition delta : N := n_lit 1836 (-2).

(** refro.cc:196, 199; the arguments of this and of the next three definitions
    are those clamped by refro.cc:180-189. *)
Definition refro_gamal (hm_ok phi : N) : N :=
  let gb := n_lit 9784 (-3) * (#1 - n_lit 26 (-4) * n_cos (phi + phi) - n_lit 28 (-8) * hm_ok) in
  (gb * n_lit 289644 (-4)) / n_lit 831432 (-2).

(** refro.cc:203-205, refcoq.cc:153-155: saturation pressure. *)
Definition saturation (t p : N) : N :=
  let tdc := t - n_lit 27315 (-2) in
  n_pow #10 ((n_lit 7859 (-4) + n_lit 3477 (-5) * tdc) / (#1 + n_lit 412 (-5) * tdc)) *
    (#1 + p * (n_lit 45 (-7) + n_lit 60 (-11) * tdc * tdc)).

(** refro.cc:206, and refcoq.cc:152-159 (the same expressions): water vapour
    pressure at the observer, from clamped arguments. *)
Definition vapour_pressure (t p r : N) : N :=
  let psat := saturation t p in
  if p >? #0 then r * psat / (#1 - (#1 - r) * psat / p) else #0.

(** refro.cc:194-216: the model atmosphere at the observer. *)
Definition refro_tropo (hm_ok tdk_ok pmb_ok rh_ok wl_ok phi alpha : N) : tropo :=
  let optic := wl_ok <=? #100 in
  let wl_squared := wl_ok * wl_ok in
  let a := if optic
    then (n_lit 2876155 (-4) + (n_lit 162887 (-5) + n_lit 1360 (-5) / wl_squared) / wl_squared)
         * n_lit 27315 (-8) / n_lit 101325 (-2)
    else n_lit 776890 (-10) in
  let gamma := refro_gamal hm_ok phi / alpha in
  let gamm2 := gamma - #2 in
  let delm2 := delta - #2 in
  let pwo := vapour_pressure tdk_ok pmb_ok rh_ok in
  let w := pwo * (#1 - n_lit 180152 (-4) / n_lit 289644 (-4)) * gamma / (delta - gamma) in
  let c1 := a * (pmb_ok + w) / tdk_ok in
  let c2 := (a * w + (if optic then n_lit 112684 (-10) else n_lit 63938 (-10)) * pwo) / tdk_ok in
  let c3 := (gamma - #1) * alpha * c1 / tdk_ok in
  let c4 := (delta - #1) * alpha * c2 / tdk_ok in
  let c5 := if optic then #0 else n_lit 3754630 (-7) * pwo / tdk_ok in
  let c6 := if optic then #0 else c5 * delm2 * alpha / (tdk_ok * tdk_ok) in
  Tropo (earth_radius + hm_ok) tdk_ok alpha gamm2 delm2 c1 c2 c3 c4 c5 c6.

(** refro.cc:226-227 (and 233-234, 241-242): the zenith distance of the ray
    where the radius is [r] and the index [dn]. *)
Definition ray_zd (sk0 r dn : N) : N :=
  let sine := sk0 / (r * dn) in
  n_atan2 sine (n_sqrt (n_max (#1 - sine * sine) #0)).

(** refro.cc:218-345 for the zenith distance [zobs2]: the refraction and the
    number of integrand samples inside the two intervals. *)
Definition refro_at (zobs2 hm_ok tdk_ok pmb_ok rh_ok wl_ok phi alpha tolerance : N) : option (N * Z) :=
  let m := refro_tropo hm_ok tdk_ok pmb_ok rh_ok wl_ok phi alpha in
  let gamal := refro_gamal hm_ok phi in
  let r0 := t_r0 m in
  let sk0 := fst (atmt m r0) * r0 * n_sin zobs2 in
  let f0 := integrand (atmt m r0) in
  let rt := earth_radius + n_max #11000 hm_ok in
  let tt := atmt_t m rt in
  let dnt := fst (atmt m rt) in
  let zt := ray_zd sk0 rt dnt in
  let ft := integrand (atmt m rt) in
  let dnts := fst (atms rt tt dnt gamal rt) in
  let zts := ray_zd sk0 rt dnts in
  let fts := integrand (atms rt tt dnt gamal rt) in
  let rs := earth_radius + height_limit in
  let dns := fst (atms rt tt dnt gamal rs) in
  let zs := ray_zd sk0 rs dns in
  let fs := integrand (atms rt tt dnt gamal rs) in
  match quadrature (atmt m) sk0 r0 zobs2 (zt - zobs2) f0 ft tolerance with
  | None => None
  | Some (reft, c0) =>
    match quadrature (atms rt tt dnt gamal) sk0 rt zts (zs - zts) fts fs tolerance with
    | None => None
    | Some (refp, c1) => Some (reft + refp, (c0 + c1)%Z)
    end
  end.

(** refro.cc:151-350, with the sample counter. *)
Definition refro_run (ozd oh atk apm arh wl phi tlr eps : N) : option (N * Z) :=
  let zobs1 := drange ozd in
  let zobs2 := n_min (n_abs zobs1) deg93 in
  let hm_ok := clip oh (- #1000) height_limit in
  let tdk_ok := clip atk #100 #500 in
  let pmb_ok := clip apm #0 #10000 in
  let rh_ok := clip arh #0 #1 in
  let wl_ok := n_max wl (n_lit 1 (-1)) in
  let alpha := clip (n_abs tlr) (n_lit 1 (-3)) (n_lit 1 (-2)) in
  let tolerance := clip (n_abs eps) (n_lit 1 (-12)) (n_lit 1 (-1)) / #2 in
  match refro_at zobs2 hm_ok tdk_ok pmb_ok rh_ok wl_ok phi alpha tolerance with
  | None => None
  | Some (result, c) => Some (if zobs1 <? #0 then - result else result, c)
  end.

(** refro.cc:151-350. *)
Definition refro (ozd oh atk apm arh wl phi tlr eps : N) : option N :=
  option_map fst (refro_run ozd oh atk apm arh wl phi tlr eps).

(** refco.cc:50-51. *)
Definition atan_1 : N := n_lit 7853981633974483 (-16).
Definition atan_4 : N := n_lit 1325817663668033 (-15).

(** refco.cc:46-60. *)
Definition refco (oh atk apm arh wl phi tlr eps : N) : option (N * N) :=
  match refro atan_1 oh atk apm arh wl phi tlr eps, refro atan_4 oh atk apm arh wl phi tlr eps with
  | Some r1, Some r2 => Some ((#64 * r1 - r2) / #60, (r2 - #4 * r1) / #60)
  | _, _ => None
  end.

(** refcoq.cc:140-176. *)
Definition refcoq (atk apm arh wl : N) : N * N :=
  let optic := wl <=? #100 in
  let t := clip atk #100 #500 in
  let p := clip apm #0 #10000 in
  let r := clip arh #0 #1 in
  let w := clip wl (n_lit 1 (-1)) #1000000 in
  let pw := vapour_pressure t p r in
  let gamma := if optic
    then let wlsq := w * w in
      ((n_lit 7753484 (-11) + (n_lit 439108 (-12) + n_lit 3666 (-12) / wlsq) / wlsq) * p
        - n_lit 112684 (-10) * pw) / t
    else (n_lit 776890 (-10) * p - (n_lit 63938 (-10) - n_lit 375463 (-6) / t) * pw) / t in
  let beta := n_lit 44474 (-10) * t in
  let beta := if negb optic then beta - n_lit 74 (-4) * pw * beta else beta in
  (gamma * (#1 - beta), - gamma * (beta - gamma / #2)).

(** atmdsp.cc:89-92 and 95-98: refractivity at the observer. *)
Definition refractivity (tdkok pmbok w1 wl : N) : N :=
  let wlok := n_max wl (n_lit 1 (-1)) in
  let wlsq := wlok * wlok in
  let w2 := n_lit 775317 (-10) + (n_lit 43909 (-11) + n_lit 367 (-11) / wlsq) / wlsq in
  (w2 * pmbok - w1) / tdkok.

(** atmdsp.cc:71-113. *)
Definition atmdsp (atk apm arh wl1 a1 b1 wl2 : N) : N * N :=
  if (wl1 >? #100) || (wl2 >? #100) then (a1, b1)
  else
    let tdkok := clip atk #100 #500 in
    let pmbok := clip apm #0 #10000 in
    let rhok := clip arh #0 #1 in
    let psat := n_pow #10 (- n_lit 87115 (-4) + n_lit 3477 (-5) * tdkok) in
    let pwo := rhok * psat in
    let w1 := n_lit 112684 (-10) * pwo in
    let dn1 := refractivity tdkok pmbok w1 wl1 in
    let dn2 := refractivity tdkok pmbok w1 wl2 in
    if negb (dn1 =? #0) then
      let f := dn2 / dn1 in
      (a1 * f,
       if negb (dn1 =? a1) then b1 * f * (#1 + dn1 * (dn1 - dn2) / (#2 * (dn1 - a1))) else b1 * f)
    else (a1, b1).

(** refz.cc:77. *)
Definition r2d : N := n_lit 5729577951308232 (-14).
(** refz.cc:80-85. *)
Definition rz_c1 : N := n_lit 55445 (-5).
Definition rz_c2 : N := - n_lit 1133 (-5).
Definition rz_c3 : N := n_lit 202 (-5).
Definition rz_c4 : N := n_lit 28385 (-5).
Definition rz_c5 : N := n_lit 2390 (-5).
(** refz.cc:87, 89. *)
Definition zd83 : N := #83 / r2d.
Definition ref83 : N :=
  (rz_c1 + rz_c2 * #7 + rz_c3 * #49) / (#1 + rz_c4 * #7 + rz_c5 * #49).

(** refz.cc:75-122. *)
Definition refz (zu refa refb : N) : N :=
  let zu1 := n_min zu zd83 in
  let zl := zu1 in
  let sine := n_sin zl in
  let cosine := n_cos zl in
  let tangent := sine / cosine in
  let tangent_sqr := tangent * tangent in
  let tangent_cube := tangent * tangent_sqr in
  let zl := zl - (refa * tangent + refb * tangent_cube)
                 / (#1 + (refa + #3 * refb * tangent_sqr) / (cosine * cosine)) in
  let sine := n_sin zl in
  let cosine := n_cos zl in
  let tangent := sine / cosine in
  let tangent_sqr := tangent * tangent in
  let tangent_cube := tangent * tangent_sqr in
  let ref := zu1 - zl + (zl - zu1 + refa * tangent + refb * tangent_cube)
                        / (#1 + (refa + #3 * refb * tangent_sqr) / (cosine * cosine)) in
  let ref := if zu >? zu1 then
      let E := #90 - n_min #93 (zu * r2d) in
      let E2 := E * E in
      (ref / ref83) * (rz_c1 + rz_c2 * E + rz_c3 * E2) / (#1 + rz_c4 * E + rz_c5 * E2)
    else ref in
  zu - ref.

(** refv.cc:73-96. *)
Definition refv (v : vec N) (refa refb : N) : vec N :=
  let x := v0 v in
  let y := v1 v in
  let z1 := v2 v in
  let z := n_max z1 (n_lit 5 (-2)) in
  let z_squared := z * z in
  let r_squared := x * x + y * y in
  let r := n_sqrt r_squared in
  let wb := refb * r_squared / z_squared in
  let wt := (refa + wb) / (#1 + (refa + #3 * wb) * (z_squared + r_squared) / z_squared) in
  let d := wt * r / z in
  let cd := #1 - d * d / #2 in
  let f := cd * (#1 - wt) in
  V3 (x * f) (y * f) (cd * (z + d * r) + (z1 - z)).

End Refr.
