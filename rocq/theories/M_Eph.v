(** Models of the Earth and Moon ephemerides epv, dmoon and moon, over any
    [Num].  Files are relative to /repo/src; tables in M_EphTab.v. *)
From Coq Require Import ZArith Bool List.
From Verif Require Import Int32 Num M_Vec M_Site M_EphTab.
Import ListNotations.
Open Scope num_scope.

Section Eph.
Context {N : Num}.

Definition lit (d : dec) : N := n_lit (fst d) (snd d).

(** epv.cc:2164-2172 and 2206-2214, the t^0 terms; [s] is (pos, velo). *)
Definition epv_t0 (t : N) (l : list term) (s : N * N) : N * N :=
  fold_left (fun s r => let '(ra, rb, rc) := r in let '(pos, velo) := s in
    let a := lit ra in let b := lit rb in let c := lit rc in
    let p := b + c * t in
    (pos + a * n_cos p, velo - a * c * n_sin p)) l s.

(** epv.cc:2174-2184 and 2216-2226, the t^1 terms. *)
Definition epv_t1 (t : N) (l : list term) (s : N * N) : N * N :=
  fold_left (fun s r => let '(ra, rb, rc) := r in let '(pos, velo) := s in
    let a := lit ra in let b := lit rb in let c := lit rc in
    let ct := c * t in
    let p := b + ct in
    let cos_p := n_cos p in
    (pos + a * t * cos_p, velo + a * (cos_p - ct * n_sin p))) l s.

(** epv.cc:2186-2196 and 2228-2238, the t^2 terms; t2 = t * t (2149). *)
Definition epv_t2 (t : N) (l : list term) (s : N * N) : N * N :=
  fold_left (fun s r => let '(ra, rb, rc) := r in let '(pos, velo) := s in
    let a := lit ra in let b := lit rb in let c := lit rc in
    let ct := c * t in
    let p := b + ct in
    let cos_p := n_cos p in
    (pos + a * (t * t) * cos_p, velo + a * t * (n_lit 20 (-1) * cos_p - ct * n_sin p))) l s.

(** The six coefficient blocks E0..S2 of one axis (epv.cc:82-2145). *)
Record axis := Axis { e0 : list term; e1 : list term; e2 : list term;
                      s0 : list term; s1 : list term; s2 : list term }.

(** epv.cc:2156-2242: (hp, hv), (bp, bv) of one axis. *)
Definition epv_axis (t : N) (x : axis) : (N * N) * (N * N) :=
  let '(pos, velo) := epv_t2 t (e2 x) (epv_t1 t (e1 x) (epv_t0 t (e0 x) (#0, #0))) in
  let '(bpos, bvelo) := epv_t2 t (s2 x) (epv_t1 t (s1 x) (epv_t0 t (s0 x) (pos, velo))) in
  ((pos, velo / n_lit 36525 (-2)), (bpos, bvelo / n_lit 36525 (-2))).

(** epv.cc:2246-2269 with the constants of 73-79: ecliptic to ICRS. *)
Definition epv_rotate (x y z : N) : vec N :=
  V3 (x + n_lit 211284 (-12) * y + n_lit (-91603) (-12) * z)
     (n_lit (-230286) (-12) * x + n_lit 917482137087 (-12) * y + n_lit (-397776982902) (-12) * z)
     (n_lit 397776982902 (-12) * y + n_lit 917482137087 (-12) * z).

(** epv.cc:58-2270 for given tables: heliocentric and barycentric vectors. *)
Definition epv_with (ax ay az : axis) (date : N) : vecpv N * vecpv N :=
  let t := (date - n_lit 515445 (-1)) / n_lit 36525 (-2) in
  let '((hpx, hvx), (bpx, bvx)) := epv_axis t ax in
  let '((hpy, hvy), (bpy, bvy)) := epv_axis t ay in
  let '((hpz, hvz), (bpz, bvz)) := epv_axis t az in
  (VPV (epv_rotate hpx hpy hpz) (epv_rotate hvx hvy hvz),
   VPV (epv_rotate bpx bpy bpz) (epv_rotate bvx bvy bvz)).

(** The tables of epv.cc for x, y, z (82-2145; M_EphTab.v), and epv itself. *)
Definition epv_x : axis := Axis epv_E0x epv_E1x epv_E2x epv_S0x epv_S1x epv_S2x.
Definition epv_y : axis := Axis epv_E0y epv_E1y epv_E2y epv_S0y epv_S1y epv_S2y.
Definition epv_z : axis := Axis epv_E0z epv_E1z epv_E2z epv_S0z epv_S1z epv_S2z.
Definition epv (date : N) : vecpv N * vecpv N := epv_with epv_x epv_y epv_z date.

(** dmoon.cc:53. *)
Definition deg : N := n_lit 174532925199432957692369 (-25).

(** dmoon.cc:335-356: a fundamental argument and its rate, six times the same
    two statements with the coefficients of dmoon.cc:76-114. *)
Definition dmoon_arg (c0 c1 c2 c3 t : N) : N * N :=
  (deg * n_fmod (c0 + (c1 + (c2 + c3 * t) * t) * t) #360,
   deg * (c1 + (n_lit 20 (-1) * c2 + n_lit 30 (-1) * c3 * t) * t)).
Definition dmoon_elp := dmoon_arg (n_lit 270434164 (-6)) (n_lit 4812678831 (-4)) (n_lit (-1133) (-6)) (n_lit 19 (-7)).
Definition dmoon_em := dmoon_arg (n_lit 358475833 (-6)) (n_lit 359990498 (-4)) (n_lit (-150) (-6)) (n_lit (-33) (-7)).
Definition dmoon_emp := dmoon_arg (n_lit 296104608 (-6)) (n_lit 4771988491 (-4)) (n_lit 9192 (-6)) (n_lit 144 (-7)).
Definition dmoon_d := dmoon_arg (n_lit 350737486 (-6)) (n_lit 4452671142 (-4)) (n_lit (-1436) (-6)) (n_lit 19 (-7)).
Definition dmoon_f := dmoon_arg (n_lit 11250889 (-6)) (n_lit 4832020251 (-4)) (n_lit (-3211) (-6)) (n_lit (-3) (-7)).
Definition dmoon_om := dmoon_arg (n_lit 259183275 (-6)) (n_lit (-19341420) (-4)) (n_lit 2078 (-6)) (n_lit 22 (-7)).

(** The arguments as the series use them (dmoon.cc:335-385), each with its rate. *)
Record margs := MArgs { g_elp : N * N; g_em : N * N; g_emp : N * N; g_d : N * N; g_f : N * N;
                        g_om : N * N; g_wom : N * N; g_e : N * N }.

(** dmoon.cc:334-385; constants 118-119 and 123-139. *)
Definition dmoon_args (t : N) : margs :=
  let '(elp, delp) := dmoon_elp t in let '(em, dem) := dmoon_em t in
  let '(emp, demp) := dmoon_emp t in let '(d, dd) := dmoon_d t in
  let '(f, df) := dmoon_f t in let '(om, dom) := dmoon_om t in
  let sin_om := n_sin om in
  let cos_om := n_cos om in
  let dom_cos_om := dom * cos_om in
  let PAC := n_lit 233 (-6) in let PBC := n_lit (-1778) (-6) in let PCC := n_lit 817 (-6) in
  let PDC := n_lit 2011 (-6) in let PEC := n_lit 3964 (-6) in let PFC := n_lit 1964 (-6) in
  let PGC := n_lit 2541 (-6) in let PHC := n_lit 1964 (-6) in let PIC := n_lit (-24691) (-6) in
  let PJC := n_lit (-4328) (-6) in
  let PA0 := n_lit 512 (-1) in let PA1 := n_lit 202 (-1) in
  let PE0 := n_lit 346560 (-3) in let PE1 := n_lit 132870 (-3) in let PE2 := n_lit (-91731) (-7) in
  let PJ0 := n_lit 27505 (-2) in let PJ1 := n_lit (-230) (-2) in
  let theta := deg * (PA0 + PA1 * t) in
  let wa := n_sin theta in
  let dwa := deg * PA1 * n_cos theta in
  let theta := deg * (PE0 + (PE1 + PE2 * t) * t) in
  let wb := PEC * n_sin theta in
  let dwb := deg * PEC * (PE1 + n_lit 20 (-1) * PE2 * t) * n_cos theta in
  let elp := elp + deg * (PAC * wa + wb + PFC * sin_om) in
  let delp := delp + deg * (PAC * dwa + dwb + PFC * dom_cos_om) in
  let em := em + deg * PBC * wa in
  let dem := dem + deg * PBC * dwa in
  let emp := emp + deg * (PCC * wa + wb + PGC * sin_om) in
  let demp := demp + deg * (PCC * dwa + dwb + PGC * dom_cos_om) in
  let d := d + deg * (PDC * wa + wb + PHC * sin_om) in
  let dd := dd + deg * (PDC * dwa + dwb + PHC * dom_cos_om) in
  let wom := om + deg * (PJ0 + PJ1 * t) in
  let dwom := dom + deg * PJ1 in
  let sin_wom := n_sin wom in
  let cos_wom := n_cos wom in
  let f := f + deg * (wb + PIC * sin_om + PJC * sin_wom) in
  let df := df + deg * (dwb + PIC * dom_cos_om + PJC * dwom * cos_wom) in
  let E1 := n_lit (-2495) (-6) in let E2 := n_lit (-752) (-8) in
  let e := n_lit 10 (-1) + (E1 + E2 * t) * t in
  let de := E1 + n_lit 20 (-1) * E2 * t in
  MArgs (elp, delp) (em, dem) (emp, demp) (d, dd) (f, df) (om, dom) (wom, dwom) (e, de).

(** dmoon.cc:386-387 and the selection of en, den (405-414, 434-443, 465-474). *)
Definition dmoon_en (g : margs) (i : Z) : N * N :=
  let '(e, de) := g_e g in
  if (i =? 0)%Z then (n_lit 10 (-1), n_lit 0 (-1))
  else if (i =? 1)%Z then (e, de)
  else (e * e, n_lit 20 (-1) * e * de).

(** theta and its rate (dmoon.cc:415-416, 444-445, 475-476). *)
Definition dmoon_theta (g : margs) (r : Z * Z * Z * Z * Z) : N * N :=
  let '(a, b, c, h, _) := r in
  let emn := #a in let empn := #b in let dn := #c in let fn := #h in
  (emn * fst (g_em g) + empn * fst (g_emp g) + dn * fst (g_d g) + fn * fst (g_f g),
   emn * snd (g_em g) + empn * snd (g_emp g) + dn * snd (g_d g) + fn * snd (g_f g)).

(** One round of the sine series (dmoon.cc:398-420, 427-449) and of the cosine
    series (458-480); [s] is (v, dv).  The loops run from the last row to the
    first. *)
Definition dmoon_sin (g : margs) (r : dec * (Z * Z * Z * Z * Z)) (s : N * N) : N * N :=
  let '(v, dv) := s in
  let coeff := lit (fst r) in
  let '(en, den) := dmoon_en g (snd (snd r)) in
  let '(theta, dtheta) := dmoon_theta g (snd r) in
  let ftheta := n_sin theta in
  (v + coeff * ftheta * en, dv + coeff * (n_cos theta * dtheta * en + ftheta * den)).
Definition dmoon_cos (g : margs) (r : dec * (Z * Z * Z * Z * Z)) (s : N * N) : N * N :=
  let '(v, dv) := s in
  let coeff := lit (fst r) in
  let '(en, den) := dmoon_en g (snd (snd r)) in
  let '(theta, dtheta) := dmoon_theta g (snd r) in
  let ftheta := n_cos theta in
  (v + coeff * ftheta * en, dv + coeff * ((- n_sin theta) * dtheta * en + ftheta * den)).

(** dmoon.cc:395-422: longitude; 425-453: latitude; 456-482: parallax; each
    with its rate per second. *)
Definition dmoon_sec : N := n_lit 31557600000 (-1).
Definition dmoon_el (g : margs) : N * N :=
  let '(v, dv) := fold_right (dmoon_sin g) (#0, #0) dmoon_L in
  let '(elp, delp) := g_elp g in
  (elp + deg * v, (delp + deg * dv) / dmoon_sec).
Definition dmoon_b (g : margs) : N * N :=
  let '(v, dv) := fold_right (dmoon_sin g) (#0, #0) dmoon_B in
  let '(om, dom) := g_om g in let '(wom, dwom) := g_wom g in
  let CW1 := n_lit 4664 (-7) in let CW2 := n_lit 754 (-7) in
  let bf := n_lit 10 (-1) - CW1 * n_cos om - CW2 * n_cos wom in
  let dbf := CW1 * dom * n_sin om + CW2 * dwom * n_sin wom in
  (deg * v * bf, deg * (dv * bf + v * dbf) / dmoon_sec).
Definition dmoon_p (g : margs) : N * N :=
  let '(v, dv) := fold_right (dmoon_cos g) (#0, #0) dmoon_P in
  (deg * v, deg * dv / dmoon_sec).

(** dmoon.cc:489-506: ecliptic rectangular coordinates and rates; the argument
    is in Julian centuries since J1900 (327). *)
Definition dmoon_ecl (t : N) : vecpv N :=
  let g := dmoon_args t in
  let '(el, del) := dmoon_el g in let '(b, db) := dmoon_b g in let '(p, dp) := dmoon_p g in
  let sin_p := n_sin p in
  let r := n_lit 42635212653763 (-18) / sin_p in
  let dr := (- r) * dp * n_cos p / sin_p in
  let sel := n_sin el in
  let cel := n_cos el in
  let sb := n_sin b in
  let cb := n_cos b in
  let rcb := r * cb in
  let rbd := r * db in
  let w := rbd * sb - cb * dr in
  let x := rcb * cel in
  let y := rcb * sel in
  let z := r * sb in
  VPV (V3 x y z) (V3 ((- y) * del - w * cel) (x * del - w * sel) (rbd * cb + sb * dr)).

(** dmoon.cc:509-528: to the mean equator and equinox of date, FK5. *)
Definition dmoon_rotate (date : N) (q : vec N) : vec N :=
  let t := (date - n_lit 515445 (-1)) / #36525 in
  let epj := #2000 + t * #100 in
  let eqcor := n_lit 7272205216643039903848712 (-29) * (n_lit 35 (-3) + n_lit 85 (-5) * (epj - n_lit 19499997904423 (-10))) in
  let eps := n_lit 4848136811095359935899141 (-30) *
    (n_lit 84381448 (-3) + (n_lit (-468150) (-4) + (n_lit (-59) (-5) + n_lit 1813 (-6) * t) * t) * t) in
  let sin_eps := n_sin eps in
  let cos_eps := n_cos eps in
  let es := eqcor * sin_eps in
  let ec := eqcor * cos_eps in
  let x := v0 q in let y := v1 q in let z := v2 q in
  V3 (x - ec * y + es * z) (eqcor * x + y * cos_eps - z * sin_eps) (y * sin_eps + z * cos_eps).

(** dmoon.cc:51-529. *)
Definition dmoon (date : N) : vecpv N :=
  let q := dmoon_ecl ((date - n_lit 150195 (-1)) / #36525) in
  VPV (dmoon_rotate date (pos q)) (dmoon_rotate date (velo q)).

(** moon.cc:54 and 57 (float). *)
Definition fdeg : N := n_lit 1745329252 (-11).
Definition frate : N := n_lit 9652743551 (-21).

(** moon.cc:219-231: the mean arguments, with the constants of 69-95; EM has no
    whole-revolutions part. *)
Definition moon_arg (c0 c1i c1f t yf : N) : N := fdeg * n_fmod (c0 + c1i * yf + c1f * t) #360.
Definition moon_elp := moon_arg (n_lit 270434164 (-6)) (n_lit 46800 (-1)) (n_lit 132678831 (-6)).
Definition moon_em (t : N) : N := fdeg * n_fmod (n_lit 358475833 (-6) + n_lit 359990498 (-6) * t) #360.
Definition moon_emp := moon_arg (n_lit 296104608 (-6)) (n_lit 46800 (-1)) (n_lit 91988491 (-6)).
Definition moon_d := moon_arg (n_lit 350737486 (-6)) (n_lit 43200 (-1)) (n_lit 132671142 (-6)).
Definition moon_f := moon_arg (n_lit 11250889 (-6)) (n_lit 46800 (-1)) (n_lit 152020251 (-6)).

(** moon.cc:244-245, 261-262, 278-279: theta and thetad. *)
Definition moon_theta (em emp d f : N) (r : Z * Z * Z * Z) : N * N :=
  let '(a, b, c, h) := r in
  let cem := #a in let cemp := #b in let cd := #c in let cf := #h in
  (cem * em + cemp * emp + cd * d + cf * f,
   cem * n_lit 359990498 (-6) + cemp * n_lit 4771988491 (-6) + cd * n_lit 4452671142 (-6) + cf * n_lit 4832020251 (-6)).

(** One round of moon.cc:238-248 and 255-265, and of 272-282. *)
Definition moon_sin (em emp d f : N) (r : dec * (Z * Z * Z * Z)) (s : N * N) : N * N :=
  let '(v, vd) := s in
  let coeff := lit (fst r) in
  let '(theta, thetad) := moon_theta em emp d f (snd r) in
  (v + coeff * n_sin theta, vd + coeff * n_cos theta * thetad).
Definition moon_cos (em emp d f : N) (r : dec * (Z * Z * Z * Z)) (s : N * N) : N * N :=
  let '(v, vd) := s in
  let coeff := lit (fst r) in
  let '(theta, thetad) := moon_theta em emp d f (snd r) in
  (v + coeff * n_cos theta, vd - coeff * n_sin theta * thetad).

(** moon.cc:216-289: ecliptic longitude, latitude, distance and their rates per
    second; [yi], [yf] are whole years since 1900 and the fraction of year. *)
Definition moon_sph (yi yf : N) : sphpv N :=
  let t := yi + yf in
  let elp := moon_elp t yf in let em := moon_em t in let emp := moon_emp t yf in
  let d := moon_d t yf in let f := moon_f t yf in
  let '(el, eld) := fold_right (moon_sin em emp d f) (#0, #0) moon_L in
  let el := el * fdeg + elp in
  let eld := frate * (eld + n_lit 4812678831 (-6) / fdeg) in
  let '(b, bd) := fold_right (moon_sin em emp d f) (#0, #0) moon_B in
  let b := b * fdeg in
  let bd := bd * frate in
  let '(p, pd) := fold_right (moon_cos em emp d f) (#0, #0) moon_P in
  let p := (p + n_lit 950724 (-6)) * fdeg in
  let pd := pd * frate in
  let sp := n_sin p in
  let r := n_lit 42635212653763 (-18) / sp in
  let rd := (- r) * pd / sp in
  SPV el b r eld bd rd.

(** moon.cc:296-306: rotation about x by the mean obliquity. *)
Definition moon_rotate (t : N) (q : vec N) : vec N :=
  let eps := fdeg * (n_lit 2345229 (-5) - n_lit 13 (-5) * t) in
  let sin_eps := n_sin eps in
  let cos_eps := n_cos eps in
  V3 (v0 q) (v1 q * cos_eps - v2 q * sin_eps) (v1 q * sin_eps + v2 q * cos_eps).

(** moon.cc:52-307; the time statements 213-215 are those of earth.cc:54-58
    ([earth_time]); [None] is signed overflow. *)
Definition moon (year day : Z) (fraction : N) : option (vecpv N) :=
  match earth_time year day fraction with
  | Some (yi, yf) =>
    let q := ds2c6 (moon_sph yi yf) in
    Some (VPV (moon_rotate (yi + yf) (pos q)) (moon_rotate (yi + yf) (velo q)))
  | None => None
  end.

End Eph.
