(** Model of evp.cc:55-424, position and velocity of the Earth after Stumpff,
    over any [Num]; tables in M_EvpTab.v.  The program mixes float and double;
    the model uses one type, so conversions between the two are the identity. *)
From Coq Require Import ZArith Bool List.
From Verif Require Import Num M_Vec M_Epoch M_Frame M_EphTab M_Eph M_EvpTab.
Import ListNotations.
Open Scope num_scope.

Section Evp.
Context {N : Num}.

(** evp.cc:61-64, 147, 156-157, 160-162, 185, 191. *)
Definition evp_2pi : N := n_lit 62831853071796 (-13).
Definition evp_2pif : N := n_lit 6283185 (-6).
Definition evp_s2r : N := n_lit 7272205216643 (-17).
Definition evp_b1950 : N := n_lit 19499997904423 (-10).
Definition evp_sec3 : N := n_lit (-7757020) (-14).
Definition evp_sld : N := n_lit 1990987 (-13).
Definition evp_sgd : N := n_lit 1990969 (-13).
Definition evp_km : N := n_lit 3122140 (-11).
Definition evp_mld : N := n_lit 2661699 (-12).
Definition evp_fdi : N := n_lit 2399485 (-13).
Definition evp_1mme : N := n_lit 99999696 (-8).
Definition evp_im : N := n_lit 8978749 (-8).

(** Row [k] of a table. *)
Definition d0 : dec := (0, 0)%Z.
Definition row3 (l : list (dec * dec * dec)) (k : nat) : dec * dec * dec := nth k l (d0, d0, d0).

(** evp.cc:211, 218, 220: an element at time [t], its square [t2], modulo [m]. *)
Definition element (c : dec * dec * dec) (t t2 m : N) : N :=
  let '(c0, c1, c2) := c in n_fmod (lit c0 + t * lit c1 + t2 * lit c2) m.

(** evp.cc:202-221; forbel(k), sorbel(k), dml, deps as functions of dt. *)
Definition evp_dml (dt : N) : N := element (row3 dcfel 0) dt (dt * dt) evp_2pi.
Definition forbel (dt : N) (k : nat) : N := element (row3 dcfel (S k)) dt (dt * dt) evp_2pi.
Definition evp_deps (dt : N) : N := element dceps dt (dt * dt) evp_2pi.
Definition sorbel (dt : N) (k : nat) : N := element (row3 ccsel k) dt (dt * dt) evp_2pif.

(** evp.cc:224-231. *)
Definition evp_secular (t : N) : N :=
  let sn k := let '(_, c1, c2) := row3 ccsec k in n_sin (n_fmod (lit c1 + t * lit c2) evp_2pif) in
  let a k := let '(c0, _, _) := row3 ccsec k in lit c0 in
  a 0%nat * sn 0%nat + a 1%nat * sn 1%nat + (a 2%nat + t * evp_sec3) * sn 2%nat + a 3%nat * sn 3%nat.

(** evp.cc:237, 279. *)
Definition evp_arg (c : dec * dec) (dt : N) : N := n_fmod (lit (fst c) + dt * lit (snd c)) evp_2pi.

(** evp.cc:237-245, one round; the state is pertl, pertld, pertr, pertrd. *)
Definition evp_short (dt : N) (s : N * N * N * N) (r : nat * ((dec * dec) * (dec * dec * dec * dec * dec))) : N * N * N * N :=
  let '(pertl, pertld, pertr, pertrd) := s in
  let '(k, (c, (p0, p1, p2, p3, p4))) := r in
  let a := evp_arg c dt in
  let cos_a := n_cos a in
  let sin_a := n_sin a in
  let pertl := pertl + (lit p0 * cos_a + lit p1 * sin_a) in
  let pertr := pertr + (lit p2 * cos_a + lit p3 * sin_a) in
  if (k <? 10)%nat then
    (pertl, pertld + (lit p1 * cos_a - lit p0 * sin_a) * lit p4, pertr, pertrd + (lit p3 * cos_a - lit p2 * sin_a) * lit p4)
  else (pertl, pertld, pertr, pertrd).
(** evp.cc:231-246. *)
Definition evp_pert (dt : N) : N * N * N * N :=
  fold_left (evp_short dt) (combine (seq 0 15) (combine dcargs ccamps)) (evp_secular dt, #0, #0, #0).

(** evp.cc:249-271: dr, dtl (longitude) and the two velocity components along
    and across the radius, drd and drld, of the Earth-Moon barycentre. *)
Record emb := Emb { emb_r : N; emb_l : N; emb_rd : N; emb_rld : N }.
Definition evp_emb (dt : N) : emb :=
  let '(pertl, pertld, pertr, pertrd) := evp_pert dt in
  let e := sorbel dt 0 in
  let g := forbel dt 0 in
  let esq := e * e in
  let dparam := #1 - esq in
  let two_e := e + e in
  let two_g := g + g in
  let phi := two_e * ((#1 - esq * n_lit 125 (-3)) * n_sin g + e * n_lit 625 (-3) * n_sin two_g +
                      esq * n_lit 54166667 (-8) * n_sin (g + two_g)) in
  let f := g + phi in
  let sin_f := n_sin f in
  let cos_f := n_cos f in
  let dpsi := dparam / (#1 + e * cos_f) in
  let phid := two_e * evp_sgd * ((#1 + esq * n_lit 15 (-1)) * cos_f + e * (n_lit 125 (-2) - sin_f * sin_f * n_lit 5 (-1))) in
  let psid := evp_sgd * e * sin_f / n_sqrt dparam in
  let d1pdro := #1 + pertr in
  let drd := d1pdro * (psid + dpsi * pertrd) in
  let drld := d1pdro * dpsi * (evp_sld + phid + pertld) in
  let dtl := n_fmod (evp_dml dt + phi + pertl) evp_2pi in
  Emb (dpsi * d1pdro) dtl drd drld.

(** evp.cc:274-286: pertl, pertld, pertp, pertpd for the Moon. *)
Definition evp_lunar (dt : N) (s : N * N * N * N) (r : (dec * dec) * (dec * dec * dec * dec)) : N * N * N * N :=
  let '(pertl, pertld, pertp, pertpd) := s in
  let '(c, (m0, m1, m2, m3)) := r in
  let a := evp_arg c dt in
  let sin_a := n_sin a in
  let cos_a := n_cos a in
  (pertl + lit m0 * sin_a, pertld + lit m1 * cos_a, pertp + lit m2 * cos_a, pertpd - lit m3 * sin_a).
Definition evp_moon (dt : N) : N * N * N * N := fold_left (evp_lunar dt) (combine dcargm ccampm) (#0, #0, #0, #0).

(** evp.cc:270-297 (velocity) and 324-329 (position): heliocentric, ecliptic. *)
Definition evp_helio (dt : N) : vecpv N :=
  let b := evp_emb dt in
  let dsinls := n_sin (emb_l b) in
  let dcosls := n_cos (emb_l b) in
  let '(pertl, pertld, pertp, pertpd) := evp_moon dt in
  let tl := forbel dt 1 + pertl in
  let sinlm := n_sin tl in
  let coslm := n_cos tl in
  let sigma := evp_km / (#1 + pertp) in
  let a := sigma * (evp_mld + pertld) in
  let bb := sigma * pertpd in
  let dxhd := emb_rd b * dcosls - emb_rld b * dsinls + a * sinlm + bb * coslm in
  let dyhd := emb_rd b * dsinls + emb_rld b * dcosls - a * coslm + bb * sinlm in
  let dzhd := - (sigma * evp_fdi * n_cos (forbel dt 2)) in
  let flatm := evp_im * n_sin (forbel dt 2) in
  let a := sigma * n_cos flatm in
  VPV (V3 (emb_r b * dcosls - a * coslm) (emb_r b * dsinls - a * sinlm) (- (sigma * n_sin flatm)))
      (V3 dxhd dyhd dzhd).

(** evp.cc:304-309: longitude of planet [k] (Jupiter, Saturn, Uranus, Neptune). *)
Definition evp_planet_l (dt : N) (k : nat) : N :=
  let plon := forbel dt (k + 3) in
  n_fmod (plon + #2 * sorbel dt (k + 9) * n_sin (plon - sorbel dt (k + 1))) evp_2pif.

(** evp.cc:303-313, one round. *)
Definition evp_planet_v (dt : N) (v : vec N) (k : nat) : vec N :=
  let plon := forbel dt (k + 3) in
  let pomg := sorbel dt (k + 1) in
  let pecc := sorbel dt (k + 9) in
  let tl := evp_planet_l dt k in
  let pamv := lit (nth k ccpamv d0) in
  V3 (v0 v + pamv * (n_sin tl + pecc * n_sin pomg))
     (v1 v - pamv * (n_cos tl + pecc * n_cos pomg))
     (v2 v - pamv * sorbel dt (k + 13) * n_cos (plon - sorbel dt (k + 5))).
(** evp.cc:335-342, one round. *)
Definition evp_planet_p (dt : N) (v : vec N) (k : nat) : vec N :=
  let flat := sorbel dt (k + 13) * n_sin (forbel dt (k + 3) - sorbel dt (k + 5)) in
  let a := lit (nth k ccpam d0) * (#1 - sorbel dt (k + 9) * n_cos (forbel dt (k + 3) - sorbel dt (k + 1))) in
  let b := a * n_cos flat in
  let tl := evp_planet_l dt k in
  V3 (v0 v - b * n_cos tl) (v1 v - b * n_sin tl) (v2 v - a * n_sin flat).

(** evp.cc:300-313 and 332-342: barycentric, ecliptic. *)
Definition evp_bary (dt : N) : vecpv N :=
  let h := evp_helio dt in
  let scale v := V3 (v0 v * evp_1mme) (v1 v * evp_1mme) (v2 v * evp_1mme) in
  VPV (fold_left (evp_planet_p dt) (seq 0 4) (scale (pos h)))
      (fold_left (evp_planet_v dt) (seq 0 4) (scale (velo h))).

(** evp.cc:316-321, 345-348 and 351-364: to the mean equator and equinox of
    date, FK5. *)
Definition evp_equator (date : N) (v : vec N) : vec N :=
  let deps := evp_deps ((date - n_lit 150195 (-1)) / #36525) in
  let dcosep := n_cos deps in
  let dsinep := n_sin deps in
  let ya := dcosep * v1 v - dsinep * v2 v in
  let za := dsinep * v1 v + dcosep * v2 v in
  let deqcor := evp_s2r * (n_lit 35 (-3) + n_lit 85 (-5) * (epj date - evp_b1950)) in
  V3 (v0 v - deqcor * ya) (ya + deqcor * v0 v) za.

(** evp.cc:55-424: heliocentric and barycentric vectors. *)
Definition evp (date deqx : N) : vecpv N * vecpv N :=
  let dt := (date - n_lit 150195 (-1)) / #36525 in
  let h := evp_helio dt in
  let b := evp_bary dt in
  let frame v :=
    let v := evp_equator date v in
    if deqx >? #0 then dmxv (prec (epj date) deqx) v else v in
  (VPV (frame (pos h)) (frame (velo h)), VPV (frame (pos b)) (frame (velo b))).

End Evp.
