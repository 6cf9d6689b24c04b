(** evp: the specification's paths, and the change to equatorial axes. *)
From Coq Require Import Reals ZArith Lra Lia List.
From Coquelicot Require Import Coquelicot.
From Verif Require Import Num NumR L_Pi L_Real M_Vec M_Epoch M_Frame M_EphTab M_Eph M_EvpTab M_Evp S_Geom S_Frame S_Eph S_Evp L_Vec L_Trig L_Frame L_NutDiff L_Eph L_EphB L_EvpA L_EvpB L_EvpC L_EvpD L_EvpE L_EvpF.
Import ListNotations.
Open Scope R_scope.

(** ** The specification's path is the smooth one *)
Lemma secular_S t : secular t = sec_of (fun x => x) t.
Proof.
  unfold secular, sec_of.
  replace (0.5550147 + t * 2.076942) with (5550147 / 10000000 + t * (2076942 / 1000000)) by lra.
  replace (4.035027 + t * 0.3525565) with (4035027 / 1000000 + t * (3525565 / 10000000)) by lra.
  replace (0.9990265 + t * 2.622706) with (9990265 / 10000000 + t * (2622706 / 1000000)) by lra.
  replace (5.508259 + t * 15.59103) with (5508259 / 1000000 + t * (1559103 / 100000)) by lra.
  repeat match goal with |- context [sin ?x] => generalize (sin x); intros ? end. lra.
Qed.
Lemma short_S t : short_terms (combine dcargs ccamps) t = (tsum (lin t) rows_l, tsum (lin t) rows_r).
Proof.
  assert (G : forall l : list ((dec * dec) * (dec * dec * dec * dec * dec)), forall k, short_terms l t =
    (tsum (lin t) (map sel_l (combine (seq k (length l)) l)), tsum (lin t) (map sel_r (combine (seq k (length l)) l)))).
  { induction l as [|[c [[[[a b] r] d] w]] l IH]; intros k; [reflexivity|].
    cbn [short_terms length seq combine map sel_l sel_r tsum]. rewrite (IH (S k)). reflexivity. }
  rewrite (G _ 0%nat). reflexivity.
Qed.
Lemma centre_S t : emb_centre t = phS t.
Proof.
  unfold emb_centre, phS, cphi. fold (eS t) (gS t). change (element_of ccsel 0 t) with (eS t). change (element_of dcfel 1 t) with (gS t).
  set (e := eS t). set (g := gS t). replace (2 * g) with (g + g) by ring. replace (3 * g) with (g + (g + g)) by ring.
  replace 0.125 with (125 / 1000) by lra. replace 0.625 with (625 / 1000) by lra. replace 0.54166667 with (54166667 / 100000000) by lra. ring.
Qed.
Lemma longitude_S t : emb_longitude t = lS t.
Proof. unfold emb_longitude, lS, plS. rewrite centre_S, secular_S, short_S. reflexivity. Qed.
Lemma distance_S t : emb_distance t = rS t.
Proof.
  unfold emb_distance, rS, prS, psi, fS. rewrite centre_S, short_S. cbn [snd]. change (element_of ccsel 0 t) with (eS t).
  change (element_of dcfel 1 t) with (gS t). replace (eS t ^ 2) with (eS t * eS t) by ring. reflexivity.
Qed.
Lemma moon_S t : offset_longitude t = thS t /\ offset_latitude t = beS t /\ offset_size t = siS t.
Proof.
  unfold offset_longitude, offset_latitude, offset_size, thS, beS, siS, mo_l, mo_p.
  change (lunar 0 t) with (maS t 0). change (lunar 1 t) with (maS t 1). change (lunar 2 t) with (maS t 2).
  change (element_of dcfel 2 t) with (M1S t). change (element_of dcfel 3 t) with (FmS t).
  split; [lra|split; [lra|]]. match goal with |- ?a / (1 + ?b) = ?c / (1 + ?d) => replace a with c by lra; replace b with d by lra end. reflexivity.
Qed.
Lemma earth_S t : earth_from_sun t = hpS t.
Proof.
  unfold earth_from_sun. destruct (moon_S t) as (A & B & C). rewrite A, B, C, longitude_S, distance_S.
  unfold polar, vsub, hpS, uS. cbn [v0 v1 v2]. rewrite cos_0, sin_0. f_equal; ring.
Qed.
Lemma bary_S t : earth_from_barycentre t = bpS t.
Proof.
  unfold earth_from_barycentre, bpS. rewrite earth_S.
  replace 0.99999696 with MM by (unfold MM; lra).
  assert (Q : forall k v, vsub v (planet k t) = vadd v (qS k t)).
  { intros k v. unfold planet, qS, vsub, vadd, scale, polar. cbn [v0 v1 v2]. fold (Am k).
    change (element_of dcfel (k + 4) t) with (plk k t). change (element_of ccsel (k + 1) t) with (omk k t). change (element_of ccsel (k + 5) t) with (ndk k t).
    change (element_of ccsel (k + 9) t) with (eck k t). change (element_of ccsel (k + 13) t) with (ick k t).
    fold (bek k t) (rhk k t) (lok k t). change (decimal (nth k ccpam z0)) with (Am k). f_equal; ring. }
  rewrite !Q. reflexivity.
Qed.

(** ** Equatorial axes *)
Definition eq_of (eps q : R) (v : RV) : RV :=
  let y := cos eps * v1 v - sin eps * v2 v in let z := sin eps * v1 v + cos eps * v2 v in
  V3 (v0 v - q * y) (y + q * v0 v) z.
Lemma equatorial_eq date v : equatorial date v = eq_of (evp_obliquity (centuries1900 date)) (equinox_offset date) v.
Proof.
  unfold equatorial, eq_of, mapply, frame_x, cross, vadd, scale, dot. cbn [v0 v1 v2 r0 r1 r2]. rewrite cos_neg, sin_neg. f_equal; ring.
Qed.
Lemma obliquity_S t : evp_obliquity t = qd dceps t.
Proof. unfold evp_obliquity, qd. cbn [dceps fst snd]. dnum. lra. Qed.
Lemma equator_R (date : R) v : Rabs (centuries1900 date) <= 10 -> evp_equator (N := RNum) date v = equatorial date v.
Proof.
  intros T. rewrite equatorial_eq. unfold evp_equator.
  match goal with |- context [evp_deps ?x] => replace x with (centuries1900 date) by (unfold centuries1900; unR; decs; lra) end.
  rewrite (obliquity_id _ T), <- obliquity_S. unfold eq_of, epj, evp_s2r, evp_b1950. unR.
  match goal with |- V3 (_ - ?k * _) _ _ = _ => replace k with (equinox_offset date) by (unfold equinox_offset, centuries1900; decs; lra) end.
  reflexivity.
Qed.
