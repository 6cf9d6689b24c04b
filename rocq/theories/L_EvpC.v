(** evp: the Earth-Moon barycentre.  The reported radius and longitude follow a
    smooth path; the reported rates are its rates, less general precession. *)
From Coq Require Import Reals ZArith Lra Lia List.
From Coquelicot Require Import Coquelicot.
From Verif Require Import Num NumR L_Pi L_Real M_Vec M_EphTab M_Eph M_EvpTab M_Evp S_Geom S_Eph L_Vec L_Trig L_Frame L_NutDiff L_Eph L_EphB L_EvpA L_EvpB.
Import ListNotations.
Open Scope R_scope.

(** Seconds per Julian century. *)
Notation SC := 3155760000.
(** General precession, radians per century: 5029.0966 arcseconds. *)
Notation OM := (24382 / 1000000).

Lemma qd_derive c t : is_derive (qd c) t (qd' c t).
Proof. unfold qd, qd'. generalize (decimal (fst (fst c))) (decimal (snd (fst c))) (decimal (snd c)); intros. auto_derive; [easy|]. ring. Qed.
Lemma tsum_derive l t : is_derive (fun t => tsum (lin t) l) t (tder t l).
Proof.
  induction l as [|[c [[x y] w]] l IH]; cbn [tsum tder].
  - exact (is_derive_const 0 t).
  - apply @is_derive_plus with (f := fun t => decimal x * cos (lin t c) + decimal y * sin (lin t c)) (g := fun t => tsum (lin t) l); [|exact IH].
    unfold lin. generalize (decimal x) (decimal y) (decimal (fst c)) (decimal (snd c)); intros. auto_derive; [easy|]. ring.
Qed.

(** ** Ellipse *)
Definition cphi_e (e g : R) : R :=
  2 * ((1 - 3 * (e * e) * (125 / 1000)) * sin g + e * (125 / 100) * sin (g + g) + e * e * (162500001 / 100000000) * sin (g + (g + g))).
Lemma cphi_e_bound e g : Rabs e <= 172 / 10000 -> Rabs (cphi_e e g) <= 205 / 100.
Proof. intros E. unfold cphi_e. bnd. Qed.
Lemma cphi_g_bound e g : Rabs e <= 172 / 10000 -> Rabs (cphi_g e g) <= 352 / 10000.
Proof. intros E. unfold cphi_g. bnd. Qed.
Lemma cphid_bound e f : Rabs e <= 172 / 10000 -> Rabs (cphid e f) <= 355 / 10000.
Proof. intros E. unfold cphid. bnd. Qed.
Lemma cphi_derive (e g : R -> R) t e' g' : is_derive e t e' -> is_derive g t g' ->
  is_derive (fun t => cphi (e t) (g t)) t (cphi_e (e t) (g t) * e' + cphi_g (e t) (g t) * g').
Proof.
  intros E G. unfold cphi, cphi_e, cphi_g. auto_derive.
  - repeat split; try (exists e'; exact E); try (exists g'; exact G).
  - derives. field.
Qed.

Definition psi (e f : R) : R := (1 - e * e) / (1 + e * cos f).
Lemma psi_den e f : Rabs e <= 172 / 10000 -> 9828 / 10000 <= 1 + e * cos f <= 10172 / 10000.
Proof.
  intros E. assert (X : Rabs (e * cos f) <= 172 / 10000) by bnd. apply ab in X. lra.
Qed.
Lemma inv_bound x a : 0 < a -> a <= x -> Rabs (/ x) <= / a.
Proof. intros A X. rewrite Rabs_pos_eq by (apply Rlt_le, Rinv_0_lt_compat; lra). apply Rinv_le_contravar; assumption. Qed.
Lemma psi_inv e f : Rabs e <= 172 / 10000 -> Rabs (/ (1 + e * cos f)) <= 10176 / 10000.
Proof. intros E. destruct (psi_den e f E). eapply Rle_trans; [apply (inv_bound _ (9828 / 10000)); lra|]. lra. Qed.
Lemma psi_bound e f : Rabs e <= 172 / 10000 -> Rabs (psi e f) <= 1018 / 1000.
Proof.
  intros E. pose proof (psi_inv e f E) as I. unfold psi.
  assert (Q : Rabs (1 - e * e) <= 1). { apply ab in E. apply Rabs_le. nra. }
  bnd.
Qed.
Definition psi_e (e f : R) : R := (- (2 * e) * (1 + e * cos f) - (1 - e * e) * cos f) * (/ (1 + e * cos f) * / (1 + e * cos f)).
Definition psi_f (e f : R) : R := e * sin f * (1 - e * e) * (/ (1 + e * cos f) * / (1 + e * cos f)).
Lemma psi_derive (e f : R -> R) t e' f' : is_derive e t e' -> is_derive f t f' -> 1 + e t * cos (f t) <> 0 ->
  is_derive (fun t => psi (e t) (f t)) t (psi_e (e t) (f t) * e' + psi_f (e t) (f t) * f').
Proof.
  intros E F N. unfold psi, psi_e, psi_f. auto_derive.
  - repeat split; try (exists e'; exact E); try (exists f'; exact F). exact N.
  - derives. field. exact N.
Qed.
Lemma psi_e_bound e f : Rabs e <= 172 / 10000 -> Rabs (psi_e e f) <= 11 / 10.
Proof.
  intros E. pose proof (psi_inv e f E) as I. unfold psi_e.
  assert (Q : Rabs (1 - e * e) <= 1). { apply ab in E. apply Rabs_le. nra. }
  assert (D : Rabs (1 + e * cos f) <= 10172 / 10000) by bnd. bnd.
Qed.

(** The radial rate: the code's n e sin f / sqrt (1 - e^2). *)
Lemma root e : Rabs e <= 172 / 10000 -> Rabs (/ sqrt (1 - e * e) - (1 + e * e / 2)) <= 2e-7.
Proof.
  intros E. apply ab in E. assert (Q : 0 <= e * e <= 0.00029584) by nra. set (u := e * e) in *. set (q := sqrt (1 - u)).
  assert (S : q * q = 1 - u) by (apply sqrt_sqrt; lra).
  assert (P : 0 <= q) by apply sqrt_pos. assert (P0 : 0.99 <= q) by nra.
  assert (X : Rabs (1 - (1 + u / 2) * q) <= 1e-7).
  { assert (Y : (1 + u / 2) * q * ((1 + u / 2) * q) = 1 - u * u * (3 / 4) - u * u * u / 4).
    { replace ((1 + u / 2) * q * ((1 + u / 2) * q)) with ((1 + u / 2) * (1 + u / 2) * (q * q)) by ring. rewrite S. field. }
    set (w := (1 + u / 2) * q) in *. assert (0 <= w) by (unfold w; nra).
    assert (U2 : 0 <= u * u <= 8.76e-8) by nra. assert (U3 : 0 <= u * u * u <= 1e-10) by nra.
    apply Rabs_le. split; nra. }
  replace (/ q - (1 + u / 2)) with ((1 - (1 + u / 2) * q) * / q) by (field; lra).
  assert (Iq : Rabs (/ q) <= / 0.99) by (apply inv_bound; lra). eapply Rle_trans; [apply b_mul; [exact X|exact Iq]|]. lra.
Qed.
Definition NC : R := 1990969 / 10000000000000 * SC.
Lemma radial_rate e e' g g' : Rabs e <= 172 / 10000 -> Rabs e' <= 46 / 1000000 -> Rabs (g' - NC) <= 1 / 1000 -> let f := g + cphi e g in
  Rabs (psi_e e f * e' + psi_f e f * (g' + (cphi_e e g * e' + cphi_g e g * g')) - NC * e * sin f / sqrt (1 - e * e)) <= 14 / 100000.
Proof.
  intros E E' G f. pose proof (psi_inv e f E) as I. pose proof (root e E) as R1. pose proof (centre_rate e g E) as C. fold f in C.
  pose proof (psi_e_bound e f E) as PE. pose proof (cphi_e_bound e g E) as CE. pose proof (cphi_g_bound e g E) as CG.
  assert (N : Rabs NC <= 629) by (unfold NC; bnd).
  destruct (psi_den e f E) as [D0 D1].
  assert (Q : Rabs (1 - e * e) <= 1). { apply ab in E. apply Rabs_le. nra. }
  set (iD := / (1 + e * cos f)) in *. set (q := / sqrt (1 - e * e)) in *. set (eta := cphi_g e g - cphid e f) in *.
  assert (K : (1 - e * e) * (iD * iD) * (1 + cphi_g e g) - q =
    - (3 / 2) * e ^ 4 - (q - (1 + e * e / 2)) + (1 - e * e) * (iD * iD) * (eta - 3 / 2 * e ^ 4 * (cos f * cos f))).
  { assert (ID : iD * (1 + e * cos f) = 1) by (unfold iD; field; lra).
    replace (1 + cphi_g e g) with ((1 + e * cos f) * (1 + e * cos f) * (1 + 3 / 2 * (e * e)) - 3 / 2 * e ^ 4 * (cos f * cos f) + eta).
    2: { unfold eta, cphid. pose proof (sc1 f) as SF. replace (sin f * sin f) with (1 - cos f * cos f) by lra. field. }
    replace ((1 - e * e) * (iD * iD) * ((1 + e * cos f) * (1 + e * cos f) * (1 + 3 / 2 * (e * e)) - 3 / 2 * e ^ 4 * (cos f * cos f) + eta))
      with ((1 - e * e) * ((iD * (1 + e * cos f)) * (iD * (1 + e * cos f))) * (1 + 3 / 2 * (e * e)) + (1 - e * e) * (iD * iD) * (eta - 3 / 2 * e ^ 4 * (cos f * cos f))) by ring.
    rewrite ID. field. }
  assert (KB : Rabs ((1 - e * e) * (iD * iD) * (1 + cphi_g e g) - q) <= 47 / 10000000) by (rewrite K; bnd).
  unfold psi_f. fold iD. unfold Rdiv. fold q.
  replace (psi_e e f * e' + e * sin f * (1 - e * e) * (iD * iD) * (g' + (cphi_e e g * e' + cphi_g e g * g')) - NC * e * sin f * q)
    with (psi_e e f * e' + e * sin f * ((1 - e * e) * (iD * iD) * cphi_e e g * e')
      + e * sin f * ((1 - e * e) * (iD * iD) * (1 + cphi_g e g) * (g' - NC))
      + e * sin f * (NC * ((1 - e * e) * (iD * iD) * (1 + cphi_g e g) - q))) by ring.
  bnd.
Qed.
(** The rate in longitude. *)
Lemma centre_rate2 e e' g g' : Rabs e <= 172 / 10000 -> Rabs e' <= 46 / 1000000 -> Rabs (g' - NC) <= 1 / 1000 ->
  Rabs (cphi_e e g * e' + cphi_g e g * g' - NC * cphid e (g + cphi e g)) <= 26 / 10000.
Proof.
  intros E E' G. pose proof (centre_rate e g E) as C. pose proof (cphi_e_bound e g E) as CE. pose proof (cphi_g_bound e g E) as CG.
  assert (N : Rabs NC <= 629) by (unfold NC; bnd).
  set (eta := cphi_g e g - cphid e (g + cphi e g)) in *.
  replace (cphi_e e g * e' + cphi_g e g * g' - NC * cphid e (g + cphi e g)) with (cphi_e e g * e' + cphi_g e g * (g' - NC) + NC * eta)
    by (unfold eta; ring). bnd.
Qed.

(** ** The smooth path *)
Definition eS (t : R) : R := qd (row3 ccsel 0) t.
Definition eS' (t : R) : R := qd' (row3 ccsel 0) t.
Definition gS (t : R) : R := qd (row3 dcfel 1) t.
Definition gS' (t : R) : R := qd' (row3 dcfel 1) t.
Definition sec' (t : R) : R :=
  1289600 / 1000000000000 * (2076942 / 1000000) * cos (5550147 / 10000000 + t * (2076942 / 1000000)) +
  3102810 / 100000000000 * (3525565 / 10000000) * cos (4035027 / 1000000 + t * (3525565 / 10000000)) +
  (-7757020 / 100000000000000) * sin (9990265 / 10000000 + t * (2622706 / 1000000)) +
  (9124190 / 1000000000000 + t * (-7757020 / 100000000000000)) * (2622706 / 1000000) * cos (9990265 / 10000000 + t * (2622706 / 1000000)) +
  9793240 / 10000000000000 * (1559103 / 100000) * cos (5508259 / 1000000 + t * (1559103 / 100000)).
Lemma sec_derive t : is_derive (sec_of (fun x => x)) t (sec' t).
Proof. unfold sec_of, sec'. auto_derive; [easy|]. field. Qed.
Lemma sec_bound t : Rabs t <= 10 -> Rabs (sec_of (fun x => x) t) <= 44 / 1000000.
Proof. intros T. unfold sec_of. bnd. Qed.
Lemma sec'_bound t : Rabs t <= 10 -> Rabs (sec' t) <= 6 / 100000.
Proof. intros T. unfold sec'. bnd. Qed.
Definition plS (t : R) : R := sec_of (fun x => x) t + tsum (lin t) rows_l.
Definition prS (t : R) : R := tsum (lin t) rows_r.
Definition phS (t : R) : R := cphi (eS t) (gS t).
Definition fS (t : R) : R := gS t + phS t.
Definition rS (t : R) : R := psi (eS t) (fS t) * (1 + prS t).
Definition lS (t : R) : R := qd (row3 dcfel 0) t + phS t + plS t.
Definition phS' (t : R) : R := cphi_e (eS t) (gS t) * eS' t + cphi_g (eS t) (gS t) * gS' t.
Definition psS' (t : R) : R := psi_e (eS t) (fS t) * eS' t + psi_f (eS t) (fS t) * (gS' t + phS' t).
Definition rS' (t : R) : R := psS' t * (1 + prS t) + psi (eS t) (fS t) * tder t rows_r.
Definition lS' (t : R) : R := qd' (row3 dcfel 0) t + phS' t + (sec' t + tder t rows_l).

Lemma e_bound t : Rabs t <= 10 -> Rabs (eS t) <= 172 / 10000.
Proof.
  intros T. assert (T2 : Rabs (t * t) <= 100) by (eapply Rle_trans; [apply (b_mul t t 10 10); assumption|lra]).
  unfold eS, qd. cbn [row3 nth ccsel fst snd]. dnum. bnd.
Qed.
Lemma e'_bound t : Rabs t <= 10 -> Rabs (eS' t) <= 46 / 1000000.
Proof. intros T. unfold eS', qd'. cbn [row3 nth ccsel fst snd]. dnum. bnd. Qed.
Lemma g'_bound t : Rabs t <= 10 -> Rabs (gS' t - NC) <= 1 / 1000.
Proof.
  intros T. unfold gS', qd', NC. cbn [row3 nth dcfel fst snd]. dnum.
  match goal with |- Rabs (?a + 2 * t * ?b - ?c) <= _ => replace (a + 2 * t * b - c) with ((a - c) + 2 * t * b) by ring end.
  eapply Rle_trans; [apply b_add; [apply Rabs_le; split; [instantiate (1 := 1 / 10000); lra|lra]|repeat bd]|lra].
Qed.
Lemma l'_bound t : Rabs t <= 10 -> Rabs (qd' (row3 dcfel 0) t - OM - SC * (1990987 / 10000000000000)) <= 3 / 10000.
Proof.
  intros T. unfold qd'. cbn [row3 nth dcfel fst snd]. dnum.
  match goal with |- Rabs (?a + 2 * t * ?b - ?c - ?d) <= _ => replace (a + 2 * t * b - c - d) with ((a - c - d) + 2 * t * b) by ring end.
  eapply Rle_trans; [apply b_add; [apply Rabs_le; split; [instantiate (1 := 16 / 100000); lra|lra]|repeat bd]|lra].
Qed.

Lemma phS_derive t : is_derive phS t (phS' t).
Proof. apply (cphi_derive eS gS); apply qd_derive. Qed.
Lemma rS_derive t : Rabs t <= 10 -> is_derive rS t (rS' t).
Proof.
  intros T. unfold rS, rS'. pose proof (psi_den (eS t) (fS t) (e_bound t T)) as D.
  pose proof (tsum_derive rows_r t) as PR. fold prS in PR. change (fun t => tsum (lin t) rows_r) with prS in PR.
  assert (F : is_derive fS t (gS' t + phS' t)).
  { apply @is_derive_plus with (f := gS) (g := phS); [apply qd_derive|apply phS_derive]. }
  assert (P : is_derive (fun t => psi (eS t) (fS t)) t (psS' t)).
  { apply psi_derive; [apply qd_derive|exact F|lra]. }
  set (ps := fun t => psi (eS t) (fS t)) in *.
  assert (X : is_derive (fun t => ps t * (1 + prS t)) t (psS' t * (1 + prS t) + ps t * tder t rows_r)).
  { auto_derive; [split; [exists (psS' t); exact P|split; [exists (tder t rows_r); exact PR|exact I]]|]. derives. ring. }
  exact X.
Qed.
Lemma lS_derive t : is_derive lS t (lS' t).
Proof.
  unfold lS, lS'. pose proof (tsum_derive rows_l t) as PL. pose proof (sec_derive t) as SD. pose proof (phS_derive t) as PD.
  pose proof (qd_derive (row3 dcfel 0) t) as QD.
  apply @is_derive_plus with (f := fun t => qd (row3 dcfel 0) t + phS t) (g := plS).
  - apply @is_derive_plus with (f := qd (row3 dcfel 0)) (g := phS); assumption.
  - apply @is_derive_plus with (f := sec_of (fun x => x)) (g := fun t => tsum (lin t) rows_l); assumption.
Qed.

(** ** The code *)
Lemma cphi_near e g g' d : Rabs e <= 172 / 10000 -> 0 <= d -> anear d g g' -> Rabs (cphi e g - cphi e g') <= 4 / 100 * d.
Proof.
  intros E D A. pose proof (anear_sin _ _ _ A) as A1. pose proof (anear_add _ _ _ _ _ _ A A) as B2. pose proof (anear_sin _ _ _ B2) as A2.
  pose proof (anear_add _ _ _ _ _ _ A B2) as B3. pose proof (anear_sin _ _ _ B3) as A3.
  unfold cphi.
  match goal with |- Rabs (?k * (?a * ?s1 + ?b * ?s2 + ?c * ?s3) - ?k * (?a * ?t1 + ?b * ?t2 + ?c * ?t3)) <= _ =>
    set (x1 := s1) in *; set (x2 := s2) in *; set (x3 := s3) in *; set (y1 := t1) in *; set (y2 := t2) in *; set (y3 := t3) in *;
    replace (k * (a * x1 + b * x2 + c * x3) - k * (a * y1 + b * y2 + c * y3)) with (k * (a * (x1 - y1) + b * (x2 - y2) + c * (x3 - y3))) by ring end.
  bnd.
Qed.
Lemma psi_near e f f' d : Rabs e <= 172 / 10000 -> 0 <= d -> anear d f f' -> Rabs (psi e f - psi e f') <= 2 / 100 * d.
Proof.
  intros E D A. pose proof (anear_cos _ _ _ A) as C. pose proof (psi_inv e f E) as I. pose proof (psi_inv e f' E) as I'.
  assert (Q : Rabs (1 - e * e) <= 1). { apply ab in E. apply Rabs_le. nra. }
  destruct (psi_den e f E). destruct (psi_den e f' E). unfold psi.
  replace ((1 - e * e) / (1 + e * cos f) - (1 - e * e) / (1 + e * cos f')) with
    (- ((1 - e * e) * (e * (cos f - cos f')) * (/ (1 + e * cos f) * / (1 + e * cos f')))) by (field; lra).
  bnd.
Qed.
Lemma cphid_near e f f' d : Rabs e <= 172 / 10000 -> 0 <= d -> anear d f f' -> Rabs (cphid e f - cphid e f') <= 4 / 100 * d.
Proof.
  intros E D A. pose proof (anear_cos _ _ _ A) as C. pose proof (anear_sin _ _ _ A) as S.
  unfold cphid. replace ((e + e) * ((1 + e * e * (15 / 10)) * cos f + e * (125 / 100 - sin f * sin f * (5 / 10))) -
    (e + e) * ((1 + e * e * (15 / 10)) * cos f' + e * (125 / 100 - sin f' * sin f' * (5 / 10)))) with
    ((e + e) * ((1 + e * e * (15 / 10)) * (cos f - cos f') - e * ((sin f - sin f') * (sin f + sin f') * (5 / 10)))) by ring.
  bnd.
Qed.

Section Emb.
Context (t : R) (T : Rabs t <= 10).
Let b := evp_emb (N := RNum) t.
Let gh : R := forbel (N := RNum) t 0.
Let fh : R := gh + cphi (eS t) gh.
Let prh : R := tsum (hat t) rows_r.
Let prdh : R := trate (hat t) rows_r.
Let plh : R := sec_of (fun x => Rfmod x (6283185 / 1000000)) t + tsum (hat t) rows_l.
Let pldh : R := trate (hat t) rows_l.
Let SGD : R := 1990969 / 10000000000000.
Let SLD : R := 1990987 / 10000000000000.

Lemma emb_R : emb_r b = psi (eS t) fh * (1 + prh) /\
  emb_l b = Rfmod (evp_dml (N := RNum) t + cphi (eS t) gh + plh) (evp_2pi (N := RNum)) /\
  emb_rd b = (1 + prh) * (SGD * eS t * sin fh / sqrt (1 - eS t * eS t) + psi (eS t) fh * prdh) /\
  emb_rld b = (1 + prh) * psi (eS t) fh * (SLD + SGD * cphid (eS t) fh + pldh).
Proof.
  unfold b, evp_emb. rewrite pert_R, secular_R. cbn [emb_r emb_l emb_rd emb_rld].
  rewrite (slow_id 0 t T) by lia. fold (eS t). fold gh.
  unfold evp_sgd, evp_sld. unR. decs. fold prh. fold pldh. fold prdh. fold plh. fold SGD. fold SLD.
  replace ((eS t + eS t) * ((1 - eS t * eS t * (125 / 1000)) * sin gh + eS t * (625 / 1000) * sin (gh + gh) +
                       eS t * eS t * (54166667 / 100000000) * sin (gh + (gh + gh)))) with (cphi (eS t) gh) by reflexivity.
  fold fh. repeat split.
  unfold cphid. replace (SLD + SGD * ((eS t + eS t) * ((1 + eS t * eS t * (15 / 10)) * cos fh + eS t * (125 / 100 - sin fh * sin fh * (5 / 10)))) + pldh)
    with (SLD + (eS t + eS t) * SGD * ((1 + eS t * eS t * (15 / 10)) * cos fh + eS t * (125 / 100 - sin fh * sin fh * (5 / 10))) + pldh) by ring.
  reflexivity.
Qed.
Lemma gh_near : anear 2.1e-10 gh (gS t).
Proof. apply (fast_near 0 t T). lia. Qed.
Lemma fh_near : anear 2.3e-10 fh (fS t).
Proof.
  eapply anear_weak; [apply anear_add; [apply gh_near|apply anear_abs, (cphi_near _ _ _ 2.1e-10 (e_bound t T)); [lra|apply gh_near]]|]. lra.
Qed.
Lemma psih_near : Rabs (psi (eS t) fh - psi (eS t) (fS t)) <= 5e-12.
Proof. eapply Rle_trans; [apply (psi_near _ _ _ 2.3e-10 (e_bound t T)); [lra|apply fh_near]|]. lra. Qed.
Lemma emb_r_near : Rabs (emb_r b - rS t) <= 1e-11.
Proof.
  destruct emb_R as (E & _). rewrite E. unfold rS. pose proof psih_near as A. pose proof (near_r t T) as B. fold prh in B. fold (prS t) in B.
  pose proof (amp_r (hat t)) as C. fold prh in C. pose proof (psi_bound (eS t) (fS t) (e_bound t T)) as D.
  set (p := psi (eS t) fh) in *. set (p' := psi (eS t) (fS t)) in *.
  replace (p * (1 + prh) - p' * (1 + prS t)) with ((p - p') * (1 + prh) + p' * (prh - prS t)) by ring. bnd.
Qed.
Lemma emb_l_near : anear 1e-9 (emb_l b) (lS t).
Proof.
  destruct emb_R as (_ & E & _). rewrite E. unfold lS.
  assert (PL : Rabs (plh - plS t) <= 5.1e-10).
  { unfold plh, plS. pose proof (sec_near t T) as A. pose proof (near_l t T) as B.
    match goal with |- Rabs (?p + ?q - (?r + ?s)) <= _ => replace (p + q - (r + s)) with ((p - r) + (q - s)) by ring end. bnd. }
  assert (PB : Rabs plh <= 3e-4).
  { replace plh with ((plh - plS t) + plS t) by ring. pose proof (amp_l (lin t)) as A. pose proof (sec_bound t T) as B. unfold plS at 2. bnd. }
  pose proof (cphi_near _ _ _ 2.1e-10 (e_bound t T) ltac:(lra) gh_near) as PH. fold (phS t) in PH.
  pose proof (mean_near t T) as ML.
  assert (MB : Rabs (evp_dml (N := RNum) t) <= 6.3).
  { unfold evp_dml, element. destruct (row3 dcfel 0) as [[c0 c1] c2]. unR.
    match goal with |- Rabs (Rfmod ?x ?m) <= _ => destruct (Rfmod_range x m) as [R1 R2]; [change (0 < evp_2pi (N := RNum)); rewrite two_pi; lra|];
      change m with (evp_2pi (N := RNum)) in *; rewrite two_pi in *; apply Rabs_le; destruct (Rle_dec 0 x) as [P|P]; [specialize (R1 P)|specialize (R2 ltac:(lra))]; lra end. }
  pose proof (cphi_bound (eS t) gh (e_bound t T)) as CB.
  eapply anear_weak; [eapply anear_trans; [apply (reduced _ 7); [bnd|lra]|]|].
  - apply anear_add; [apply anear_add; [exact ML|apply anear_abs; exact PH]|apply anear_abs; exact PL].
  - lra.
Qed.
Lemma emb_rd_near : Rabs (SC * emb_rd b - rS' t) <= 11 / 10000.
Proof.
  destruct emb_R as (_ & _ & E & _). rewrite E. unfold rS'.
  pose proof psih_near as A. pose proof (near_r t T) as B. fold prh in B. fold (prS t) in B.
  pose proof (amp_r (hat t)) as C. fold prh in C. pose proof (amp_r (lin t)) as C'. fold (prS t) in C'.
  pose proof (psi_bound (eS t) (fS t) (e_bound t T)) as D.
  pose proof (radial_rate (eS t) (eS' t) (gS t) (gS' t) (e_bound t T) (e'_bound t T) (g'_bound t T)) as RR.
  cbv zeta in RR. fold (phS t) in RR. fold (fS t) in RR. fold (phS' t) in RR. fold (psS' t) in RR.
  pose proof (anear_sin _ _ _ fh_near) as SF. pose proof (rated_r t) as TD. pose proof (ratenear_r t T) as TN. fold prdh in TN.
  pose proof (ratea_r (hat t)) as TB. fold prdh in TB.
  assert (Q : Rabs (/ sqrt (1 - eS t * eS t)) <= 1.01).
  { pose proof (root (eS t) (e_bound t T)) as R1. pose proof (e_bound t T) as EB.
    replace (/ sqrt (1 - eS t * eS t)) with ((/ sqrt (1 - eS t * eS t) - (1 + eS t * eS t / 2)) + (1 + eS t * eS t / 2)) by ring. bnd. }
  pose proof (e_bound t T) as EB.
  assert (N : NC = SC * SGD) by (unfold NC, SGD; ring).
  assert (NB : Rabs NC <= 629) by (unfold NC; bnd).
  unfold Rdiv in RR |- *. set (q := / sqrt (1 - eS t * eS t)) in *. set (p := psi (eS t) fh) in *. set (p' := psi (eS t) (fS t)) in *.
  set (dd := tder t rows_r) in *. set (w := trate (lin t) rows_r) in *.
  replace (SC * ((1 + prh) * (SGD * eS t * sin fh * q + p * prdh)) - (psS' t * (1 + prS t) + p' * dd)) with
    ((1 + prh) * (NC * eS t * (sin fh - sin (fS t)) * q) - (1 + prh) * (psS' t - NC * eS t * sin (fS t) * q)
     + (prh - prS t) * ((psS' t - NC * eS t * sin (fS t) * q) + NC * eS t * sin (fS t) * q)
     + (p - p') * (SC * prdh) + p * prh * (SC * prdh) + p' * (SC * (prdh - w)) - p' * (dd - SC * w)) by (rewrite N; ring).
  assert (PB : Rabs p <= 1.02) by (replace p with ((p - p') + p') by ring; bnd).
  bnd.
Qed.
Lemma emb_rld_near : Rabs (SC * emb_rld b - rS t * (lS' t - OM)) <= 69 / 10000.
Proof.
  destruct emb_R as (E0 & _ & _ & E). pose proof emb_r_near as RN. rewrite E0 in RN.
  replace (emb_rld b) with ((psi (eS t) fh * (1 + prh)) * (SLD + SGD * cphid (eS t) fh + pldh)) by (rewrite E; ring).
  unfold lS'. 
  pose proof (centre_rate2 (eS t) (eS' t) (gS t) (gS' t) (e_bound t T) (e'_bound t T) (g'_bound t T)) as RR.
  fold (phS t) in RR. fold (fS t) in RR. fold (phS' t) in RR.
  pose proof (cphid_near _ _ _ 2.3e-10 (e_bound t T) ltac:(lra) fh_near) as CN.
  pose proof (cphid_bound (eS t) fh (e_bound t T)) as CB. pose proof (rated_l t) as TD. pose proof (ratenear_l t T) as TN. fold pldh in TN.
  pose proof (ratea_l (hat t)) as TB. fold pldh in TB. pose proof (l'_bound t T) as LB. fold SLD in LB. pose proof (sec'_bound t T) as SB.
  assert (N : NC = SC * SGD) by (unfold NC, SGD; ring).
  assert (NB : Rabs NC <= 629) by (unfold NC; bnd). assert (SL : Rabs SLD <= 2e-7) by (unfold SLD; bnd).
  pose proof (psi_bound (eS t) (fS t) (e_bound t T)) as D. pose proof (amp_r (lin t)) as C'. fold (prS t) in C'.
  assert (RB : Rabs (rS t) <= 1019 / 1000) by (unfold rS; bnd).
  set (r := psi (eS t) fh * (1 + prh)) in *. set (dd := tder t rows_l) in *. set (w := trate (lin t) rows_l) in *. set (m := qd' (row3 dcfel 0) t) in *.
  replace (SC * (r * (SLD + SGD * cphid (eS t) fh + pldh)) - rS t * (m + phS' t + (sec' t + dd) - OM)) with
    ((r - rS t) * (SC * SLD + NC * cphid (eS t) fh + SC * pldh) + rS t * (NC * (cphid (eS t) fh - cphid (eS t) (fS t)))
     - rS t * ((m - OM - SC * SLD) + (phS' t - NC * cphid (eS t) (fS t)) + sec' t + (dd - SC * w) - SC * (pldh - w))) by (rewrite N; ring).
  bnd.
Qed.
End Emb.
