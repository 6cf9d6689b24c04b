(** Proofs about obs. *)
From Coq Require Import ZArith String Ascii List Reals Lra Lia Bool.
From Verif Require Import Num NumR L_Pi L_Frame L_Site M_Obs S_Obs.
Import ListNotations.
Open Scope R_scope.
Local Open Scope string_scope.

Section Any.
Context {N : Num}.

Lemma strncmp_prefix id s : (forall c, In c (list_ascii_of_string id) -> c <> zero) ->
  strncmp_eq id s (String.length id) = true <-> starts_with id s.
Proof.
  revert s. induction id as [|c id IH]; intros s NZ; cbn.
  - split; [intros _; exists s; reflexivity|reflexivity].
  - assert (C : c <> zero) by (apply NZ; left; reflexivity).
    assert (NZ' : forall c, In c (list_ascii_of_string id) -> c <> zero) by (intros d D; apply NZ; right; exact D).
    destruct s as [|d s].
    + destruct (Ascii.eqb_spec c zero); [contradiction|]. split; [discriminate|]. intros [r E]. discriminate.
    + destruct (Ascii.eqb_spec c d) as [->|D].
      * rewrite (IH s NZ'). split; intros [r E]; exists r.
        -- rewrite E. reflexivity.
        -- injection E as E. exact E.
      * split; [discriminate|]. intros [r E]. injection E as E _. congruence.
Qed.

Lemma search_some id table (p : observatory (N := N)) : (forall c, In c (list_ascii_of_string id) -> c <> zero) ->
  search id table = Some p <->
  exists before after, table = (before ++ p :: after)%list /\ starts_with id (o_id p) /\
    forall q, In q before -> ~ starts_with id (o_id q).
Proof.
  intros NZ. induction table as [|q table IH]; cbn.
  - split; [discriminate|]. intros ([|] & after & E & _); discriminate.
  - destruct (strncmp_eq id (o_id q) (String.length id)) eqn:E.
    + apply strncmp_prefix in E; [|exact NZ]. split.
      * intros [= <-]. exists [], table. repeat split; [exact E|]. intros r [].
      * intros ([|b before] & after & T & P & B); injection T as T1 T2; subst; [reflexivity|].
        exfalso. apply (B b); [left; reflexivity|exact E].
    + assert (E' : ~ starts_with id (o_id q)) by (intros F; apply strncmp_prefix in F; [congruence|exact NZ]).
      rewrite IH. split.
      * intros (before & after & T & P & B). exists (q :: before), after. subst. repeat split; [exact P|].
        intros r [<-|R]; [exact E'|apply B, R].
      * intros ([|b before] & after & T & P & B); injection T as T1 T2; subst; [contradiction|].
        exists before, after. repeat split; [exact P|]. intros r R. apply B. right. exact R.
Qed.
Lemma search_none id (table : list (observatory (N := N))) : (forall c, In c (list_ascii_of_string id) -> c <> zero) ->
  search id table = None <-> forall q, In q table -> ~ starts_with id (o_id q).
Proof.
  intros NZ. induction table as [|q table IH]; cbn; [split; [intros _ q []|reflexivity]|].
  destruct (strncmp_eq id (o_id q) (String.length id)) eqn:E.
  - apply strncmp_prefix in E; [|exact NZ]. split; [discriminate|]. intros H. exfalso. apply (H q); [left; reflexivity|exact E].
  - assert (E' : ~ starts_with id (o_id q)) by (intros F; apply strncmp_prefix in F; [congruence|exact NZ]).
    rewrite IH. split.
    + intros H r [<-|R]; [exact E'|apply H, R].
    + intros H r R. apply H. right. exact R.
Qed.

Definition unknown : observatory (N := N) := Obs "?" "?" (n_ofZ 0) (n_ofZ 0) (n_ofZ 0).
Lemma obs_eta (p : observatory (N := N)) : Obs (o_id p) (o_name p) (o_long p) (o_lat p) (o_height p) = p.
Proof. destruct p. reflexivity. Qed.
Lemma table_length : List.length (observatories (N := N)) = 85%nat.
Proof. reflexivity. Qed.

Lemma obs_number n id : (0 <= n < 85)%Z ->
  exists p, nth_error (observatories (N := N)) (Z.to_nat n) = Some p /\ obs (N := N) n id = (true, p).
Proof.
  intros H. destruct (nth_error (observatories (N := N)) (Z.to_nat n)) as [p|] eqn:E.
  - exists p. split; [reflexivity|]. unfold obs. destruct (Z.leb_spec 0 n); [|lia]. destruct (Z.ltb_spec n 85); [|lia].
    rewrite E, obs_eta. reflexivity.
  - exfalso. apply nth_error_None in E. rewrite table_length in E. lia.
Qed.
Lemma obs_beyond n id : (85 <= n)%Z -> obs n id = (false, unknown).
Proof. intros H. unfold obs. destruct (Z.leb_spec 0 n); [|lia]. destruct (Z.ltb_spec n 85); [lia|]. reflexivity. Qed.
Lemma obs_null n : (n < 0)%Z -> obs n None = (false, unknown).
Proof. intros H. unfold obs. destruct (Z.leb_spec 0 n); [lia|]. reflexivity. Qed.

Lemma obs_found n id (p : observatory (N := N)) : (n < 0)%Z -> (forall c, In c (list_ascii_of_string id) -> c <> zero) ->
  obs n (Some id) = (true, p) <->
  exists before after, observatories = (before ++ p :: after)%list /\ starts_with id (o_id p) /\
    forall q, In q before -> ~ starts_with id (o_id q).
Proof.
  intros H NZ. rewrite <- search_some by exact NZ. unfold obs. destruct (Z.leb_spec 0 n); [lia|].
  destruct (search id observatories) as [q|].
  - rewrite obs_eta. split; intros E; injection E as E; subst; reflexivity.
  - split; discriminate.
Qed.
Lemma obs_unknown n id : (n < 0)%Z -> (forall c, In c (list_ascii_of_string id) -> c <> zero) ->
  (forall q : observatory (N := N), In q observatories -> ~ starts_with id (o_id q)) ->
  obs n (Some id) = (false, unknown).
Proof.
  intros H NZ Q. apply search_none in Q; [|exact NZ]. unfold obs. destruct (Z.leb_spec 0 n); [lia|]. rewrite Q. reflexivity.
Qed.

Lemma own_ids : forall i p, nth_error (observatories (N := N)) i = Some p -> search (o_id p) observatories = Some p.
Proof.
  intros i p H. assert (L : (i < 85)%nat) by (rewrite <- table_length; apply nth_error_Some; congruence).
  do 85 (destruct i as [|i]; [injection H as <-; reflexivity|]). lia.
Qed.
Lemma obs_own n i p : (n < 0)%Z -> obs (N := N) i None = (true, p) -> obs n (Some (o_id p)) = (true, p).
Proof.
  intros H E. unfold obs in E. destruct (Z.leb_spec 0 i); [|discriminate]. destruct (Z.ltb_spec i 85); [|discriminate].
  destruct (nth_error observatories (Z.to_nat i)) as [q|] eqn:Q; [|discriminate]. rewrite obs_eta in E. injection E as ->.
  unfold obs. destruct (Z.leb_spec 0 n); [lia|]. rewrite (own_ids _ _ Q), obs_eta. reflexivity.
Qed.

Lemma obs_in (n : Z) id (p : observatory (N := N)) : obs n id = (true, p) -> In p observatories.
Proof.
  unfold obs. destruct (Z.leb_spec 0 n).
  - destruct (n <? 85)%Z; [|discriminate]. destruct (nth_error observatories (Z.to_nat n)) as [q|] eqn:E; [|discriminate].
    rewrite obs_eta. intros [= <-]. apply nth_error_In in E. exact E.
  - destruct id as [id|]; [|discriminate]. destruct (search id observatories) as [q|] eqn:E; [|discriminate].
    rewrite obs_eta. intros [= <-]. revert E. generalize (observatories (N := N)). induction l as [|r l IH]; cbn; [discriminate|].
    destruct (strncmp_eq id (o_id r) (String.length id)); [intros [= <-]; left; reflexivity|intros; right; apply IH; assumption].
Qed.

Lemma obs_text n id (p : observatory (N := N)) : obs n id = (true, p) ->
  (0 < String.length (o_id p) <= 10)%nat /\ (0 < String.length (o_name p) <= 40)%nat /\
  forallb id_char (list_ascii_of_string (o_id p)) = true.
Proof.
  intros H. apply obs_in in H. revert p H. apply Forall_forall.
  assert (A : forallb (fun p => (Nat.leb 1 (String.length (o_id p)) && Nat.leb (String.length (o_id p)) 10) &&
     (Nat.leb 1 (String.length (o_name p)) && Nat.leb (String.length (o_name p)) 40) &&
     forallb id_char (list_ascii_of_string (o_id p))) (observatories (N := N)) = true) by reflexivity.
  rewrite forallb_forall in A. apply Forall_forall. intros p P. specialize (A p P).
  apply andb_true_iff in A. destruct A as [A C]. apply andb_true_iff in A. destruct A as [A B].
  apply andb_true_iff in A. apply andb_true_iff in B. destruct A as [A1 A2], B as [B1 B2].
  apply Nat.leb_le in A1, A2, B1, B2. repeat split; assumption || lia.
Qed.
End Any.

Lemma arcsec_near d m s : (0 <= d <= 180)%Z -> (0 <= m < 60)%Z -> 0 <= s < 60 ->
  Rabs (west (N := RNum) d m s - dms d m s) <= 1 / 10 ^ 17.
Proof.
  intros D M S. unfold west, dms. unR. decs. rewrite !mult_IZR, plus_IZR, mult_IZR.
  assert (D' : 0 <= IZR d <= 180) by (split; apply IZR_le; lia). assert (M' : 0 <= IZR m <= 59) by (split; apply IZR_le; lia).
  pose proof PI_bounds as P. set (x := 60 * (60 * IZR d + IZR m) + s).
  assert (X : 0 <= x <= 651600) by (unfold x; lra).
  replace ((IZR d + IZR m / 60 + s / 3600) * PI / 180) with (x * (PI / 648000)) by (unfold x; field).
  assert (Q : Rabs (484813681109535994 / 100000000000000000000000 - PI / 648000) <= 1 / 10 ^ 23) by (apply Rabs_le; lra).
  replace (484813681109535994 / 100000000000000000000000 * x - x * (PI / 648000)) with ((484813681109535994 / 100000000000000000000000 - PI / 648000) * x) by ring.
  rewrite Rabs_mult. apply Rle_trans with (1 / 10 ^ 23 * 651600); [|lra].
  apply Rmult_le_compat; try apply Rabs_pos; [exact Q|rewrite Rabs_pos_eq; lra].
Qed.

(** A coordinate given by degrees, minutes and seconds of arc. *)
Definition given (top : Z) (x : R) : Prop := exists d m s, (0 <= d < top)%Z /\ (0 <= m < 60)%Z /\ 0 <= s < 60 /\ Rabs (Rabs x - dms d m s) <= 1 / 10 ^ 17.
Lemma west_nonneg (d m : Z) (s : R) : (0 <= d)%Z -> (0 <= m)%Z -> 0 <= s -> 0 <= west (N := RNum) d m s.
Proof.
  intros D M S. unfold west. unR. apply Rmult_le_pos; [decs; lra|]. apply Rplus_le_le_0_compat; [|exact S]. apply IZR_le. lia.
Qed.
Lemma given_pos top (d m : Z) (s : R) x : (top <= 180)%Z -> (0 <= d < top)%Z -> (0 <= m < 60)%Z -> 0 <= s < 60 ->
  x = west (N := RNum) d m s \/ x = - west (N := RNum) d m s -> given top x.
Proof.
  intros T D M S X. exists d, m, s. repeat split; try lia; try lra.
  assert (W : 0 <= west (N := RNum) d m s) by (apply west_nonneg; lia || lra).
  replace (Rabs x) with (west (N := RNum) d m s).
  - apply arcsec_near; lia || lra.
  - destruct X as [->| ->]; [|rewrite Rabs_Ropp]; symmetry; apply Rabs_pos_eq; exact W.
Qed.
Lemma given_dms (top e m : Z) x : forall z, (top <= 180)%Z -> (0 <= e < top)%Z -> (0 <= m < 60)%Z -> 0 <= @n_lit RNum z x < 60 ->
  given top (west (N := RNum) e m (n_lit z x)) /\ given top (@n_opp RNum (west (N := RNum) e m (n_lit z x))).
Proof.
  intros z T E M S. split; eapply given_pos; try eassumption; [left; reflexivity|right; reflexivity].
Qed.

Lemma coords : Forall (fun p : observatory (N := RNum) => given 180 (o_long p) /\ given 90 (o_lat p) /\ 0 <= o_height p <= 6000) observatories.
Proof.
  unfold observatories. unfold east, north, south.
  repeat (apply Forall_cons; [cbn [o_long o_lat o_height]; split; [|split];
    [eapply given_dms; try lia; unR; decs; lra|eapply given_dms; try lia; unR; decs; lra|unR; decs; lra]|]).
  apply Forall_nil.
Qed.

(** * Stations on one site *)
Definition centres : list (list string * (Z * Z * Z)) :=
  ([ (["AAT"; "ANU2.3"; "UKST"], ((-536637), (-112591), (1154)));
    (["LPO4.2"; "LPO2.5"; "LPO1"], ((64367), (103541), (2348)));
    (["MMT"; "MTHOP1.5"], ((399172), (114066), (2476)));
    (["DUPONT"; "MAGELLAN1"; "MAGELLAN2"], ((254510), (-104431), (2344)));
    (["GBVA140"; "GBVA300"], ((287433), (138361), (888)));
    (["TOLOLO4M"; "TOLOLO1.5M"], ((254934), (-108597), (2230)));
    (["KPNO158"; "KPNO90"; "KPNO84"; "KPNO36FT"; "STEWARD90"], ((401781), (115051), (2030)));
    (["ESO3.6"; "ESONTT"; "ESOSCHM"], ((254607), (-105331), (2388)));
    (["MAUNAK88"; "UKIRT"; "JCMT"; "KECK1"; "KECK2"; "SUBARU"; "CFHT"; "GEMININ"; "IRTF"; "CSO"], ((559703), (71368), (4147)));
    (["MCDONLD2.7"; "MCDONLD2.1"], ((374479), (110418), (2075)));
    (["PALOMAR200"; "PALOMAR60"; "PALOMAR48"], ((420700), (120071), (1706)));
    (["HPROV1.93"; "HPROV1.52"], ((-20565), (158157), (666)));
    (["TAUTNBG"; "TAUTSCHM"], ((-42165), (183531), (331)));
    (["CAMB5KM"; "CAMB1MILE"], ((-149), (187800), (17)));
    (["VLT1"; "VLT2"; "VLT3"; "VLT4"], ((253450), (-88652), (2635))) ])%Z.
Lemma centres_sites : map fst centres = sites.
Proof. reflexivity. Qed.
Definition centre (a : string) : option (Z * Z * Z) :=
  option_map snd (find (fun s => existsb (String.eqb a) (fst s)) centres).
Lemma centre_site : Forall (fun s => Forall (fun a => centre a = Some (snd s)) (fst s)) centres.
Proof. repeat (apply Forall_cons; [repeat (apply Forall_cons; [reflexivity|]); apply Forall_nil|]). apply Forall_nil. Qed.

Definition close (p : observatory (N := RNum)) (c : option (Z * Z * Z)) : Prop :=
  match c with
  | None => True
  | Some (x, y, h) => Rabs (o_long p - 4.848136811 / 10 ^ 6 * IZR x) <= 0.00015 /\
                      Rabs (o_lat p - 4.848136811 / 10 ^ 6 * IZR y) <= 0.00015 /\ Rabs (o_height p - IZR h) <= 135
  end.
Ltac close_tac := first [exact I | unfold close; cbn [o_long o_lat o_height]; unfold east, north, south, west; repeat split; unR; decs;
  rewrite ?mult_IZR, ?plus_IZR, ?mult_IZR; apply Rabs_le; split; lra].
Lemma close_all : Forall (fun p => close p (centre (o_id p))) observatories.
Proof.
  unfold observatories.
  repeat (apply Forall_cons; [cbn [o_id];
    match goal with |- close _ ?c => let v := eval vm_compute in c in change c with v end; close_tac|]).
  apply Forall_nil.
Qed.
Lemma abs_between x e : Rabs x <= e -> - e <= x <= e.
Proof. unfold Rabs. destruct (Rcase_abs x); lra. Qed.
Lemma obs_site n m idn idm (p q : observatory (N := RNum)) : obs n idn = (true, p) -> obs m idm = (true, q) -> same_site (o_id p) (o_id q) ->
  Rabs (o_long p - o_long q) <= 0.0003 /\ Rabs (o_lat p - o_lat q) <= 0.0003 /\ Rabs (o_height p - o_height q) <= 270.
Proof.
  intros P Q (s & S & A & B). apply obs_in in P. apply obs_in in Q.
  rewrite <- centres_sites in S. apply in_map_iff in S. destruct S as (s' & <- & S).
  pose proof (proj1 (Forall_forall _ _) centre_site s' S) as C. rewrite Forall_forall in C.
  pose proof (proj1 (Forall_forall _ _) close_all p P) as CP. pose proof (proj1 (Forall_forall _ _) close_all q Q) as CQ.
  cbv beta in CP, CQ. rewrite (C _ A) in CP. rewrite (C _ B) in CQ. destruct (snd s') as [[x y] h]. unfold close in CP, CQ.
  destruct CP as (P1 & P2 & P3), CQ as (Q1 & Q2 & Q3).
  apply abs_between in P1. apply abs_between in P2. apply abs_between in P3.
  apply abs_between in Q1. apply abs_between in Q2. apply abs_between in Q3.
  repeat split; apply Rabs_le; lra.
Qed.

Lemma obs_coords n id (p : observatory (N := RNum)) : obs n id = (true, p) ->
  (exists d m s, (0 <= d < 180)%Z /\ (0 <= m < 60)%Z /\ 0 <= s < 60 /\ Rabs (Rabs (o_long p) - dms d m s) <= 1 / 10 ^ 17) /\
  (exists d m s, (0 <= d < 90)%Z /\ (0 <= m < 60)%Z /\ 0 <= s < 60 /\ Rabs (Rabs (o_lat p) - dms d m s) <= 1 / 10 ^ 17) /\
  0 <= o_height p <= 6000.
Proof. intros H. apply obs_in in H. exact (proj1 (Forall_forall _ _) coords p H). Qed.
