(** Property C48: the observatory table.  Specification in S_Obs.v; proofs in
    L_Obs.v.  The first five hold in any arithmetic. *)
From Coq Require Import ZArith String Ascii List Reals Lra Lia.
From Verif Require Import Num NumR M_Obs S_Obs L_Obs.
Import ListNotations.
Open Scope R_scope.
Local Open Scope string_scope.

(** C48.  A number from 0 to 84 selects that entry, whatever the identifier. *)
Theorem C48_number : forall (N : Num) n id, (0 <= n < 85)%Z ->
  exists p, nth_error (observatories (N := N)) (Z.to_nat n) = Some p /\ obs (N := N) n id = (true, p).
Proof. exact (fun N => obs_number (N := N)). Qed.
Print Assumptions C48_number.

(** A number from 85 on, or a null identifier when the number is negative, is
    answered by false, "?" and zeros, so counting up ends. *)
Theorem C48_exhausted : forall N : Num,
  let none := (false, Obs (N := N) "?" "?" (n_ofZ 0) (n_ofZ 0) (n_ofZ 0)) in
  (forall n id, (85 <= n)%Z -> obs n id = none) /\ (forall n, (n < 0)%Z -> obs n None = none).
Proof. exact (fun N => conj (obs_beyond (N := N)) (obs_null (N := N))). Qed.
Print Assumptions C48_exhausted.

(** With a negative number, the station returned is the first whose identifier
    starts with the one given, ... *)
Theorem C48_identifier : forall (N : Num) n id (p : observatory (N := N)), (n < 0)%Z ->
  (forall c, In c (list_ascii_of_string id) -> c <> zero) ->
  obs n (Some id) = (true, p) <->
  exists before after, observatories = (before ++ p :: after)%list /\ starts_with id (o_id p) /\
    forall q, In q before -> ~ starts_with id (o_id q).
Proof. exact (fun N => obs_found (N := N)). Qed.
Print Assumptions C48_identifier.

(** ... and if there is none the answer is false, "?" and zeros. *)
Theorem C48_no_match : forall (N : Num) n id, (n < 0)%Z -> (forall c, In c (list_ascii_of_string id) -> c <> zero) ->
  (forall q : observatory (N := N), In q observatories -> ~ starts_with id (o_id q)) ->
  obs (N := N) n (Some id) = (false, Obs "?" "?" (n_ofZ 0) (n_ofZ 0) (n_ofZ 0)).
Proof. exact (fun N => obs_unknown (N := N)). Qed.
Print Assumptions C48_no_match.

Example C48_no_match_example : forall q : observatory (N := RNum), In q observatories -> ~ starts_with "aat" (o_id q).
Proof.
  apply search_none; [|reflexivity]. intros c. cbn. intros [<-|[<-|[<-|[]]]]; discriminate.
Qed.

(** The full identifier of a station selects that station. *)
Theorem C48_own_identifier : forall (N : Num) n i p, (n < 0)%Z -> obs (N := N) i None = (true, p) ->
  obs n (Some (o_id p)) = (true, p).
Proof. exact (fun N => obs_own (N := N)). Qed.
Print Assumptions C48_own_identifier.

Example C48_partial_example : o_id (snd (obs (N := RNum) (-1) (Some "LPO"))) = "LPO4.2" /\
  o_id (snd (obs (N := RNum) (-1) (Some ""))) = "AAT" /\ o_id (snd (obs (N := RNum) 1 None)) = "LPO4.2".
Proof. repeat split. Qed.

(** Identifiers have at most ten characters, capitals, digits or full stops;
    names at most forty. *)
Theorem C48_text : forall (N : Num) n id (p : observatory (N := N)), obs n id = (true, p) ->
  (0 < String.length (o_id p) <= 10)%nat /\ (0 < String.length (o_name p) <= 40)%nat /\
  forallb id_char (list_ascii_of_string (o_id p)) = true.
Proof. exact (fun N => obs_text (N := N)). Qed.
Print Assumptions C48_text.

(** Longitude and latitude are whole degrees, minutes and a number of seconds,
    in radians, below 180 and 90 degrees; the height is between 0 and 6 km. *)
Theorem C48_coordinates : forall n id (p : observatory (N := RNum)), obs n id = (true, p) ->
  (exists d m s, (0 <= d < 180)%Z /\ (0 <= m < 60)%Z /\ 0 <= s < 60 /\ Rabs (Rabs (o_long p) - dms d m s) <= 1 / 10 ^ 17) /\
  (exists d m s, (0 <= d < 90)%Z /\ (0 <= m < 60)%Z /\ 0 <= s < 60 /\ Rabs (Rabs (o_lat p) - dms d m s) <= 1 / 10 ^ 17) /\
  0 <= o_height p <= 6000.
Proof. exact obs_coords. Qed.
Print Assumptions C48_coordinates.

(** Two stations on one site lie within about an arcminute and 270 metres. *)
Theorem C48_sites : forall n m idn idm (p q : observatory (N := RNum)), obs n idn = (true, p) -> obs m idm = (true, q) ->
  same_site (o_id p) (o_id q) ->
  Rabs (o_long p - o_long q) <= 0.0003 /\ Rabs (o_lat p - o_lat q) <= 0.0003 /\ Rabs (o_height p - o_height q) <= 270.
Proof. exact obs_site. Qed.
Print Assumptions C48_sites.

Example C48_sites_example : same_site "LPO4.2" "LPO1".
Proof. exists ["LPO4.2"; "LPO2.5"; "LPO1"]. repeat split; cbn; auto. Qed.
