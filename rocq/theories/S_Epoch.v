(** Independent specification of epochs, TAI-UTC, sidereal time and the
    historical ET-UT estimate. *)
From Coq Require Import Reals ZArith List Ascii.
From Verif Require Import S_Calendar S_Frame.
Import ListNotations.
Open Scope R_scope.

(** Besselian epoch (Lieske 1979). *)
Definition besselian_year (mjd : R) : R := 1900 + (mjd - 15019.81352) / 365.242198781.
(** Documented designations of the two kinds of epoch. *)
Definition besselian (c : ascii) : Prop := c = "B"%char \/ c = "b"%char.
Definition julian (c : ascii) : Prop := c = "J"%char \/ c = "j"%char.

(** The days from which each leap second since 1972 January 1 counts
    (IERS/IETF leap-seconds list), with their Modified Julian Dates. *)
Definition leap_seconds : list (date * Z) :=
  [(Dt 1972 7 1, 41499); (Dt 1973 1 1, 41683); (Dt 1974 1 1, 42048); (Dt 1975 1 1, 42413); (Dt 1976 1 1, 42778);
   (Dt 1977 1 1, 43144); (Dt 1978 1 1, 43509); (Dt 1979 1 1, 43874); (Dt 1980 1 1, 44239); (Dt 1981 7 1, 44786);
   (Dt 1982 7 1, 45151); (Dt 1983 7 1, 45516); (Dt 1985 7 1, 46247); (Dt 1988 1 1, 47161); (Dt 1990 1 1, 47892);
   (Dt 1991 1 1, 48257); (Dt 1992 7 1, 48804); (Dt 1993 7 1, 49169); (Dt 1994 7 1, 49534); (Dt 1996 1 1, 50083);
   (Dt 1997 7 1, 50630); (Dt 1999 1 1, 51179); (Dt 2006 1 1, 53736); (Dt 2009 1 1, 54832); (Dt 2012 7 1, 56109);
   (Dt 2015 7 1, 57204); (Dt 2017 1 1, 57754)]%Z.
Definition begun (utc : R) (p : date * Z) : bool := if Rle_dec (IZR (snd p)) utc then true else false.
Definition leaps_by (utc : R) : nat := length (filter (begun utc) leap_seconds).

(** TAI-UTC before 1972: offset + (MJD - reference) x rate from each starting
    day (USNO tai-utc.dat, and the Explanatory Supplement for 1960). *)
Record segment := Seg { sg_from : date; sg_mjd : Z; sg_off : R; sg_ref : R; sg_rate : R }.
Definition segments : list segment :=
  [Seg (Dt 1961 1 1) 37300 1.4228180 37300 0.001296; Seg (Dt 1961 8 1) 37512 1.3728180 37300 0.001296;
   Seg (Dt 1962 1 1) 37665 1.8458580 37665 0.0011232; Seg (Dt 1963 11 1) 38334 1.9458580 37665 0.0011232;
   Seg (Dt 1964 1 1) 38395 3.2401300 38761 0.001296; Seg (Dt 1964 4 1) 38486 3.3401300 38761 0.001296;
   Seg (Dt 1964 9 1) 38639 3.4401300 38761 0.001296; Seg (Dt 1965 1 1) 38761 3.5401300 38761 0.001296;
   Seg (Dt 1965 3 1) 38820 3.6401300 38761 0.001296; Seg (Dt 1965 7 1) 38942 3.7401300 38761 0.001296;
   Seg (Dt 1965 9 1) 39004 3.8401300 38761 0.001296; Seg (Dt 1966 1 1) 39126 4.3131700 39126 0.002592;
   Seg (Dt 1968 2 1) 39887 4.2131700 39126 0.002592].
Definition seg_1960 : segment := Seg (Dt 1960 1 1) 36934 1.417818 37300 0.001296.
Definition seg_value (s : segment) (utc : R) : R := sg_off s + (utc - sg_ref s) * sg_rate s.
(** The segment in force: the last to have begun, or that of 1960. *)
Fixpoint in_force (utc : R) (cur : segment) (l : list segment) : segment :=
  match l with
  | [] => cur
  | s :: l => if Rle_dec (IZR (sg_mjd s)) utc then in_force utc s l else cur
  end.

(** IAU 1982 Greenwich mean sidereal time, radians, as a function of UT1 (MJD):
    the UT itself plus the drift of sidereal time against it. *)
Definition iau1982_gmst (ut1 : R) : R :=
  let T := centuries_J2000 ut1 in
  2 * PI * ut1 + (24110.54841 + 8640184.812866 * T + 0.093104 * T ^ 2 - 0.0000062 * T ^ 3) * (2 * PI / 86400).
(** Two angles that differ by whole turns, to within [e]. *)
Definition same_turn (e a b : R) : Prop := exists k : Z, Rabs (a - b - IZR k * (2 * PI)) <= e.

(** IAU 1994 equation of the equinoxes from the nutation in longitude and the
    mean obliquity; [om] is the longitude of the lunar node. *)
Definition lunar_node (T : R) : R := (450160.280 - (5 * 1296000 + 482890.539) * T + 7.455 * T ^ 2 + 0.008 * T ^ 3) * arcsec.
Definition equation_of_equinoxes (psi eps0 T : R) : R :=
  psi * cos eps0 + (0.00264 * sin (lunar_node T) + 0.000063 * sin (2 * lunar_node T)) * arcsec.

(** ET-UT parabolas, seconds (Explanatory Supplement 2.553). *)
Definition stephenson_morrison_390BC (y : R) : R := let c := (y - 1800) / 100 in 1360 + 320 * c + 44.3 * c ^ 2.
Definition stephenson_morrison_948 (y : R) : R := 25.5 * ((y - 1800) / 100) ^ 2.
Definition mccarthy_babcock (y : R) : R := 5.156 + 13.3066 * ((y - 1819) / 100) ^ 2.
