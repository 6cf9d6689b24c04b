(** Specification vocabulary for the observatory table. *)
From Coq Require Import ZArith String Ascii List Reals.
Import ListNotations.
Open Scope R_scope.
Local Open Scope string_scope.

(** [p] is the beginning of [s]. *)
Definition starts_with (p s : string) : Prop := exists rest, s = p ++ rest.

(** Identifiers are written in capitals, digits and full stops. *)
Definition id_char (c : ascii) : bool :=
  let n := nat_of_ascii c in
  (Nat.leb 65 n && Nat.leb n 90) || (Nat.leb 48 n && Nat.leb n 57) || Nat.eqb n 46.

(** Degrees, minutes and seconds of arc as radians. *)
Definition dms (d m : Z) (s : R) : R := (IZR d + IZR m / 60 + s / 3600) * PI / 180.

(** Stations that share a site. *)
Definition sites : list (list string) :=
  [ ["AAT"; "ANU2.3"; "UKST"];
    ["LPO4.2"; "LPO2.5"; "LPO1"];
    ["MMT"; "MTHOP1.5"];
    ["DUPONT"; "MAGELLAN1"; "MAGELLAN2"];
    ["GBVA140"; "GBVA300"];
    ["TOLOLO4M"; "TOLOLO1.5M"];
    ["KPNO158"; "KPNO90"; "KPNO84"; "KPNO36FT"; "STEWARD90"];
    ["ESO3.6"; "ESONTT"; "ESOSCHM"];
    ["MAUNAK88"; "UKIRT"; "JCMT"; "KECK1"; "KECK2"; "SUBARU"; "CFHT"; "GEMININ"; "IRTF"; "CSO"];
    ["MCDONLD2.7"; "MCDONLD2.1"];
    ["PALOMAR200"; "PALOMAR60"; "PALOMAR48"];
    ["HPROV1.93"; "HPROV1.52"];
    ["TAUTNBG"; "TAUTSCHM"];
    ["CAMB5KM"; "CAMB1MILE"];
    ["VLT1"; "VLT2"; "VLT3"; "VLT4"] ].
Definition same_site (a b : string) : Prop := exists s, In s sites /\ In a s /\ In b s.
