(** Models of epochs, time-scale offsets and sidereal time, over any [Num].
    Files are relative to /repo/src. *)
From Coq Require Import ZArith Bool Ascii.
From Verif Require Import Num M_Angle M_Nutc.
Open Scope num_scope.

Section Epoch.
Context {N : Num}.

(** epj.cc:33-35, epj2d.cc:33-35, epb.cc:33-35, epb2d.cc:33-35. *)
Definition epj (mjd : N) : N := #2000 + (mjd - n_lit 515445 (-1)) / n_lit 36525 (-2).
Definition epj2d (je : N) : N := n_lit 515445 (-1) + (je - #2000) * n_lit 36525 (-2).
Definition epb (mjd : N) : N := #1900 + (mjd - n_lit 1501981352 (-5)) / n_lit 365242198781 (-9).
Definition epb2d (be : N) : N := n_lit 1501981352 (-5) + (be - #1900) * n_lit 365242198781 (-9).

(** epco.cc:34-54. *)
Definition epco (result given : ascii) (epoch : N) : N :=
  let result := if Ascii.eqb result "b" then "B"%char else result in
  if (negb (Ascii.eqb result "B") && negb (Ascii.eqb result "J"))%bool then #0 else
  let given := if Ascii.eqb given "j" then "J"%char else given in
  if (negb (Ascii.eqb given "B") && negb (Ascii.eqb given "J"))%bool then #0 else
  if Ascii.eqb result given then epoch
  else if Ascii.eqb result "B" then epb (epj2d epoch)
  else epj (epb2d epoch).

(** dat.cc:65-158. *)
Definition dat (utc : N) : N :=
  if utc >=? #57754 then #37 else
  if utc >=? #57204 then #36 else
  if utc >=? #56109 then #35 else
  if utc >=? #54832 then #34 else
  if utc >=? #53736 then #33 else
  if utc >=? #51179 then #32 else
  if utc >=? #50630 then #31 else
  if utc >=? #50083 then #30 else
  if utc >=? #49534 then #29 else
  if utc >=? #49169 then #28 else
  if utc >=? #48804 then #27 else
  if utc >=? #48257 then #26 else
  if utc >=? #47892 then #25 else
  if utc >=? #47161 then #24 else
  if utc >=? #46247 then #23 else
  if utc >=? #45516 then #22 else
  if utc >=? #45151 then #21 else
  if utc >=? #44786 then #20 else
  if utc >=? #44239 then #19 else
  if utc >=? #43874 then #18 else
  if utc >=? #43509 then #17 else
  if utc >=? #43144 then #16 else
  if utc >=? #42778 then #15 else
  if utc >=? #42413 then #14 else
  if utc >=? #42048 then #13 else
  if utc >=? #41683 then #12 else
  if utc >=? #41499 then #11 else
  if utc >=? #41317 then #10 else
  if utc >=? #39887 then n_lit 421317 (-5) + (utc - #39126) * n_lit 2592 (-6) else
  if utc >=? #39126 then n_lit 431317 (-5) + (utc - #39126) * n_lit 2592 (-6) else
  if utc >=? #39004 then n_lit 384013 (-5) + (utc - #38761) * n_lit 1296 (-6) else
  if utc >=? #38942 then n_lit 374013 (-5) + (utc - #38761) * n_lit 1296 (-6) else
  if utc >=? #38820 then n_lit 364013 (-5) + (utc - #38761) * n_lit 1296 (-6) else
  if utc >=? #38761 then n_lit 354013 (-5) + (utc - #38761) * n_lit 1296 (-6) else
  if utc >=? #38639 then n_lit 344013 (-5) + (utc - #38761) * n_lit 1296 (-6) else
  if utc >=? #38486 then n_lit 334013 (-5) + (utc - #38761) * n_lit 1296 (-6) else
  if utc >=? #38395 then n_lit 324013 (-5) + (utc - #38761) * n_lit 1296 (-6) else
  if utc >=? #38334 then n_lit 1945858 (-6) + (utc - #37665) * n_lit 11232 (-7) else
  if utc >=? #37665 then n_lit 1845858 (-6) + (utc - #37665) * n_lit 11232 (-7) else
  if utc >=? #37512 then n_lit 1372818 (-6) + (utc - #37300) * n_lit 1296 (-6) else
  if utc >=? #37300 then n_lit 1422818 (-6) + (utc - #37300) * n_lit 1296 (-6) else
  n_lit 1417818 (-6) + (utc - #37300) * n_lit 1296 (-6).

(** dtt.cc:36-38. *)
Definition dtt (utc : N) : N := n_lit 32184 (-3) + dat utc.

(** dt.cc:48-64. *)
Definition dt (epoch : N) : N :=
  let centuries := (epoch - #1800) / #100 in
  if epoch >=? n_lit 1708185161980887 (-12) then
    let w := centuries - n_lit 19 (-2) in n_lit 5156 (-3) + n_lit 133066 (-4) * w * w
  else if epoch >=? n_lit 9790258204760233 (-13) then n_lit 255 (-1) * centuries * centuries
  else #1360 + (#320 + n_lit 443 (-1) * centuries) * centuries.

(** gmst.cc:41-53.  The literal 7.272205216643039903848711535369e-5, the seconds
    to radians factor, is pi/43200 to the digits given; it is kept as a
    literal. *)
Definition gmst (ut1 : N) : N :=
  let s2r := n_lit 7272205216643039903848711535369 (-35) in
  let jc := (ut1 - n_lit 515445 (-1)) / #36525 in
  dranrm (n_fmod ut1 #1 * n_2pi +
    (n_lit 2411054841 (-5) + (n_lit 8640184812866 (-6) + (n_lit 93104 (-6) - n_lit 62 (-7) * jc) * jc) * jc) * s2r).

(** gmsta.cc:51-69. *)
Definition gmsta (date fdate : N) : N :=
  let s2r := n_lit 7272205216643039903848712 (-29) in
  let less := date <? fdate in
  let d1 := if less then date else fdate in
  let d2 := if less then fdate else date in
  let jc := (d1 + (d2 - n_lit 515445 (-1))) / #36525 in
  dranrm (s2r * (n_lit 2411054841 (-5) + (n_lit 8640184812866 (-6) +
    (n_lit 93104 (-6) - n_lit 62 (-7) * jc) * jc) * jc + #86400 * (n_fmod d1 #1 + n_fmod d2 #1))).

(** eqeqx.cc:34-52. *)
Definition eqeqx (date : N) : N :=
  let turns2as := #1296000 in
  let as2r := n_lit 484813681109535994 (-23) in
  let t := (date - n_lit 515445 (-1)) / #36525 in
  let om := as2r * (n_lit 45016028 (-2) + (#(-5) * turns2as - n_lit 482890539 (-3) +
              (n_lit 7455 (-3) + n_lit 8 (-3) * t) * t) * t) in
  let '(psi, eps, eps0) := nutc date in
  psi * n_cos eps0 + as2r * (n_lit 264 (-5) * n_sin om + n_lit 63 (-6) * n_sin (om + om)).

End Epoch.
