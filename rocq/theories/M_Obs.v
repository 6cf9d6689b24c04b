(** Model of obs.cc: the table of observing stations and its search.
    Generated by tools/gen_obs.py from /repo/src/obs.cc. *)
From Coq Require Import ZArith String Ascii List.
From Verif Require Import Num.
Import ListNotations.
Open Scope num_scope.
Local Open Scope string_scope.

Section Obs.
Context {N : Num}.

(** slalib.h:248-254. *)
Record observatory := Obs { o_id : string; o_name : string; o_long : N; o_lat : N; o_height : N }.

(** obs.cc:49-52: the lambda [west]. *)
Definition west (degrees arcmins : Z) (arcsecs : N) : N :=
  n_lit 484813681109535994 (-23) * (n_ofZ (60 * (60 * degrees + arcmins)) + arcsecs).
(** obs.cc:53-55. *)
Definition north (degrees arcmins : Z) (arcsecs : N) : N := west degrees arcmins arcsecs.
(** obs.cc:56-58. *)
Definition east (degrees arcmins : Z) (arcsecs : N) : N := - west degrees arcmins arcsecs.
(** obs.cc:59-61. *)
Definition south (degrees arcmins : Z) (arcsecs : N) : N := - west degrees arcmins arcsecs.

(** obs.cc:64-235. *)
Definition observatories : list observatory :=
  (* obs.cc:66 *) Obs "AAT" "Anglo-Australian 3.9m Telescope" (east 149 3 (n_lit 5791 (-2))) (south 31 16 (n_lit 3734 (-2))) (n_lit 1164 0) ::
  (* obs.cc:68 *) Obs "LPO4.2" "William Herschel 4.2m Telescope" (west 17 52 (n_lit 539 (-1))) (north 28 45 (n_lit 381 (-1))) (n_lit 2332 0) ::
  (* obs.cc:70 *) Obs "LPO2.5" "Isaac Newton 2.5m Telescope" (west 17 52 (n_lit 395 (-1))) (north 28 45 (n_lit 432 (-1))) (n_lit 2336 0) ::
  (* obs.cc:72 *) Obs "LPO1" "Jacobus Kapteyn 1m Telescope" (west 17 52 (n_lit 412 (-1))) (north 28 45 (n_lit 399 (-1))) (n_lit 2364 0) ::
  (* obs.cc:74 *) Obs "LICK120" "Lick 120 inch" (west 121 38 (n_lit 13689 (-3))) (north 37 20 (n_lit 34931 (-3))) (n_lit 1286 0) ::
  (* obs.cc:76 *) Obs "MMT" "MMT 6.5m, Mt Hopkins" (west 110 53 (n_lit 44 (-1))) (north 31 41 (n_lit 196 (-1))) (n_lit 2608 0) ::
  (* obs.cc:78 *) Obs "DAO72" "DAO Victoria BC 1.85 metre" (west 123 25 (n_lit 118 (-2))) (north 48 31 (n_lit 119 (-1))) (n_lit 238 0) ::
  (* obs.cc:80 *) Obs "DUPONT" "Du Pont 2.5m Telescope, Las Campanas" (west 70 42 (n_lit 9 0)) (south 29 0 (n_lit 11 0)) (n_lit 2280 0) ::
  (* obs.cc:82 *) Obs "MTHOP1.5" "Mt Hopkins 1.5 metre" (west 110 52 (n_lit 39 0)) (north 31 40 (n_lit 514 (-1))) (n_lit 2344 0) ::
  (* obs.cc:84 *) Obs "STROMLO74" "Mount Stromlo 74 inch" (east 149 0 (n_lit 2759 (-2))) (south 35 19 (n_lit 143 (-1))) (n_lit 767 0) ::
  (* obs.cc:86 *) Obs "ANU2.3" "Siding Spring 2.3 metre" (east 149 3 (n_lit 403 (-1))) (south 31 16 (n_lit 241 (-1))) (n_lit 1149 0) ::
  (* obs.cc:88 *) Obs "GBVA140" "Greenbank 140 foot" (west 79 50 (n_lit 961 (-2))) (north 38 26 (n_lit 154 (-1))) (n_lit 881 0) ::
  (* obs.cc:90 *) Obs "TOLOLO4M" "Cerro Tololo 4 metre" (west 70 48 (n_lit 536 (-1))) (south 30 9 (n_lit 578 (-1))) (n_lit 2235 0) ::
  (* obs.cc:92 *) Obs "TOLOLO1.5M" "Cerro Tololo 1.5 metre" (west 70 48 (n_lit 545 (-1))) (south 30 9 (n_lit 563 (-1))) (n_lit 2225 0) ::
  (* obs.cc:94 *) Obs "TIDBINBLA" "Tidbinbilla 64 metre" (east 148 58 (n_lit 482 (-1))) (south 35 24 (n_lit 143 (-1))) (n_lit 670 0) ::
  (* obs.cc:96 *) Obs "BLOEMF" "Bloemfontein 1.52 metre" (east 26 24 (n_lit 18 0)) (south 29 2 (n_lit 18 0)) (n_lit 1387 0) ::
  (* obs.cc:98 *) Obs "BOSQALEGRE" "Bosque Alegre 1.54 metre" (west 64 32 (n_lit 48 0)) (south 31 35 (n_lit 53 0)) (n_lit 1250 0) ::
  (* obs.cc:100 *) Obs "FLAGSTF61" "USNO 61 inch astrograph, Flagstaff" (west 111 44 (n_lit 236 (-1))) (north 35 11 (n_lit 25 (-1))) (n_lit 2316 0) ::
  (* obs.cc:102 *) Obs "LOWELL72" "Perkins 72 inch, Lowell" (west 111 32 (n_lit 93 (-1))) (north 35 5 (n_lit 486 (-1))) (n_lit 2198 0) ::
  (* obs.cc:104 *) Obs "HARVARD" "Harvard College Observatory 1.55m" (west 71 33 (n_lit 2932 (-2))) (north 42 30 (n_lit 19 0)) (n_lit 185 0) ::
  (* obs.cc:106 *) Obs "OKAYAMA" "Okayama 1.88 metre" (east 133 35 (n_lit 4729 (-2))) (north 34 34 (n_lit 261 (-1))) (n_lit 372 0) ::
  (* obs.cc:108 *) Obs "KPNO158" "Kitt Peak 158 inch" (west 111 35 (n_lit 5761 (-2))) (north 31 57 (n_lit 503 (-1))) (n_lit 2120 0) ::
  (* obs.cc:110 *) Obs "KPNO90" "Kitt Peak 90 inch" (west 111 35 (n_lit 5824 (-2))) (north 31 57 (n_lit 469 (-1))) (n_lit 2071 0) ::
  (* obs.cc:112 *) Obs "KPNO84" "Kitt Peak 84 inch" (west 111 35 (n_lit 5156 (-2))) (north 31 57 (n_lit 292 (-1))) (n_lit 2096 0) ::
  (* obs.cc:114 *) Obs "KPNO36FT" "Kitt Peak 36 foot" (west 111 36 (n_lit 5112 (-2))) (north 31 57 (n_lit 121 (-1))) (n_lit 1939 0) ::
  (* obs.cc:116 *) Obs "KOTTAMIA" "Kottamia 74 inch" (east 31 49 (n_lit 30 0)) (north 29 55 (n_lit 54 0)) (n_lit 476 0) ::
  (* obs.cc:118 *) Obs "ESO3.6" "ESO 3.6 metre" (west 70 43 (n_lit 36 0)) (south 29 15 (n_lit 36 0)) (n_lit 2428 0) ::
  (* obs.cc:120 *) Obs "MAUNAK88" "Mauna Kea 88 inch" (west 155 28 (n_lit 996 (-2))) (north 19 49 (n_lit 2277 (-2))) (n_lit 42136 (-1)) ::
  (* obs.cc:122 *) Obs "UKIRT" "UK Infra Red Telescope" (west 155 28 (n_lit 1318 (-2))) (north 19 49 (n_lit 2075 (-2))) (n_lit 41985 (-1)) ::
  (* obs.cc:124 *) Obs "QUEBEC1.6" "Quebec 1.6 metre" (west 71 9 (n_lit 97 (-1))) (north 45 27 (n_lit 206 (-1))) (n_lit 1114 0) ::
  (* obs.cc:126 *) Obs "MTEKAR" "Mt Ekar 1.82 metre" (east 11 34 (n_lit 15 0)) (north 45 50 (n_lit 48 0)) (n_lit 1365 0) ::
  (* obs.cc:128 *) Obs "MTLEMMON60" "Mt Lemmon 60 inch" (west 110 42 (n_lit 169 (-1))) (north 32 26 (n_lit 339 (-1))) (n_lit 2790 0) ::
  (* obs.cc:130 *) Obs "MCDONLD2.7" "McDonald 2.7 metre" (west 104 1 (n_lit 176 (-1))) (north 30 40 (n_lit 177 (-1))) (n_lit 2075 0) ::
  (* obs.cc:132 *) Obs "MCDONLD2.1" "McDonald 2.1 metre" (west 104 1 (n_lit 201 (-1))) (north 30 40 (n_lit 177 (-1))) (n_lit 2075 0) ::
  (* obs.cc:134 *) Obs "PALOMAR200" "Palomar 200 inch" (west 116 51 (n_lit 50 0)) (north 33 21 (n_lit 22 0)) (n_lit 1706 0) ::
  (* obs.cc:136 *) Obs "PALOMAR60" "Palomar 60 inch" (west 116 51 (n_lit 31 0)) (north 33 20 (n_lit 56 0)) (n_lit 1706 0) ::
  (* obs.cc:138 *) Obs "DUNLAP74" "David Dunlap 74 inch" (west 79 25 (n_lit 20 0)) (north 43 51 (n_lit 46 0)) (n_lit 244 0) ::
  (* obs.cc:140 *) Obs "HPROV1.93" "Haute Provence 1.93 metre" (east 5 42 (n_lit 4675 (-2))) (north 43 55 (n_lit 533 (-1))) (n_lit 665 0) ::
  (* obs.cc:142 *) Obs "HPROV1.52" "Haute Provence 1.52 metre" (east 5 42 (n_lit 4382 (-2))) (north 43 56 (n_lit 2 (-1))) (n_lit 667 0) ::
  (* obs.cc:144 *) Obs "SANPM83" "San Pedro Martir 83 inch" (west 115 27 (n_lit 47 0)) (north 31 2 (n_lit 38 0)) (n_lit 2830 0) ::
  (* obs.cc:146 *) Obs "SAAO74" "Sutherland 74 inch" (east 20 48 (n_lit 443 (-1))) (south 32 22 (n_lit 434 (-1))) (n_lit 1771 0) ::
  (* obs.cc:148 *) Obs "TAUTNBG" "Tautenburg 2 metre" (east 11 42 (n_lit 45 0)) (north 50 58 (n_lit 51 0)) (n_lit 331 0) ::
  (* obs.cc:150 *) Obs "CATALINA61" "Catalina 61 inch" (west 110 43 (n_lit 551 (-1))) (north 32 25 (n_lit 7 (-1))) (n_lit 2510 0) ::
  (* obs.cc:152 *) Obs "STEWARD90" "Steward 90 inch" (west 111 35 (n_lit 5824 (-2))) (north 31 57 (n_lit 469 (-1))) (n_lit 2071 0) ::
  (* obs.cc:154 *) Obs "USSR6" "USSR 6 metre" (east 41 26 (n_lit 30 0)) (north 43 39 (n_lit 12 0)) (n_lit 2100 0) ::
  (* obs.cc:156 *) Obs "ARECIBO" "Arecibo 1000 foot" (west 66 45 (n_lit 111 (-1))) (north 18 20 (n_lit 366 (-1))) (n_lit 496 0) ::
  (* obs.cc:158 *) Obs "CAMB5KM" "Cambridge 5km" (east 0 2 (n_lit 3723 (-2))) (north 52 10 (n_lit 122 (-1))) (n_lit 17 0) ::
  (* obs.cc:160 *) Obs "CAMB1MILE" "Cambridge 1 mile" (east 0 2 (n_lit 2164 (-2))) (north 52 9 (n_lit 473 (-1))) (n_lit 17 0) ::
  (* obs.cc:162 *) Obs "EFFELSBERG" "Effelsberg 100 metre" (east 6 53 (n_lit 15 (-1))) (north 50 31 (n_lit 286 (-1))) (n_lit 366 0) ::
  (* obs.cc:164 *) Obs "GBVA300" "Greenbank 300 foot" (west 79 50 (n_lit 5636 (-2))) (north 38 25 (n_lit 463 (-1))) (n_lit 894 0) ::
  (* obs.cc:166 *) Obs "JODRELL1" "Jodrell Bank 250 foot" (west 2 18 (n_lit 25 0)) (north 53 14 (n_lit 105 (-1))) (n_lit 78 0) ::
  (* obs.cc:168 *) Obs "PARKES" "Parkes 64 metre" (east 148 15 (n_lit 443591 (-4))) (south 32 59 (n_lit 598657 (-4))) (n_lit 39179 (-2)) ::
  (* obs.cc:170 *) Obs "VLA" "Very Large Array" (west 107 37 (n_lit 382 (-2))) (north 34 4 (n_lit 435 (-1))) (n_lit 2124 0) ::
  (* obs.cc:172 *) Obs "SUGARGROVE" "Sugar Grove 150 foot" (west 79 16 (n_lit 23 0)) (north 38 31 (n_lit 14 0)) (n_lit 705 0) ::
  (* obs.cc:174 *) Obs "USSR600" "USSR 600 foot" (east 41 35 (n_lit 255 (-1))) (north 43 49 (n_lit 32 0)) (n_lit 973 0) ::
  (* obs.cc:176 *) Obs "NOBEYAMA" "Nobeyama 45 metre" (east 138 29 (n_lit 12 0)) (north 35 56 (n_lit 19 0)) (n_lit 1350 0) ::
  (* obs.cc:178 *) Obs "JCMT" "JCMT 15 metre" (west 155 28 (n_lit 373 (-1))) (north 19 49 (n_lit 2222 (-2))) (n_lit 412475 (-2)) ::
  (* obs.cc:180 *) Obs "ESONTT" "ESO 3.5 metre NTT" (west 70 43 (n_lit 7 0)) (south 29 15 (n_lit 30 0)) (n_lit 2377 0) ::
  (* obs.cc:182 *) Obs "ST.ANDREWS" "St Andrews" (west 2 48 (n_lit 525 (-1))) (north 56 20 (n_lit 12 0)) (n_lit 30 0) ::
  (* obs.cc:184 *) Obs "APO3.5" "Apache Point 3.5m" (west 105 49 (n_lit 1156 (-2))) (north 32 46 (n_lit 4896 (-2))) (n_lit 2809 0) ::
  (* obs.cc:186 *) Obs "KECK1" "Keck 10m Telescope #1" (west 155 28 (n_lit 2899 (-2))) (north 19 49 (n_lit 3341 (-2))) (n_lit 4160 0) ::
  (* obs.cc:188 *) Obs "TAUTSCHM" "Tautenberg 1.34 metre Schmidt" (east 11 42 (n_lit 45 0)) (north 50 58 (n_lit 51 0)) (n_lit 331 0) ::
  (* obs.cc:190 *) Obs "PALOMAR48" "Palomar 48-inch Schmidt" (west 116 51 (n_lit 32 0)) (north 33 21 (n_lit 26 0)) (n_lit 1706 0) ::
  (* obs.cc:192 *) Obs "UKST" "UK 1.2 metre Schmidt, Siding Spring" (east 149 4 (n_lit 128 (-1))) (south 31 16 (n_lit 278 (-1))) (n_lit 1145 0) ::
  (* obs.cc:194 *) Obs "KISO" "Kiso 1.05 metre Schmidt, Japan" (east 137 37 (n_lit 422 (-1))) (north 35 47 (n_lit 387 (-1))) (n_lit 1130 0) ::
  (* obs.cc:196 *) Obs "ESOSCHM" "ESO 1 metre Schmidt, La Silla" (west 70 43 (n_lit 465 (-1))) (south 29 15 (n_lit 258 (-1))) (n_lit 2347 0) ::
  (* obs.cc:198 *) Obs "ATCA" "Australia Telescope Compact Array" (east 149 33 (n_lit 5 (-1))) (south 30 18 (n_lit 46385 (-3))) (n_lit 2369 (-1)) ::
  (* obs.cc:200 *) Obs "MOPRA" "ATNF Mopra Observatory" (east 149 5 (n_lit 58732 (-3))) (south 31 16 (n_lit 4451 (-3))) (n_lit 850 0) ::
  (* obs.cc:202 *) Obs "SUBARU" "Subaru 8m telescope" (west 155 28 (n_lit 3367 (-2))) (north 19 49 (n_lit 3181 (-2))) (n_lit 4163 0) ::
  (* obs.cc:204 *) Obs "CFHT" "Canada-France-Hawaii 3.6m Telescope" (west 155 28 (n_lit 795 (-2))) (north 19 49 (n_lit 3091 (-2))) (n_lit 42041 (-1)) ::
  (* obs.cc:206 *) Obs "KECK2" "Keck 10m Telescope #2" (west 155 28 (n_lit 2724 (-2))) (north 19 49 (n_lit 3562 (-2))) (n_lit 41596 (-1)) ::
  (* obs.cc:208 *) Obs "GEMININ" "Gemini North 8-m telescope" (west 155 28 (n_lit 857 (-2))) (north 19 49 (n_lit 2569 (-2))) (n_lit 42134 (-1)) ::
  (* obs.cc:210 *) Obs "FCRAO" "Five College Radio Astronomy Obs" (west 72 20 (n_lit 42 0)) (north 42 23 (n_lit 30 0)) (n_lit 314 0) ::
  (* obs.cc:212 *) Obs "IRTF" "NASA IR Telescope Facility, Mauna Kea" (west 155 28 (n_lit 192 (-1))) (north 19 49 (n_lit 3439 (-2))) (n_lit 41681 (-1)) ::
  (* obs.cc:214 *) Obs "CSO" "Caltech Sub-mm Observatory, Mauna Kea" (west 155 28 (n_lit 3179 (-2))) (north 19 49 (n_lit 2078 (-2))) (n_lit 4080 0) ::
  (* obs.cc:216 *) Obs "VLT1" "ESO VLT, Paranal, Chile: UT1" (west 70 24 (n_lit 11642 (-3))) (south 24 37 (n_lit 33117 (-3))) (n_lit 263543 (-2)) ::
  (* obs.cc:218 *) Obs "VLT2" "ESO VLT, Paranal, Chile: UT2" (west 70 24 (n_lit 10855 (-3))) (south 24 37 (n_lit 31465 (-3))) (n_lit 263543 (-2)) ::
  (* obs.cc:220 *) Obs "VLT3" "ESO VLT, Paranal, Chile: UT3" (west 70 24 (n_lit 9896 (-3))) (south 24 37 (n_lit 303 (-1))) (n_lit 263543 (-2)) ::
  (* obs.cc:222 *) Obs "VLT4" "ESO VLT, Paranal, Chile: UT4" (west 70 24 (n_lit 8 0)) (south 24 37 (n_lit 31 0)) (n_lit 263543 (-2)) ::
  (* obs.cc:224 *) Obs "GEMINIS" "Gemini South 8-m telescope" (west 70 44 (n_lit 115 (-1))) (south 30 14 (n_lit 267 (-1))) (n_lit 2738 0) ::
  (* obs.cc:226 *) Obs "KOSMA3M" "KOSMA 3m telescope, Gornergrat" (east 7 47 (n_lit 348 (-2))) (north 45 58 (n_lit 59772 (-3))) (n_lit 3141 0) ::
  (* obs.cc:228 *) Obs "MAGELLAN1" "Magellan 1, 6.5m, Las Campanas" (west 70 41 (n_lit 319 (-1))) (south 29 0 (n_lit 517 (-1))) (n_lit 2408 0) ::
  (* obs.cc:230 *) Obs "MAGELLAN2" "Magellan 2, 6.5m, Las Campanas" (west 70 41 (n_lit 335 (-1))) (south 29 0 (n_lit 503 (-1))) (n_lit 2408 0) ::
  (* obs.cc:232 *) Obs "APEX" "APEX 12m telescope, Llano de Chajnantor" (west 67 45 (n_lit 33 0)) (south 23 0 (n_lit 208 (-1))) (n_lit 5105 0) ::
  (* obs.cc:234 *) Obs "NANTEN2" "NANTEN2 4m telescope, Pampa la Bola" (west 67 42 (n_lit 8 0)) (south 22 57 (n_lit 47 0)) (n_lit 4865 0) :: nil.

(** std::strncmp(s, t, n) == 0 as used at obs.cc:248: characters up to the
    n-th are compared; a C string ends with NUL. *)
Fixpoint strncmp_eq (s t : string) (n : nat) : bool :=
  match n with
  | O => true
  | S n =>
    match s, t with
    | EmptyString, EmptyString => true
    | EmptyString, String d _ => Ascii.eqb Ascii.zero d
    | String c _, EmptyString => Ascii.eqb c Ascii.zero
    | String c s, String d t => if Ascii.eqb c d then strncmp_eq s t n else false
    end
  end.

(** obs.cc:244-252: the first entry that matches [id] in its first strlen(id)
    characters. *)
Fixpoint search (id : string) (table : list observatory) : option observatory :=
  match table with
  | [] => None
  | p :: table => if strncmp_eq id (o_id p) (String.length id) then Some p else search id table
  end.

(** obs.cc:47-268.  [id = None] is the null pointer.  The result is the return
    value and the contents of the returned structure. *)
Definition obs (n : Z) (id : option string) : bool * observatory :=
  let o :=
    if (0 <=? n)%Z then (if (n <? 85)%Z then nth_error observatories (Z.to_nat n) else None)
    else match id with None => None | Some id => search id observatories end in
  match o with
  | Some o => (true, Obs (o_id o) (o_name o) (o_long o) (o_lat o) (o_height o))
  | None => (false, Obs "?" "?" (n_ofZ 0) (n_ofZ 0) (n_ofZ 0))
  end.

End Obs.
