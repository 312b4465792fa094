(** Independent description of the lines of 'mpcorb.dat' and 'astorb.dat'.  Nothing here refers to the model of
    mpcorb.cpp. *)
From Coq Require Import QArith Qreals Reals String.
From Verif Require Import CBase CStr TstrSpec DtSpec EopSpec CtimeSpec DateSpec.
Import ListNotations.
Local Open Scope string_scope.
Local Open Scope list_scope.
Local Open Scope Z_scope.

(** 0 to 61 in one character: 0-9, A-Z, a-z *)
Definition packed (n : Z) : Z := if n <? 10 then 48 + n else if n <? 36 then 65 + (n - 10) else 97 + (n - 36).
(** Packed dates: the century in one character, the year within it in two digits, month and day in one character each *)
Definition packed_date (y m d : Z) : list Z := [packed (y / 100); 48 + y mod 100 / 10; 48 + y mod 10; packed m; packed d].

(** What an orbit line says: magnitude and slope, if it has them; angles in degrees; distances in astronomical units *)
Record entry := mk_entry { H_mag : option Q; G_slope : option Q; e_year : Z; e_month : Z; e_day : Z;
  anomaly : Q; peri : Q; node : Q; inclination : Q; eccentricity : Q; axis : Q }.

(** A magnitude in five columns, its point in the third; or blanks *)
Definition magnitude (t : list Z) (v : option Q) : Prop :=
  match v with Some q => field 5 t q /\ nth 2 t 0 = 46 | None => t = zs "     " end.

(** Columns 1-7 the designation; 9-13 H; 15-19 G; 21-25 the packed date of the epoch; 27-35 the mean anomaly; 38-46,
    49-57 and 60-68 argument of perihelion, node and inclination; 71-79 the eccentricity; 81-91 the mean motion;
    93-103 the semimajor axis; more after that *)
Definition mpcorb_line (o : entry) (t : list Z) : Prop :=
  (200 < List.length t)%nat /\ exists p h g M w W i e n a r,
    t = p ++ h ++ [32] ++ g ++ [32] ++ packed_date (e_year o) (e_month o) (e_day o) ++ [32] ++ M ++ zs "  " ++ w ++ zs "  " ++
        W ++ zs "  " ++ i ++ zs "  " ++ e ++ [32] ++ n ++ [32] ++ a ++ [32] ++ r /\
    List.length p = 8%nat /\ magnitude h (H_mag o) /\ magnitude g (G_slope o) /\
    field 9 M (anomaly o) /\ nth 3 M 0 = 46 /\ field 9 w (peri o) /\ field 9 W (node o) /\ field 9 i (inclination o) /\
    field 9 e (eccentricity o) /\ List.length n = 11%nat /\ nth 2 n 0 = 46 /\ field 11 a (axis o).

(** A number of [k] / 10^[p] with [p] decimals, at the right of [w] columns *)
Definition decimal (w p : nat) (t : list Z) (k : Z) : Prop :=
  0 <= k < 10 ^ 9 /\ t = repeat 32 (w - List.length (fixed_text p k)) ++ fixed_text p k /\ List.length t = w.
Definition over (k : Z) (p : Z) : Q := (inject_Z k / inject_Z (10 ^ p))%Q.

(** [c] is the digit before the point of the eccentricity.  Columns 43-47 H; 49-53 G (both numbers, with blanks around them, are enough); 107-114 the date of the epoch,
    YYYYMMDD; 116-125, 127-136, 138-147 and 149-157 mean anomaly, argument of perihelion, node and inclination in
    millionths of a degree; 159-168 the eccentricity, eight decimals; 170-181 the semimajor axis; more after that *)
Definition astorb_line_from (c : Z) (o : entry) (t : list Z) : Prop :=
  (267 < List.length t)%nat /\ exists p h g f kM kw kW ki ke M w W i e a r H G,
    t = p ++ [32] ++ h ++ [32] ++ g ++ [32] ++ f ++ ndig 8 (e_year o * 10000 + e_month o * 100 + e_day o) ++ [32] ++
        M ++ [32] ++ w ++ [32] ++ W ++ [32] ++ i ++ [32] ++ [c; 46] ++ e ++ [32] ++ a ++ [32] ++ r /\
    List.length p = 41%nat /\ field 5 h H /\ field 5 g G /\ H_mag o = Some H /\ G_slope o = Some G /\
    List.length f = 52%nat /\
    decimal 10 6 M kM /\ decimal 10 6 w kw /\ decimal 10 6 W kW /\ decimal 9 6 i ki /\
    e = ndig 8 ke /\ 0 <= ke < 10 ^ 8 /\ field 12 a (axis o) /\
    anomaly o = over kM 6 /\ peri o = over kw 6 /\ node o = over kW 6 /\ inclination o = over ki 6 /\ eccentricity o = over ke 8.

Definition astorb_line : entry -> list Z -> Prop := astorb_line_from 48.

Definition rad (q : Q) : R := (Q2R q * PI / 180)%R.
(** Gauss's constant, squared: the mass of the Sun *)
Definition sun : R := ((1720209895 / 10 ^ 11) * (1720209895 / 10 ^ 11))%R.
(** Radians a day *)
Definition daily_motion (a : R) : R := sqrt (sun / (a * a * a)).
