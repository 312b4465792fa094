(** Independent description of TD - UT, of TD - UTC and of strings of formulae for TD - UT.
    Nothing here refers to the model of delta_t.cpp. *)
From Coq Require Import QArith Reals String.
From Verif Require Import CBase CStr TstrSpec.
Local Open Scope string_scope.
Local Open Scope list_scope.
Local Open Scope Z_scope.

(** Julian years from the Julian date *)
Definition year_of (jd : Q) : Q := (2000 + (jd - 2451545) / (36525 # 100))%Q.

(** TD - UT in hundredths of a second at the start of every second year: the year of the first value of each row *)
Definition rows : list (Z * list Z) :=
  [(1620, [12400; 11500; 10600; 9800; 9100; 8500; 7900; 7400; 7000; 6500]);
   (1640, [6200; 5800; 5500; 5300; 5000; 4800; 4600; 4400; 4200; 4000]);
   (1660, [3700; 3500; 3300; 3100; 2800; 2600; 2400; 2200; 2000; 1800]);
   (1680, [1600; 1400; 1300; 1200; 1100; 1000; 900; 900; 900; 900]);
   (1700, [900; 900; 900; 900; 1000; 1000; 1000; 1000; 1000; 1100]);
   (1720, [1100; 1100; 1100; 1100; 1100; 1100; 1100; 1200; 1200; 1200]);
   (1740, [1200; 1200; 1300; 1300; 1300; 1300; 1400; 1400; 1400; 1500]);
   (1760, [1500; 1500; 1500; 1600; 1600; 1600; 1600; 1600; 1700; 1700]);
   (1780, [1700; 1700; 1700; 1700; 1700; 1700; 1600; 1600; 1500; 1400]);
   (1800, [1370; 1310; 1270; 1250; 1250; 1250; 1250; 1250; 1250; 1230]);
   (1820, [1200; 1140; 1060; 960; 860; 750; 660; 600; 570; 560]);
   (1840, [570; 590; 620; 650; 680; 710; 730; 750; 770; 780]);
   (1860, [790; 750; 640; 540; 290; 160; -100; -270; -360; -470]);
   (1880, [-540; -520; -550; -560; -580; -590; -620; -640; -610; -470]);
   (1900, [-270; 0; 260; 540; 770; 1050; 1340; 1600; 1820; 2020]);
   (1920, [2120; 2240; 2350; 2390; 2430; 2400; 2390; 2390; 2370; 2400]);
   (1940, [2430; 2530; 2620; 2730; 2820; 2910; 3000; 3070; 3140; 3220]);
   (1960, [3310; 3400; 3500; 3650; 3830; 4020; 4220; 4450; 4650; 4850]);
   (1980, [5050; 5220; 5380; 5490; 5580; 5686; 5831; 5998; 6163; 6297]);
   (2000, [6383; 6430; 6457; 6485; 6546; 6607; 6660; 6728; 6810; 6897]);
   (2020, [6936; 6929; 6918])].
Definition observed (year value : Z) : Prop :=
  exists first values k, In (first, values) rows /\ nth_error values k = Some value /\ year = first + 2 * Z.of_nat k.

(** Polynomials *)
Fixpoint poly (l : list Q) (x : Q) : Q := match l with [] => 0 | c :: r => c + x * poly r x end.

(** TD - UT before the table: in each of these spans of years, a polynomial in the centuries from a year *)
Definition past_formulae : list (Q * Q * Q * list Q) :=
  [(- inject_Z (10 ^ 308), -500 # 1, 1820, [-20 # 1; 0; 32]);
   (-500 # 1, 500, 0, [105836 # 10; -101441 # 100; 3378311 # 100000; -5952053 # 1000000; -1798452 # 10000000; 22174192 # 1000000000; 90316521 # 10000000000]);
   (500, 1600, 1000, [15742 # 10; -55601 # 100; 7123472 # 100000; 319781 # 1000000; -8503463 # 10000000; -5050998 # 1000000000; 83572073 # 10000000000]);
   (1600, 1620, 1600, [120; -9808 # 100; -1532 # 10; 140272 # 1000])]%Q.

(** A formula of the user: "from,until:" then perhaps "o" and a year and a comma, then coefficients with commas between them *)
Record formula := { from : Q; until : Q; origin : option Q; coeffs : list Q }.
Definition signed_number (t : list Z) (q : Q) : Prop :=
  number_of t q \/ (exists n, t = 43 :: n /\ number_of n q) \/ (exists n q', t = 45 :: n /\ number_of n q' /\ q = (- q')%Q).
Inductive coeffs_text : list Q -> list Z -> Prop :=
| coeffs_one t q : signed_number t q -> coeffs_text [q] t
| coeffs_more t q l u : signed_number t q -> coeffs_text l u -> coeffs_text (q :: l) (t ++ zs "," ++ u).
Definition formula_text (p : formula) (t : list Z) : Prop :=
  exists a b o c, signed_number a (from p) /\ signed_number b (until p) /\ coeffs_text (coeffs p) c /\
    match origin p with None => o = [] | Some y => exists n, signed_number n y /\ o = zs "o" ++ n ++ zs "," end /\
    t = a ++ zs "," ++ b ++ zs ":" ++ o ++ c.
(** Formulae with semicolons between them *)
Inductive formulae_text : list formula -> list Z -> Prop :=
| formulae_one p t : formula_text p t -> formulae_text [p] t
| formulae_more p t ps u : formula_text p t -> formulae_text ps u -> formulae_text (p :: ps) (t ++ zs ";" ++ u).
Definition covers (year : Q) (p : formula) : Prop := (from p <= year /\ year < until p)%Q.
Definition formula_value (year : Q) (p : formula) : Q :=
  poly (coeffs p) ((year - match origin p with Some y => y | None => 2000 end) / 100)%Q.

(** TAI - UTC from 1961 to 1971 as published: from the first day of a month, [constant] plus [rate] per day since
    the modified Julian day [base].  The second date is that of the next entry. *)
Record drift := { month : Z; year : Z; next_month : Z; next_year : Z; constant : Q; base : Z; rate : Q }.
Definition drifts : list drift :=
  [Build_drift 1 1961 8 1961 (14228180 # 10000000) 37300 (1296 # 1000000);
   Build_drift 8 1961 1 1962 (13728180 # 10000000) 37300 (1296 # 1000000);
   Build_drift 1 1962 11 1963 (18458580 # 10000000) 37665 (11232 # 10000000);
   Build_drift 11 1963 1 1964 (19458580 # 10000000) 37665 (11232 # 10000000);
   Build_drift 1 1964 4 1964 (32401300 # 10000000) 38761 (1296 # 1000000);
   Build_drift 4 1964 9 1964 (33401300 # 10000000) 38761 (1296 # 1000000);
   Build_drift 9 1964 1 1965 (34401300 # 10000000) 38761 (1296 # 1000000);
   Build_drift 1 1965 3 1965 (35401300 # 10000000) 38761 (1296 # 1000000);
   Build_drift 3 1965 7 1965 (36401300 # 10000000) 38761 (1296 # 1000000);
   Build_drift 7 1965 9 1965 (37401300 # 10000000) 38761 (1296 # 1000000);
   Build_drift 9 1965 1 1966 (38401300 # 10000000) 38761 (1296 # 1000000);
   Build_drift 1 1966 2 1968 (43131700 # 10000000) 39126 (2592 # 1000000);
   Build_drift 2 1968 1 1972 (42131700 # 10000000) 39126 (2592 # 1000000)].
(** Modified Julian date from the Julian date *)
Definition mjd_of (jd : Q) : Q := (jd - (24000005 # 10))%Q.
