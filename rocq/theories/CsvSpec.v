(** Independent description of the tables of observations by Gaia, and of what is to be printed of them.  Nothing here
    refers to the model of csv2ades.c. *)
From Coq Require Import QArith String.
From Verif Require Import CBase CStr TstrSpec CospSpec CtimeSpec CtimeModel DateSpec.
Import ListNotations.
Local Open Scope string_scope.
Local Open Scope list_scope.
Local Open Scope Z_scope.

(** A line of a table: cells with commas between them. *)
Fixpoint with_commas (cells : list (list Z)) : list Z :=
  match cells with
  | [] => []
  | [c] => c
  | c :: r => c ++ [44] ++ with_commas r
  end.
Definition cell_text (c : list Z) : Prop := ~ In 44 c /\ ~ In 10 c /\ ~ In 0 c.
(** A line that fits in a buffer of 800 bytes. *)
Definition table_line (cells : list (list Z)) (line : list Z) : Prop :=
  Forall cell_text cells /\ line = with_commas cells ++ [10] /\ (List.length line <= 799)%nat.

Definition ends_in (s n : list Z) : Prop := exists p, n = p ++ s.
Definition has_in (s n : list Z) : Prop := exists p r, n = p ++ s ++ r.
(** Column [k], not the last one, is the first of which [P] is true. *)
Definition first_col (P : list Z -> Prop) (names : list (list Z)) (k : nat) : Prop :=
  (S k < List.length names)%nat /\ (exists n, nth_error names k = Some n /\ P n) /\
  forall j n, (j < k)%nat -> nth_error names j = Some n -> ~ P n.
(** The cell of a row in the first column whose name ends in (or has in it) [name]. *)
Definition under (name : string) (names row : list (list Z)) (c : list Z) : Prop :=
  exists k, first_col (ends_in (zs name)) names k /\ nth_error row k = Some c.
Definition under_part (name : string) (names row : list (list Z)) (c : list Z) : Prop :=
  exists k, first_col (has_in (zs name)) names k /\ nth_error row k = Some c.

(** Numbers: perhaps with a sign, decimals, an exponent; no more than [w] bytes. *)
Definition number_text (w : nat) (t : list Z) (q : Q) : Prop :=
  (List.length t <= w)%nat /\ exists s n r, t = s ++ n /\ numeral n r /\ ((s = [] \/ s = [43]) /\ q = r \/ s = [45] /\ q = (- r)%Q).

(** An observation.  The number as it is written, and its value; the place in astronomical units; the velocity in
    astronomical units a day; the time in days after 2010 January 1.0; the right ascension and declination in degrees; their
    errors in thousandths of an arcsecond; their correlation as it is written; the magnitude as it is written, the
    flux and its error. *)
Record gaia_obs := mk_obs { number : list Z; num : Z; place : Q * Q * Q; velocity : Q * Q * Q; days : Q; ra : Q; dec : Q; ra_err : Q; dec_err : Q;
  corr : list Z; phot : option (list Z * Q * Q) }.

(** A row says that. *)
Definition row_says (names row : list (list Z)) (o : gaia_obs) : Prop :=
  let '(x, y, z) := place o in let '(vx, vy, vz) := velocity o in
  let has w name q := exists c, under name names row c /\ number_text w c q in
  let has_part w name q := exists c, under_part name names row c /\ number_text w c q in
  List.length row = List.length names /\
  under "number_mp" names row (number o) /\ digits_of (number o) (num o) /\ (List.length (number o) <= 9)%nat /\
  has_part 29%nat "x_gaia_geocentric" x /\ has_part 29%nat "y_gaia_geocentric" y /\ has_part 29%nat "z_gaia_geocentric" z /\
  has_part 29%nat "vx_gaia_geocentric" vx /\ has_part 29%nat "vy_gaia_geocentric" vy /\ has_part 29%nat "vz_gaia_geocentric" vz /\
  has 89%nat "epoch_utc" (days o) /\ has 89%nat "ra" (ra o) /\ has 89%nat "dec" (dec o) /\
  has 89%nat "ra_error_random" (ra_err o) /\ has 89%nat "dec_error_random" (dec_err o) /\
  (exists c, under "ra_dec_correlation_random" names row c /\ corr o = firstn 10 c) /\
  match phot o with
  | Some (m, f, s) => (exists c, under "g_mag" names row c /\ m = firstn 9 c) /\ isdigit (nth 0 m 0) = true /\ has_part 89%nat "g_flux" f /\ has_part 89%nat "g_flux_error" s
  | None => (forall n, In n (removelast names) -> ~ ends_in (zs "g_mag") n) \/ exists c, under "g_mag" names row c /\ isdigit (nth 0 c 0) = false
  end.

(** A time as ADES has it: [k] milliseconds after 0h of a day *)
Definition iso_time (y m d k : Z) : list Z :=
  ndig 4 y ++ zs "-" ++ ndig 2 m ++ zs "-" ++ ndig 2 d ++ zs "T" ++
  ndig 2 (k / 3600000) ++ zs ":" ++ ndig 2 (k / 60000 mod 60) ++ zs ":" ++ ndig 2 (k / 1000 mod 60) ++ zs "." ++ ndig 3 (k mod 1000) ++ zs "Z".
(** The time printed is the last millisecond, but for a twentieth of one; [f] numbers the days. *)
Definition time_says (f : Z * Z * Z -> Z) (dy : Q) (t : list Z) : Prop :=
  exists y m d k, t = iso_time y m d k /\ valid gregorian (d, m, y) /\ 0 <= k < 86400000 /\
    let ms := ((dy + inject_Z 2455197 - inject_Z (f (d, m, y)) + 1) * inject_Z 86400000)%Q in
    (inject_Z k <= ms + (1 # 20))%Q /\ (ms + (1 # 20) < inject_Z (k + 1))%Q.

Definition line_of (tag : string) (text : list Z) : list Z := zs "    <" ++ zs tag ++ zs ">" ++ text ++ zs "</" ++ zs tag ++ zs ">" ++ [10].
Definition au : Q := 1495978707 # 10.
(** TCB to TDB *)
Definition km (q : Q) : Q := (q * au * (1 - (1550519768 # 100000000000000000)))%Q.
(** What is printed; [time] is the text of the time, [rms] of the error of a magnitude, from the error of the flux and the
    flux *)
Definition block (o : gaia_obs) (time : list Z) (rms : Q -> Q -> list Z) : list Z :=
  let '(x, y, z) := place o in let '(vx, vy, vz) := velocity o in
  zs "   <optical>" ++ [10] ++ line_of "permID" (number o) ++ line_of "mode" (zs "TDI") ++ line_of "stn" (zs "258") ++
  line_of "sys" (zs "ICRF_KM") ++ line_of "ctr" (zs "399") ++
  line_of "pos1" (fixed 4 (km x)) ++ line_of "pos2" (fixed 4 (km y)) ++ line_of "pos3" (fixed 4 (km z)) ++
  line_of "vel1" (fixed 10 (vx * au / 86400)) ++ line_of "vel2" (fixed 10 (vy * au / 86400)) ++ line_of "vel3" (fixed 10 (vz * au / 86400)) ++
  line_of "obsTime" time ++ line_of "ra" (fixed 9 (ra o)) ++ line_of "dec" (fixed 9 (dec o)) ++
  line_of "rmsRA" (fixed 5 (ra_err o / 1000)) ++ line_of "rmsDec" (fixed 5 (dec_err o / 1000)) ++ line_of "rmsCorr" (corr o) ++
  line_of "astCat" (zs "Gaia3") ++
  match phot o with
  | Some (m, f, s) => line_of "mag" m ++ line_of "rmsMag" (rms s f) ++ line_of "band" (zs "G") ++ line_of "photCat" (zs "Gaia2")
  | None => []
  end ++
  zs "   </optical>" ++ [10].

(** ---- files ---- *)
Definition starts (p s : list Z) : Prop := exists r, s = p ++ r.
(** A text is a number of lines, of at most 798 bytes and a line feed. *)
Definition text_line (t : list Z) : Prop := exists u, t = u ++ [10] /\ ~ In 10 u /\ (List.length u <= 798)%nat.
(** A file has these observations.  Lines that start with # do not count; one that starts with solution_id has the names of
    the columns ([names], those of the last such line). *)
Inductive file_has : list (list Z) -> list Z -> list gaia_obs -> Prop :=
| no_more names : file_has names [] []
| comment names u t l : text_line (35 :: u) -> file_has names t l -> file_has names ((35 :: u) ++ t) l
| column_names names new line t l : table_line new line -> starts (zs "solution_id") line -> file_has new t l -> file_has names (line ++ t) l
| observation names row line o t l : table_line names (with_commas names ++ [10]) -> table_line row line -> ~ starts [35] line -> ~ starts (zs "solution_id") line ->
    row_says names row o -> (-368000 <= days o)%Q -> (days o <= 2917000)%Q -> file_has names t l -> file_has names (line ++ t) (o :: l).
(** [out] shows the observations [l], in that order. *)
Definition prints (f : Z * Z * Z -> Z) (rms : Q -> Q -> list Z) (l : list gaia_obs) (out : list Z) : Prop :=
  exists bs, Forall2 (fun o b => exists t, time_says f (days o) t /\ b = block o t rms) l bs /\ out = concat bs.
Definition asked (low high : Z) (o : gaia_obs) : bool := (low <=? num o) && (num o <=? high).
(** The file an object is in, of 20. *)
Definition file_of (n : Z) : Z := (n + 11) mod 20.
(** The range of numbers asked for: low,high or only one number. *)
Definition range_text (arg : list Z) (low high : Z) : Prop :=
  digits_of arg low /\ high = low \/ exists a b, arg = a ++ 44 :: b /\ digits_of a low /\ digits_of b high.
