(** Vocabulary of the properties of get_time_from_stringl( ).  Nothing here
    uses the model's own helpers, apart from the function itself. *)
From Coq Require Import QArith Qround.
From Coq Require Import String.
From Verif Require Import CBase CStr DateModel DateVocab TstrModel.
Local Open Scope list_scope.
Local Open Scope Z_scope.

(** What get_time_from_stringl( t0, txt, fmt, &is_ut) does, [L] being LONG_MAX,
    [now] the clock and [ph] the phase formula.  Bounds on loops are large
    enough, whatever they are. *)
Definition run (L now : Z) (ph : Z -> Q -> Q) (t0 : Q) (txt : list Z) (fmt : Z)
    (P : outcome (Q * Z) -> Prop) : Prop :=
  exists N, forall fuel dfuel, (N <= fuel)%nat -> (N <= dfuel)%nat ->
    P (get_time_from_stringl fuel
         {| e_long := L; e_now := now; e_fuel := dfuel; e_phase := ph |} t0 txt fmt).
(** It returns the time t and stores u in *is_ut. *)
Definition reads (L now : Z) ph (t0 : Q) (txt : list Z) (fmt : Z) (t : Q) (u : Z) : Prop :=
  run L now ph t0 txt fmt (fun o => exists t', o = Ret (t', u) /\ (t' == t)%Q).
Definition crashes (L now : Z) ph (t0 : Q) (txt : list Z) (fmt : Z) : Prop :=
  run L now ph t0 txt fmt (fun o => o = UB).
Definition fails_assert (L now : Z) ph (t0 : Q) (txt : list Z) (fmt : Z) : Prop :=
  run L now ph t0 txt fmt (fun o => o = Abort).
Definition never_returns (L now : Z) ph (t0 : Q) (txt : list Z) (fmt : Z) : Prop :=
  forall fuel dfuel,
    get_time_from_stringl fuel
      {| e_long := L; e_now := now; e_fuel := dfuel; e_phase := ph |} t0 txt fmt = Fuel.

(** The text as the function sees it: lower case, with a space between a letter
    and a digit that touch (but none before a q). *)
Definition touch (a b : Z) : Prop :=
  ((isdigit a = true /\ isalpha b = true) \/ (isalpha a = true /\ isdigit b = true)) /\
  b <> 113 /\ b <> 81.
Definition low (c : Z) : Z := if (65 <=? c) && (c <=? 90) then c + 32 else c.
Fixpoint spread (s : list Z) : list Z :=
  match s with
  | [] => []
  | [c] => [low c]
  | a :: ((b :: _) as r) =>
      if ((isdigit a && isalpha b) || (isalpha a && isdigit b)) && negb (b =? 113) && negb (b =? 81)
      then low a :: 32 :: spread r else low a :: spread r
  end.
(** The text without spaces at its end. *)
Fixpoint trim_end (s : list Z) : list Z :=
  match s with
  | [] => []
  | c :: r => match trim_end r with
              | [] => if c =? 32 then [] else [c]
              | t => c :: t
              end
  end.
(** A text the function reads as [norm]: no NUL, not starting with a space, and
    short enough. *)
Definition text (txt norm : list Z) : Prop :=
  no_nul txt /\ hd 0 txt <> 32 /\ txt <> [] /\ (List.length txt < 80)%nat /\
  spread txt = norm /\ (List.length norm <= 79)%nat.

(** Numbers in text. *)
Definition digits_of (s : list Z) (v : Z) : Prop :=
  s <> [] /\ (forall c, In c s -> isdigit c = true) /\ dig_val 0 s = v.
Definition number_of (s : list Z) (q : Q) : Prop :=
  (exists v, digits_of s v /\ q = inject_Z v) \/
  (exists a b v, (forall c, In c (a ++ b) -> isdigit c = true) /\ a ++ b <> [] /\ s = a ++ 46 :: b /\
     dig_val 0 (a ++ b) = v /\ q = (v # Z.to_pos (10 ^ Z.of_nat (List.length b)))%Q).

(** " +3h", " -20.5m": a trailing offset and its value in days.  (The number ends
    with a digit.) *)
Definition unit_days (u : Z) (d : Q) : Prop :=
  In (u, d) [(115, 1 # 86400); (109, 1 # 1440); (104, 1 # 24); (100, 1%Q); (119, 7%Q);
             (108, 29530588853 # 1000000000); (121, 36525 # 100); (99, 36525%Q)].
Definition offset_text (s : list Z) (v : Q) : Prop :=
  exists sg n q u d, (sg = 43 \/ sg = 45) /\ number_of n q /\ ~ (q == 0)%Q /\ isdigit (last n 0) = true /\
    unit_days u d /\
    s = 32 :: sg :: n ++ [u] /\ v = ((if sg =? 45 then - q else q) * d)%Q.
(** Several of them, and their sum. *)
Fixpoint offset_texts (l : list (list Z * Q)) : Prop :=
  match l with [] => True | (s, v) :: r => offset_text s v /\ offset_texts r end.
Definition texts (l : list (list Z * Q)) : list Z := concat (map fst l).
Definition total (l : list (list Z * Q)) : Q := fold_right Qplus 0%Q (map snd l).

(** Month names: three letters or the full name. *)
Definition month_texts : list (list Z * Z) :=
  [(zs "jan", 1); (zs "feb", 2); (zs "mar", 3); (zs "apr", 4); (zs "may", 5); (zs "jun", 6);
   (zs "jul", 7); (zs "aug", 8); (zs "sep", 9); (zs "oct", 10); (zs "nov", 11); (zs "dec", 12);
   (zs "january", 1); (zs "february", 2); (zs "march", 3); (zs "april", 4); (zs "june", 6);
   (zs "july", 7); (zs "august", 8); (zs "september", 9); (zs "october", 10);
   (zs "november", 11); (zs "december", 12)].

(** "12:34", "12:34:56", "12:34:56.7": a time of day and its length in seconds;
    hours, minutes and seconds may be any numbers of up to four digits. *)
Definition clock_text (s : list Z) (t : Q) : Prop :=
  exists h hv m mv, digits_of h hv /\ digits_of m mv /\ (List.length h <= 4)%nat /\
    ((s = h ++ 58 :: m /\ t = inject_Z (hv * 3600 + mv * 60)) \/
     (exists x xv, number_of x xv /\
        s = h ++ 58 :: m ++ 58 :: x /\ t = (inject_Z (hv * 3600 + mv * 60) + xv)%Q)).
(** Nothing, or a space and a time of day. *)
Definition clock_suffix (s : list Z) (t : Q) : Prop :=
  (s = [] /\ t = 0%Q) \/ (exists c, s = 32 :: c /\ clock_text c t).

(** The calendar named by the format, and the flags that decide ambiguous dates. *)
Definition calendar_of (fmt : Z) : Z := Z.land fmt 15.
Definition year_first (fmt : Z) : bool := negb (Z.land fmt 2048 =? 0).
Definition month_first (fmt : Z) : bool := negb (Z.land fmt 4096 =? 0).
Definition two_digit_years (fmt : Z) : bool := negb (Z.land fmt 65536 =? 0).

(** The day number of the instant t0, and starting times the calendar can handle. *)
Definition day_of (t0 : Q) : Z := Qfloor (t0 + (1 # 2)) + 2451545.
Definition start_ok (L : Z) (t0 : Q) (fmt : Z) : Prop :=
  long_ok L /\ jd_ok L (day_of t0) /\ calendar_of fmt <> CALENDAR_CHINESE.

(** The instant [secs] seconds after 0h of day number jd. *)
Definition instant (jd : Z) (secs : Q) : Q :=
  (inject_Z (jd - 2451545) - (1 # 2) + secs / 86400)%Q.

(** A date in three parts, in some order, separated by [sep]: "2010-mar-05". *)
Inductive part : Set := Year | Month | Day.
Definition tx (ys ms ds : list Z) (p : part) : list Z :=
  match p with Year => ys | Month => ms | Day => ds end.
Definition written (sep : Z) (t : part -> list Z) (order : list part) : list Z :=
  match order with
  | [] => []
  | p :: r => t p ++ concat (map (fun p => sep :: t p) r)
  end.
(** Spaces, dashes or slashes. *)
Definition separator (c : Z) : Prop := c = 32 \/ c = 45 \/ c = 47.
(** A year of up to nine digits; a day, possibly with decimals. *)
Definition year_text (s : list Z) (y : Z) : Prop := digits_of s y /\ (List.length s <= 9)%nat.
Definition day_text (s : list Z) (q : Q) : Prop :=
  number_of s q /\ isdigit (last s 0) = true /\ (List.length s <= 9)%nat /\ (q <= 32)%Q.
Definition month_digits (s : list Z) (m : Z) : Prop := digits_of s m /\ (List.length s <= 9)%nat.
(** The greatest month number of the calendar. *)
Definition last_month (fmt : Z) : Z :=
  if (calendar_of fmt =? CALENDAR_HEBREW) || (calendar_of fmt =? CALENDAR_CHINESE) then 13 else 12.
(** How dates are written by default, according to the format. *)
Definition default_order (fmt : Z) : list part :=
  match year_first fmt, month_first fmt with
  | true, true => [Year; Month; Day]
  | true, false => [Year; Day; Month]
  | false, true => [Month; Day; Year]
  | false, false => [Day; Month; Year]
  end.
(** The year meant by the number y: if the format asks for it, the years 1 to 99
    stand for the years of the hundred that ends 40 years from now. *)
Definition year_meant (now fmt y y' : Z) : Prop :=
  if two_digit_years fmt && (0 <? y) && (y <? 100)
  then 0 <= now <= 10 ^ 15 /\ y' mod 100 = y /\
       let this_year := 1970 + now / 31557600 in this_year - 60 <= y' < this_year + 40
  else y' = y.
(** The instant: [secs] seconds after 0h of a day, and the decimals of the day q. *)
Definition day_fraction (q : Q) : Q := (q - inject_Z (Qfloor q))%Q.

(** A number of k digits before the point, v, and the decimals f (at most nine). *)
Definition split_number (s : list Z) (k : nat) (v : Z) (f : Q) : Prop :=
  exists ip, digits_of ip v /\ List.length ip = k /\
    ((s = ip /\ f = 0%Q) \/
     exists b u, digits_of b u /\ (List.length b <= 9)%nat /\ s = ip ++ 46 :: b /\
       f = (u # Z.to_pos (10 ^ Z.of_nat (List.length b)))%Q).
(** Names of the days of the week, Sunday being 0. *)
Definition day_texts : list (list Z * Z) :=
  [(zs "sun", 0); (zs "mon", 1); (zs "tue", 2); (zs "wed", 3); (zs "thu", 4); (zs "fri", 5); (zs "sat", 6);
   (zs "sunday", 0); (zs "monday", 1); (zs "tuesday", 2); (zs "wednesday", 3); (zs "thursday", 4);
   (zs "friday", 5); (zs "saturday", 6)].
(** The day of the week of a day number: 0 is Sunday. *)
Definition weekday (jd : Z) : Z := (jd + 1) mod 7.

(** The date of the starting time in the calendar of the format. *)
Definition date_of_start (L : Z) (t0 : Q) (fmt d m y : Z) : Prop :=
  long_ok L /\ jd_ok L (day_of t0) /\ dmy_result L (day_of t0) (calendar_of fmt) d m y.
(** The moon's phases: new moon, first quarter, full moon, last quarter. *)
Definition phase_texts : list (list Z * Z) := [(zs "nm", 0); (zs "1q", 1); (zs "fm", 2); (zs "3q", 3)].

(** The text after its leading spaces. *)
Fixpoint drop_spaces (s : list Z) : list Z :=
  match s with [] => [] | c :: r => if c =? 32 then drop_spaces r else s end.
(** Copied with its extra spaces, the text has 78 bytes where a letter and a
    digit touch: the space between them gets the last byte of the buffer. *)
Definition overruns (s : list Z) : Prop :=
  exists p a b q, s = p ++ a :: b :: q /\ touch a b /\ List.length (spread (p ++ [a])) = 78%nat.
