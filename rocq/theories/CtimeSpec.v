(** Vocabulary of the properties of full_ctimel( ).  Nothing here uses the
    model's own helpers, apart from the function itself. *)
From Coq Require Import QArith Qround.
From Coq Require Import String.
From Verif Require Import CBase CStr DateModel DateVocab CtimeModel.
Local Open Scope string_scope.
Local Open Scope list_scope.
Local Open Scope Z_scope.

(** full_ctimel( buff, t, fmt), buff having room for 80 bytes, stores the string
    s; whatever follows the 80 bytes is left alone.  [L] is LONG_MAX; the bound on
    the loop of day_to_dmy( ), the library's static variable and the rubbish in
    local variables do not matter. *)
Definition writes (L : Z) (t : Q) (fmt : Z) (s : list Z) : Prop :=
  no_nul s /\
  exists N, forall fuel ic month0 (room post : buf), (N <= fuel)%nat -> List.length room = 80%nat ->
    exists rest, full_ctimel L fuel ic month0 (room ++ post) t fmt
                 = Ret (map Some s ++ Some 0 :: rest ++ post) /\
                 (List.length s + 1 + List.length rest = 80)%nat.
(** The same call is undefined behaviour. *)
Definition writing_crashes (L : Z) (t : Q) (fmt : Z) : Prop :=
  exists N, forall fuel ic month0 (room post : buf), (N <= fuel)%nat -> List.length room = 80%nat ->
    full_ctimel L fuel ic month0 (room ++ post) t fmt = UB.

(** Parts of the format. *)
Definition places (fmt : Z) : nat := Z.to_nat (Z.land (Z.shiftr fmt 4) 15).
Definition style (fmt : Z) : Z := Z.land fmt 1792.
(** Seconds, minutes, hours or days are shown (with [places] decimals). *)
Definition per_day (fmt n : Z) : Prop :=
  In (style fmt, n) [(0, 86400); (256, 1440); (512, 24); (768, 1)].
(** One in the last place shown, in days. *)
Definition last_place (fmt n : Z) : Q := (1 / inject_Z (n * 10 ^ Z.of_nat (places fmt)))%Q.
(** What is added to the time before it is cut: half of that if rounding is asked
    for, else a twentieth of a second, divided by 10 for each decimal. *)
Definition nudge (fmt n : Z) : Q :=
  if has fmt 2097152 then ((1 # 2) * last_place fmt n)%Q
  else (1 / inject_Z (1728000 * 10 ^ Z.of_nat (places fmt)))%Q.

(** The last p digits of v, and v in two places, a leading 0 being shown as z. *)
Fixpoint ndig (p : nat) (v : Z) : list Z :=
  match p with O => [] | S n => 48 + v / 10 ^ Z.of_nat n mod 10 :: ndig n v end.
Definition two (z v : Z) : list Z := if v <? 10 then [z; 48 + v] else ndig 2 v.
Definition decimals (p : nat) (v : Z) : list Z := match p with O => [] | _ => 46 :: ndig p v end.

Definition zero_or_space (fmt : Z) : Z := if has fmt 32768 then 48 else 32.

(** k units of the last place after 0h. *)
Definition time_text (fmt k : Z) : list Z :=
  let p := places fmt in
  let z := zero_or_space fmt in
  let i := k / 10 ^ Z.of_nat p in
  (if style fmt =? 0 then two z (i / 3600) ++ 58 :: two 48 (i / 60 mod 60) ++ 58 :: two 48 (i mod 60)
   else if style fmt =? 256 then two z (i / 60) ++ 58 :: two 48 (i mod 60)
   else two z i) ++ decimals p (k mod 10 ^ Z.of_nat p).

Definition months3 : list (list Z) :=
  [zs "Jan"; zs "Feb"; zs "Mar"; zs "Apr"; zs "May"; zs "Jun"; zs "Jul"; zs "Aug"; zs "Sep";
   zs "Oct"; zs "Nov"; zs "Dec"].
Definition days3 : list (list Z) :=
  [zs "Sun"; zs "Mon"; zs "Tue"; zs "Wed"; zs "Thu"; zs "Fri"; zs "Sat"].
Definition month_text (fmt m : Z) : list Z :=
  if has fmt 8192 then two (zero_or_space fmt) m else nth (Z.to_nat (m - 1)) months3 [].
(** At least four places, or the last two digits. *)
Definition year_text (fmt y : Z) : list Z :=
  if has fmt 65536 then ndig 2 (Z.abs y)
  else if has fmt 32768 then pad0 4 y
  else repeat 32 (4 - List.length (dec y)) ++ dec y.
(** The date of day number jd, day d of month m of year y, the year starting the
    day after j0. *)
Definition date_text (fmt jd j0 d m y k : Z) : list Z :=
  let dec := if style fmt =? 768 then decimals (places fmt) k else [] in
  let day := two (zero_or_space fmt) d ++ dec in
  (if has fmt 2048 && negb (has fmt 131072) then year_text fmt y ++ [32] else []) ++
  (if has fmt 8388608 then pad0 3 (jd - j0) ++ dec
   else if has fmt 4096 then month_text fmt m ++ 32 :: day
   else day ++ 32 :: month_text fmt m) ++
  (if negb (has fmt 2048) && negb (has fmt 131072) then 32 :: year_text fmt y else []).
(** The name of the day of the week. *)
Definition dow_text (jd : Z) : list Z := nth (Z.to_nat ((jd + 1) mod 7)) days3 [].
Definition whole_text (fmt jd j0 d m y k : Z) : list Z :=
  let s :=
    (if has fmt 262144 then dow_text jd ++ [32] else []) ++
    (if has fmt 16384 then []
     else date_text fmt jd j0 d m y k ++ (if style fmt =? 768 then [] else [32])) ++
    (if style fmt =? 768 then [] else time_text fmt k) ++
    (if has fmt 524288 then 32 :: dow_text jd else []) in
  let s := if has fmt 1048576 then filter (fun c => negb (c =? 32)) s else s in
  if has fmt 4194304 then filter (fun c => negb (c =? 58)) s else s.

(** The instant k units of the last place after 0h of day number jd. *)
Definition shown (fmt n jd k : Z) : Q :=
  (inject_Z (jd - 2451545) - (1 # 2) + inject_Z k * last_place fmt n)%Q.

(** v units of the p-th decimal. *)
Definition fixed_text (p : nat) (v : Z) : list Z :=
  dec (v / 10 ^ Z.of_nat p) ++ decimals p (v mod 10 ^ Z.of_nat p).
(** A minus sign before negative numbers. *)
Definition minus (x : Q) : list Z := if Qle_bool 0 x then [] else [45].
(** Julian days (1280) or modified Julian days (1536): their value at J2000, and the
    mark before them. *)
Definition jd_base (fmt : Z) : Q := if style fmt =? 1280 then 2451545%Q else (515445 # 10)%Q.
Definition jd_mark (fmt : Z) : list Z := if style fmt =? 1280 then zs "JD " else zs "MJD ".
(** v in four places, filled with z. *)
Definition four_text (z v : Z) : list Z := repeat z (4 - List.length (dec v)) ++ dec v.

(** Texts that name an instant in full: zeroes for leading spaces, date and year
    shown, no day of the week, spaces and colons kept; seconds with any number of
    decimals, whole minutes, or days with at most six. *)
Definition in_full (fmt : Z) : Prop :=
  has fmt 32768 = true /\ has fmt 16384 = false /\ has fmt 65536 = false /\ has fmt 131072 = false /\
  has fmt 262144 = false /\ has fmt 524288 = false /\ has fmt 1048576 = false /\ has fmt 4194304 = false /\
  (style fmt = 0 \/ (style fmt = 256 /\ places fmt = 0%nat) \/ (style fmt = 768 /\ (places fmt <= 6)%nat)).
