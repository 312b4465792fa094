(** Independent description of an epoch and a distance in text.  Nothing here refers to the model of showelem.cpp. *)
From Coq Require Import QArith Qround Qabs String.
From Verif Require Import CBase CStr CtimeSpec DateSpec.
Import ListNotations.
Local Open Scope string_scope.
Local Open Scope list_scope.
Local Open Scope Z_scope.

(** The value of v units of the p-th decimal *)
Definition value (p : nat) (v : Z) : Q := (inject_Z v / inject_Z (10 ^ Z.of_nat p))%Q.
(** Day d of the month and a part of a day, with p decimals; two columns before the point *)
Definition day_text (p : nat) (w : Z) : list Z := repeat 32 (2 - List.length (dec (w / 10 ^ Z.of_nat p))) ++ fixed_text p w.
(** The line for an epoch: year, month, day and Julian date *)
Definition epoch_text (y m : Z) (p : nat) (w v : Z) : list Z :=
  zs "Epoch " ++ repeat 32 (4 - List.length (dec y)) ++ dec y ++ [32] ++ nth (Z.to_nat (m - 1)) months3 [] ++ [32] ++ day_text p w ++ zs " TT = JDT " ++ fixed_text p v.
(** It says this of an instant (a Julian date): year, month and day are those of the calendar, [jd] being the number of that
    day; day and Julian date are the same instant, within a millionth of a day of it, and end in as few zeroes as one to six
    decimals allow. *)
Definition says_epoch (epoch : Q) (d m y jd : Z) (t : list Z) : Prop :=
  exists p w v, t = epoch_text y m p w v /\ (1 <= p <= 6)%nat /\ (Qabs (value p v - epoch) < 1 # 1000000)%Q /\
    (value p w == inject_Z d + value p v + (1 # 2) - inject_Z jd)%Q /\ (p = 1%nat \/ v mod 10 <> 0).

(** A distance x is shown with p decimals and [n] digits before the point, cut off *)
Definition au_in_km : Q := 1495978707 # 10.
Definition cut (x : Q) (p n : nat) (t : list Z) : Prop :=
  exists v, t = fixed_text p v /\ List.length (dec (v / 10 ^ Z.of_nat p)) = n /\ 0 <= v /\
    (value p v <= x + (1 # 1000000000000000))%Q /\ (x < value p v + value p 1 + (1 # 1000000000000000))%Q.
(** Up to 999999 km in kilometres, otherwise in astronomical units; [digits] digits, or all before the point, or at least fifteen
    decimals *)
Definition says_distance (x : Q) (digits : nat) (t : list Z) : Prop :=
  exists k p n u, t = repeat 32 k ++ u ++ (if Qle_bool (x * au_in_km) 999999 then zs "km" else []) /\
    cut (if Qle_bool (x * au_in_km) 999999 then x * au_in_km else x) p n u /\ (p = digits - n \/ 15 <= p /\ p < digits - n)%nat.
(** What the nearest point of an orbit is called: about the barycentre (-1), the sun (0), a planet, the moon (10) *)
Definition peri_names : list (list Z) :=
  [zs "Peribarion"; zs "Perihelion"; zs "Perimercury"; zs "Perivenus"; zs "Perigee"; zs "Perimars"; zs "Perijove"; zs "Perisaturn"; zs "Periuranus"; zs "Perineptune"; zs "Peripluto"; zs "Perilune"].
Definition peri_name (central : Z) : list Z := if (-1 <=? central) && (central <=? 10) then nth (Z.to_nat (central + 1)) peri_names [] else zs "Peri----".
(** The line for a time of perihelion, which is [day] (with its fraction) of month m in the year y: p decimals, rounded *)
Definition says_perihelion (central : Z) (day : Q) (m y : Z) (p : nat) (t : list Z) : Prop :=
  exists v, t = zs "   " ++ peri_name central ++ [32] ++ dec y ++ [32] ++ nth (Z.to_nat (m - 1)) months3 [] ++ [32] ++ fixed_text p v ++ zs " TT" /\
    (Qabs (value p v - day) <= value p 1 / 2)%Q.
