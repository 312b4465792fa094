(** Specification for C60: the lines of cospar.txt as they are meant, and the orientation they describe. *)
From Coq Require Import QArith Qreals Reals String.
From Verif Require Import CBase CStr RBase TstrSpec.
From Verif Require RotSpec.
Import ListNotations.
Local Open Scope string_scope.
Local Open Scope list_scope.
Local Open Scope Z_scope.

(** ---- the text ---- *)
(** A line of the file: what is meant to be read are bytes from ' ' to 127 other than '#'; a comment (or another byte)
    ends them. *)
Definition readable (c : Z) : Prop := 32 <= c < 128 /\ c <> 35.
Definition raw_line (content tail : list Z) : Prop :=
  (forall c, In c content -> readable c) /\ (match tail with [] => True | c :: _ => ~ readable c end) /\
  (forall c, In c (content ++ tail) -> c <> 10) /\ (List.length (content ++ tail) <= 298)%nat /\
  firstn 3 (content ++ tail) <> zs "END".
Definition without_blanks (s : list Z) : list Z := filter (fun c => negb (c =? 32)) s.
(** What is left of it: nothing, the text with its blanks, or without them. *)
Definition what_is_left (content : list Z) : list (list Z) :=
  match content with
  | [] => []
  | _ => if prefix (zs "Remap:") content then [content] else [without_blanks content]
  end.

(** ---- numbers ---- *)
(** Without a sign, perhaps with an exponent. *)
Inductive numeral : list Z -> Q -> Prop :=
| num_plain n q : number_of n q -> numeral n q
| num_scaled n q s ds e : number_of n q -> digits_of ds e -> In s [[]; [43]; [45]] ->
    numeral (n ++ 101 :: s ++ ds) (q * (10 # 1) ^ (match s with [45] => - e | _ => e end)).
(** With a sign, 43 or 45; with a minus or without a sign. *)
Inductive signed_num : list Z -> Q -> Prop :=
| with_plus n q : numeral n q -> signed_num (43 :: n) q
| with_minus n q : numeral n q -> signed_num (45 :: n) (- q).
Inductive first_num : list Z -> Q -> Prop :=
| without n q : number_of n q -> first_num n q
| negative n q : number_of n q -> first_num (45 :: n) (- q).
Inductive integer : list Z -> Z -> Prop :=
| int_plain n v : digits_of n v -> integer n v
| int_minus n v : digits_of n v -> integer (45 :: n) (- v).

(** ---- formulae ---- *)
(** An angle of a table: constant and linear term in degrees, per day or per century *)
Record angle := mk_angle { constant : Q; linear : Q; by_day : bool }.
Definition degrees (a : angle) (d : R) : R := (Q2R (constant a) + Q2R (linear a) * (if by_day a then d else d / 36525))%R.
(** Line i of the table of planet p: "E10=15.134-0.1589763d" *)
Definition angle_line (p i : Z) (a : angle) (t : list Z) : Prop :=
  exists n1 n2 more, first_num n1 (constant a) /\ signed_num n2 (linear a) /\
    t = p :: dec i ++ 61 :: n1 ++ n2 ++ (if by_day a then 100 else 84) :: more.
Inductive table_from (p : Z) : Z -> list angle -> list (list Z) -> Prop :=
| table_end i : table_from p i [] []
| table_line i a t angles ts : angle_line p i a t -> table_from p (i + 1) angles ts -> table_from p i (a :: angles) (t :: ts).

(** One term: its text behind the number, its factor, and whether it is the linear one.  d is in days. *)
Inductive factor (p : Z) (angles : list angle) (d : R) : list Z -> R -> bool -> Prop :=
| days : factor p angles d (zs "d") d true
| days2 : factor p angles d (zs "d2") (d * d)%R false
| centuries : factor p angles d (zs "T") (d / 36525)%R true
| centuries2 : factor p angles d (zs "T2") (d / 36525 * (d / 36525))%R false
| periodic (is_sin : bool) (m : option Z) (i : nat) (a : angle) :
    nth_error angles i = Some a -> (match m with Some k => 1 <= k <= 9 | None => True end) ->
    let x := (degrees a d * (IZR (match m with Some k => k | None => 1 end) * PI / 180))%R in
    x <> 0%R ->
    factor p angles d
      ((if is_sin then zs "sin" else zs "cos") ++ (match m with Some k => [48 + k] | None => [] end) ++ p :: dec (Z.of_nat i + 1))
      (if is_sin then sin x else cos x) false.
(** The terms: their sum, and whether a linear one is negative *)
Inductive terms (p : Z) (angles : list angle) (d : R) : list Z -> R -> bool -> Prop :=
| no_term : terms p angles d [] 0 false
| one_term n q k f lin ts v neg : signed_num n q -> factor p angles d k f lin -> terms p angles d ts v neg ->
    terms p angles d (n ++ k ++ ts) (Q2R q * f + v)%R ((lin && negb (Qle_bool 0 q)) || neg).
(** "269.9949+0.0031T-3.8787sinE1": constant and terms *)
Definition formula (p : Z) (angles : list angle) (d : R) (t : list Z) (v : R) (neg : bool) : Prop :=
  exists n q ts s, first_num n q /\ terms p angles d ts s neg /\ t = n ++ ts /\ v = (Q2R q + s)%R.

(** ---- the file: lines without blanks ---- *)
Definition planet_line (p : Z) (t : list Z) : Prop := exists more, t = zs "Planet:" ++ p :: more.
Definition object_line (n : Z) (t : list Z) : Prop := exists ds, integer ds n /\ Z.abs n <= 90000 /\ t = zs "Obj:" ++ ds.
(** A line "Remap: 3001 10 4001 28": new and old numbers, with blanks between them *)
Inductive pairs : list Z -> list (Z * Z) -> Prop :=
| no_pair k : pairs (repeat 32 k) []
| one_pair k1 a k2 b ts ps : 0 <= a <= 90000 -> 0 <= b <= 90000 -> pairs ts ps -> (0 < k2)%nat ->
    (ts = [] \/ exists r, ts = 32 :: r) ->
    pairs (repeat 32 k1 ++ dec a ++ repeat 32 k2 ++ dec b ++ ts) ((a, b) :: ps).
Inductive remaps : list (list Z) -> list (Z * Z) -> Prop :=
| no_remap : remaps [] []
| one_remap t ts ps qs : pairs t ps -> remaps ts qs -> remaps ((zs "Remap:" ++ t) :: ts) (ps ++ qs).
(** The number the object has in the file *)
Definition alias (ps : list (Z * Z)) (obj n : Z) : Prop :=
  (forall a b, In (a, b) ps -> 1000 <= a /\ 9 < b < 1000) /\ NoDup (map snd ps) /\
  (In (n, obj) ps \/ (n = obj /\ ~ In obj (map snd ps))).
(** Lines that have nothing to do with object n *)
Definition other (n : Z) (t : list Z) : Prop :=
  nth 0 t 0 <> 82 /\ (nth 0 t 0 = 80 -> exists p, planet_line p t) /\
  (nth 0 t 0 = 79 -> exists m, object_line m t /\ m <> n).

(** The planet p's table is followed by its objects, one of them n.  [before]: lines before "Planet:"; [between]:
    objects before n; the lines of n; [stop]: the line after them. *)
Record section := mk_section {
  obj_no : Z; letter : Z; before : list (list Z); p_line : list Z; tab : list (list Z); between : list (list Z);
  o_line : list Z; item_lines : list (list Z) }.
Definition section_lines (s : section) : list (list Z) :=
  before s ++ [p_line s] ++ tab s ++ between s ++ [o_line s] ++ item_lines s.
Definition is_section (s : section) (angles : list angle) : Prop :=
  Z.abs (obj_no s) <= 90000 /\
  isalpha (letter s) = true /\ ~ In (letter s) [79; 80; 82] /\
  Forall (other (obj_no s)) (before s) /\
  planet_line (letter s) (p_line s) /\
  table_from (letter s) 1 angles (tab s) /\
  (Forall (other (obj_no s)) (between s) /\ Forall (fun t => nth 0 t 0 <> 80) (between s) /\
   match between s with [] => True | t :: _ => nth 0 t 0 = 79 end) /\
  object_line (obj_no s) (o_line s).
(** "r=2440.53,2438.26": one to three numbers; those missing are 0 *)
Inductive radii_line : list Z -> list Q -> Prop :=
| radii1 n x : numeral n x -> radii_line (zs "r=" ++ n) [x; 0; 0]%Q
| radii2 n m x y : numeral n x -> numeral m y -> radii_line (zs "r=" ++ n ++ 44 :: m) [x; y; 0]%Q
| radii3 n m k x y z : numeral n x -> numeral m y -> numeral k z -> radii_line (zs "r=" ++ n ++ 44 :: m ++ 44 :: k) [x; y; z]%Q.
(** The lines of an object: radii (or not), pole, and W; of several lines W1=, W2=, ..., that of the system. *)
Inductive sizes : list (list Z) -> list Q -> Prop :=
| no_sizes : sizes [] [0; 0; 0]%Q
| some_sizes t q : radii_line t q -> sizes [t] q.
Definition other_system (system : Z) (t : list Z) : Prop := exists c more, t = 87 :: c :: more /\ c <> 61 /\ c <> 48 + system.
Definition w_line (system : Z) (w t : list Z) : Prop := t = zs "W=" ++ w \/ t = 87 :: 48 + system :: 61 :: w.
Definition items (system : Z) (ls : list (list Z)) (q : list Q) (a d w : list Z) : Prop :=
  exists rs ws1 wl ws2, sizes rs q /\ Forall (other_system system) ws1 /\ w_line system w wl /\ Forall (fun t => nth 0 t 0 = 87) ws2 /\
    ls = rs ++ [zs "a0=" ++ a; zs "d0=" ++ d] ++ ws1 ++ [wl] ++ ws2.
(** The line after an object: the next one, or the next planet *)
Definition ends_object (t : list Z) : Prop := (exists n, object_line n t) \/ (exists p, planet_line p t).

(** ---- the orientation ---- *)
(** Pole in the direction (ra, dec); node on the planet's equator, at right ascension ra + 90 degrees; the prime meridian
    is w degrees from the node, towards east.  All in J2000 equatorial coordinates. *)
Definition rad (x : R) : R := (x * PI / 180)%R.
Definition pole_vector (ra de : R) : list R := [cos (rad ra) * cos (rad de); sin (rad ra) * cos (rad de); sin (rad de)]%R.
Definition node_vector (ra : R) : list R := [- sin (rad ra); cos (rad ra); 0]%R.
Definition cross (u v : list R) : list R :=
  let c := RotSpec.comp in
  [c u 1%nat * c v 2%nat - c u 2%nat * c v 1%nat; c u 2%nat * c v 0%nat - c u 0%nat * c v 2%nat; c u 0%nat * c v 1%nat - c u 1%nat * c v 0%nat]%R.
Definition combine2 (x : R) (u : list R) (y : R) (v : list R) : list R :=
  let c := RotSpec.comp in [x * c u 0%nat + y * c v 0%nat; x * c u 1%nat + y * c v 1%nat; x * c u 2%nat + y * c v 2%nat]%R.
(** The direction on the equator at the angle w from the node, in the sense of rotation about the pole *)
Definition on_equator (ra de w : R) : list R :=
  combine2 (cos (rad w)) (node_vector ra) (sin (rad w)) (cross (pole_vector ra de) (node_vector ra)).
(** Rows: longitude 0, longitude 90, the north pole.  Longitudes are counted against the sense of rotation. *)
Definition rows (ra de w : R) (retrograde : bool) : list R :=
  on_equator ra de w ++ on_equator ra de (if retrograde then w + 90 else w - 90)%R ++ pole_vector ra de.

(** ---- a file and an object in it ---- *)
(** The file: lines, each with a newline; it ends, or a line starts with END. *)
Definition file_lines (file : list Z) (lines : list (list Z)) : Prop :=
  exists raws fin, (forall c t, In (c, t) raws -> raw_line c t) /\ (fin = [] \/ exists more, fin = zs "END" ++ more) /\
    file = flat_map (fun r => fst r ++ snd r ++ [10]) raws ++ fin /\ lines = flat_map (fun r => what_is_left (fst r)) raws.
(** Object obj, n in the file, belongs to the planet p with these angles; its radii are q, and a, d, w are the texts of
    the formulae for a0, d0 and W; [last] if no object or planet follows. *)
Definition in_file (file : list Z) (obj system : Z) (last : bool) (n p : Z) (angles : list angle) (q : list Q) (a d w : list Z) : Prop :=
  exists lines rm ps s rest, file_lines file lines /\ remaps rm ps /\ alias ps obj n /\ is_section s angles /\ obj_no s = n /\ letter s = p /\
    lines = rm ++ section_lines s ++ rest /\ (angles <> [] -> rm ++ before s <> []) /\
    (if last then rest = [] else exists stop post, rest = stop :: post /\ ends_object stop) /\ items system (item_lines s) q a d w.
(** A formula that starts with the constant and the term in d *)
Definition rate_text (w : list Z) (q : Q) : Prop :=
  exists n c m more, first_num n c /\ signed_num m q /\ w = n ++ m ++ 100 :: more /\ hd 0 more <> 50.
