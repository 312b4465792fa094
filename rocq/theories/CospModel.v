(** Model of cospar.cpp: orientations and sizes of planets and satellites, from the text file cospar.txt.

    Numbers are exact: those of the text rationals, dates and angles reals.  What the file system holds is given as the
    bytes of the default file; td_minus_ut( ) (property C57) and the matrix for the Earth (property C58) are arbitrary
    functions here.  char is signed.  Where the code would read on behind the end of a line, into the lines stored
    after it, the model stops with [Abort]; so does a failed assert( ). *)
From Coq Require Import QArith Qreals Reals String.
From Verif Require Import CBase CStr RBase TstrModel.
From Verif Require SofModel RotModel.
Import ListNotations.
Local Open Scope string_scope.
Local Open Scope list_scope.
Local Open Scope Z_scope.

(** cospar.cpp:31-33 *)
Definition FREE_INTERNAL_DATA : Z := -99999.
Definition NO_OBJECT_SELECTED : Z := -99999.
Definition PLANET_SELECTED : Z := -99998.

(** cospar.cpp:91: fgets( buff, 300, ifile): how many bytes it takes *)
Fixpoint line_length (n : nat) (file : list Z) : nat :=
  match n, file with
  | S n, c :: r => if c =? 10 then 1%nat else S (line_length n r)
  | _, _ => O
  end.
(** cospar.cpp:93: a byte of the line proper; as signed char, those from 128 on are negative *)
Definition line_byte (c : Z) : bool := (32 <=? c) && (c <? 128) && negb (c =? 35).
(** cospar.cpp:93-105: the line that is kept, if any *)
Definition kept (buff : list Z) : option (list Z) :=
  match span line_byte buff with
  | O => None
  | i => let l := firstn i buff in Some (if prefix (zs "Remap:") l then l else filter (fun c => negb (c =? 32)) l)
  end.
(** cospar.cpp:84-124: the lines of the file.  The two passes read the same bytes, so that the space allocated after the first is
    what the second needs.  [fuel] is for the loop over the file. *)
Fixpoint load (fuel : nat) (file : list Z) : outcome (list (list Z)) :=
  match fuel with
  | O => Fuel
  | S fuel =>
      match file with
      | [] => Ret []
      | _ => let n := line_length 299 file in
             let buff := firstn n file in
             if prefix (zs "END") buff then Ret []
             else do ls <- load fuel (skipn n file); Ret (match kept buff with Some l => l :: ls | None => ls end)
      end
  end.

(** cospar.cpp:133: tptr[i], and tptr + i, for a line of cospar_text *)
Definition at_ (t : list Z) (i : nat) : outcome Z := if (i <=? List.length t)%nat then Ret (nth i t 0) else Abort.
Definition from (t : list Z) (i : nat) : outcome (list Z) := if (i <=? List.length t)%nat then Ret (skipn i t) else Abort.
(** cospar.cpp:185-187, 236-238: what follows the first '=' *)
Fixpoint behind_equals (t : list Z) : outcome (list Z) :=
  match t with [] => Abort | c :: r => if c =? 61 then Ret r else behind_equals r end.

(** cospar.cpp:138-145: the loop over the pairs of a line "Remap:" *)
Fixpoint remap (fuel : nat) (t : list Z) (object : Z) : outcome Z :=
  match fuel with
  | O => Fuel
  | S fuel =>
      do a <- scan_d IMAX t;
      match a with
      | None => Ret object
      | Some (idx1, t) =>
          do b <- scan_d IMAX t;
          match b with
          | None => Ret object
          | Some (idx2, t) => remap fuel t (if object =? idx2 then idx1 else object)
          end
      end
  end.

(** cospar.cpp:171: sscanf( tptr + 2, "%lf,%lf,%lf", ...): the numbers there are *)
Definition scan_radii (t : list Z) (radii : list Q) : outcome (list Q) :=
  do a <- scan_lf t;
  match a with
  | None => Ret radii
  | Some (x, t) =>
      let radii := x :: tl radii in
      match lit 44 t with
      | None => Ret radii
      | Some t =>
          do b <- scan_lf t;
          match b with
          | None => Ret radii
          | Some (y, t) =>
              let radii := [x; y] ++ skipn 2 radii in
              match lit 44 t with
              | None => Ret radii
              | Some t => do c <- scan_lf t; Ret (match c with Some (z, _) => [x; y; z] | None => radii end)
              end
          end
      end
  end.

(** cospar.cpp:58-60: what a line of an object is read with: the letter of the planet, the lines, the line before that of the first
    angle, the days since J2000, whether the poles are asked for, and whether the line is that of omega. *)
Record setting := mk_setting { s_planet : Z; s_lines : list (list Z); s_ang : Z; s_d : R; s_poles : bool; s_omega : bool }.
Definition t_cen (C : setting) : R := (s_d C / 36525)%R.

(** cospar.cpp:222-260: a periodic term; the factor for its coefficient, and err *)
Definition periodic (C : setting) (t : list Z) (err : Z) : outcome (R * Z) :=
  do c3 <- at_ t 3;
  do '(multiplier, idx, err) <-
    (if c3 =? s_planet C then do u <- from t 4; do i <- SofModel.atoi u; Ret (1, i, err)
     else do u <- from t 3; do m <- SofModel.atoi u; do u <- from t 5; do i <- SofModel.atoi u;
          do c4 <- at_ t 4; Ret (m, i, if c4 =? s_planet C then err else -4));
  do _ <- check (negb (s_ang C =? 0));
  do n <- ev IMAX (s_ang C + idx)%cx;
  do l <- (if n <? 0 then UB else match nth_error (s_lines C) (Z.to_nat n) with Some l => Ret l | None => UB end);
  do a <- behind_equals l;
  do '(constant_term, a) <- strtold a;
  do '(linear, a) <- strtold a;
  do d_or_T <- (match a with c :: _ => Ret c | [] => Ret 0 end);
  do _ <- check ((d_or_T =? 100) || (d_or_T =? 84));
  let angle := (Q2R constant_term + Q2R linear * (if d_or_T =? 100 then s_d C else t_cen C))%R in
  let angle := (angle * (IZR multiplier * PI / 180))%R in
  if multiplier =? 0 then Ret (1%R, -5)
  else if Reqb angle 0 then Ret (1%R, -3)
  else let c := nth 0 t 0 in
       if c =? 115 then Ret (sin angle, err) else if c =? 99 then Ret (cos angle, err) else Ret (1%R, -2).

(** cospar.cpp:191-263: the terms; the value, is_retrograde, err, and whether the function returns at once *)
Fixpoint term_loop (fuel : nat) (C : setting) (t : list Z) (v : R) (retro : bool) (err : Z) : outcome (R * bool * Z * bool) :=
  match fuel with
  | O => Fuel
  | S fuel =>
      match t with
      | [] => Ret (v, retro, err, false)
      | c :: r =>
          if negb (c =? 43) && negb (c =? 45) then term_loop fuel C r v retro err
          else
            do '(q, t) <- strtold t;
            let c := nth 0 t 0 in
            if c =? 100 then
              let square := nth 1 t 0 =? 50 in
              let retro := retro || (negb square && qlt q 0 && s_omega C) in
              let coeff := if square then (Q2R q * s_d C)%R else Q2R q in
              if s_omega C && negb (s_poles C) then Ret (coeff, retro, err, true)
              else term_loop fuel C t (v + coeff * s_d C)%R retro err
            else if c =? 84 then
              let square := nth 1 t 0 =? 50 in
              let retro := retro || (negb square && qlt q 0 && s_omega C) in
              let coeff := if square then (Q2R q * t_cen C)%R else Q2R q in
              term_loop fuel C t (v + coeff * t_cen C)%R retro err
            else do '(f, err) <- periodic C t err; term_loop fuel C t (v + Q2R q * f)%R retro err
      end
  end.
(** cospar.cpp:185-263: one of the values *)
Definition value (fuel : nat) (C : setting) (t : list Z) (retro : bool) (err : Z) : outcome (R * bool * Z * bool) :=
  do t <- behind_equals t;
  do '(q, _) <- strtold t;
  term_loop fuel C (match t with 45 :: r => r | _ => t end) (Q2R q) retro err.

(** cospar.cpp:62-66: what the function works on.  None for a value that has not been set. *)
Record work := mk_work {
  object : Z; planet : Z; ang : Z; cur : Z; done : bool; got_omega : bool; err : Z;
  ra : option R; decl : option R; om : option R; retro : bool; radii : list Q }.
Definition set_object (w : work) x := mk_work x (planet w) (ang w) (cur w) (done w) (got_omega w) (err w) (ra w) (decl w) (om w) (retro w) (radii w).
Definition set_planet (w : work) x := mk_work (object w) x (ang w) (cur w) (done w) (got_omega w) (err w) (ra w) (decl w) (om w) (retro w) (radii w).
Definition set_ang (w : work) x := mk_work (object w) (planet w) x (cur w) (done w) (got_omega w) (err w) (ra w) (decl w) (om w) (retro w) (radii w).
Definition set_cur (w : work) x := mk_work (object w) (planet w) (ang w) x (done w || (cur w =? object w)) (got_omega w) (err w) (ra w) (decl w) (om w) (retro w) (radii w).
Definition set_ra (w : work) x := mk_work (object w) (planet w) (ang w) (cur w) (done w) (got_omega w) (err w) (Some x) (decl w) (om w) (retro w) (radii w).
Definition set_decl (w : work) x := mk_work (object w) (planet w) (ang w) (cur w) (done w) (got_omega w) (err w) (ra w) (Some x) (om w) (retro w) (radii w).
Definition set_om (w : work) x := mk_work (object w) (planet w) (ang w) (cur w) (done w) true (err w) (ra w) (decl w) (Some x) (retro w) (radii w).
Definition set_flags (w : work) r e := mk_work (object w) (planet w) (ang w) (cur w) (done w) (got_omega w) e (ra w) (decl w) (om w) r (radii w).
Definition set_radii (w : work) x := mk_work (object w) (planet w) (ang w) (cur w) (done w) (got_omega w) (err w) (ra w) (decl w) (om w) (retro w) x.

(** cospar.cpp:55-56: which of the pointers are not NULL: those of the pole, that of omega, and that of the radii. *)
Record asked := mk_asked { a_poles : bool; a_omega : bool; a_radii : bool }.

(** cospar.cpp:166-264: a line of the object *)
Definition object_line (fuel : nat) (A : asked) (lines : list (list Z)) (system : Z) (d : R) (t : list Z) (w : work) : outcome (work * bool) :=
  let c := nth 0 t 0 in
  let C := mk_setting (planet w) lines (ang w) d (a_poles A) in
  if c =? 114 then (if a_radii A then do u <- from t 2; do r <- scan_radii u (radii w); Ret (set_radii w r, false) else Ret (w, false))
  else if c =? 97 then
    (if a_poles A then do '(v, r, e, _) <- value fuel (C false) t (retro w) (err w); Ret (set_flags (set_ra w v) r e, false) else Ret (w, false))
  else if c =? 100 then
    (if a_poles A then do '(v, r, e, _) <- value fuel (C false) t (retro w) (err w); Ret (set_flags (set_decl w v) r e, false) else Ret (w, false))
  else if negb (got_omega w) && (c =? 87) then
    do sys <- ev IMAX (system + 48%Z)%cx;
    let digit := (sys + 128) mod 256 - 128 in
    if (nth 1 t 0 =? digit) || (nth 1 t 0 =? 61) then
      (if a_omega A then do '(v, r, e, out) <- value fuel (C true) t (retro w) (err w); Ret (set_flags (set_om w v) r e, out)
       else Ret (mk_work (object w) (planet w) (ang w) (cur w) (done w) true (err w) (ra w) (decl w) (om w) (retro w) (radii w), false))
    else Ret (w, false)
  else Ret (w, false).

(** cospar.cpp:133-264: one line; the flag is for a return at once *)
Definition line_step (fuel : nat) (A : asked) (lines : list (list Z)) (system : Z) (d : R) (line : Z) (t : list Z) (w : work) : outcome (work * bool) :=
  let c := nth 0 t 0 in
  do w <- (if (c =? 82) && (9 <? object w) && (object w <? 1000) then do u <- from t 6; do o <- remap fuel u (object w); Ret (set_object w o) else Ret w);
  if c =? 80 then do p <- at_ t 7; Ret (set_cur (set_planet w p) PLANET_SELECTED, false)
  else if c =? 79 then do u <- from t 4; do n <- SofModel.atoi u; Ret (set_cur w n, false)
  else if negb (planet w =? 0) && (cur w =? PLANET_SELECTED) && (c =? planet w) && (nth 1 t 0 =? 49) && (nth 2 t 0 =? 61) then Ret (set_ang w (line - 1), false)
  else if cur w =? object w then object_line fuel A lines system d t w
  else Ret (w, false).
(** cospar.cpp:131-265: the loop *)
Fixpoint scan (fuel : nat) (A : asked) (lines : list (list Z)) (system : Z) (d : R) (line : Z) (rest : list (list Z)) (w : work) : outcome (work * bool) :=
  match rest with
  | [] => Ret (w, false)
  | t :: rest =>
      if done w || negb (err w =? 0) then Ret (w, false)
      else do '(w, out) <- line_step fuel A lines system d line t w;
           if out : bool then Ret (w, true) else scan fuel A lines system d (line + 1) rest w
  end.

(** cospar.cpp:53-56: the results: the value returned, and what the pointers are set to. *)
Record results := mk_results { rval : Z; r_ra : option R; r_decl : option R; r_om : option R; r_retro : bool; r_radii : list Q }.
(** cospar.cpp:128-280, with the file loaded.  (None is also given for what the pointers are not asked for.) *)
Definition find (fuel : nat) (A : asked) (lines : list (list Z)) (object_number system : Z) (jde : R) : outcome results :=
  let d := (jde - 2451545)%R in
  let w := mk_work object_number 0 0 NO_OBJECT_SELECTED false false 0 None None None false [0; 0; 0]%Q in
  do '(w, out) <- scan fuel A lines system d 0 lines w;
  if out : bool then Ret (mk_results 0 (ra w) (decl w) (om w) (retro w) (radii w))
  else if negb (err w =? 0) then Ret (mk_results (err w) (ra w) (decl w) (om w) (retro w) (radii w))
  else if done w then Ret (mk_results 0 (ra w) (decl w) (om w) (retro w) (radii w))
  else
    do p <- (if a_poles A then do n <- ev IMAX (object w * 20%Z)%cx; Ret (Some (IZR n)) else Ret None);
    Ret (mk_results (-1) (if a_poles A then p else ra w) (if a_poles A then p else decl w)
           (if a_omega A then Some (d * 360 / (13 / 10))%R else om w) (retro w) (radii w)).

(** ---- the functions with their static variables ---- *)
(** cospar.cpp:35, 366, 373: the bytes of the default file, td_minus_ut( ) and the matrix for the Earth. *)
Record env := mk_env { default_file : option (list Z); dt : R -> R; earth : R -> list R }.
(** cospar.cpp:61, 305-306, 350-353: cospar_text; the static variables of planet_rotation_rate( ) and of calc_planet_orientation( ) *)
Record statics := mk_statics {
  text : option (list (list Z));
  prev_planet : Z; prev_system : Z; prev_omega : R;
  p_planet : Z; p_system : Z; p_jd : R; p_matrix : list R; p_rval : Z }.
Definition init_statics : statics := mk_statics None (-99) 0 0 NO_OBJECT_SELECTED NO_OBJECT_SELECTED (-1) (repeat 0%R 9) 0.
Definition set_text (s : statics) x := mk_statics x (prev_planet s) (prev_system s) (prev_omega s) (p_planet s) (p_system s) (p_jd s) (p_matrix s) (p_rval s).

(** cospar.cpp:53-281 [get_cospar_data_from_text_file]; None if the pointers have not been set at all *)
Definition get_cospar_data (fuel : nat) (E : env) (A : asked) (s : statics) (object_number system : Z) (jde : R)
  : outcome (Z * option results * statics) :=
  if object_number =? FREE_INTERNAL_DATA then Ret (0, None, set_text s None)
  else
    match text s with
    | Some lines => do r <- find fuel A lines object_number system jde; Ret (rval r, Some r, s)
    | None =>
        match default_file E with
        | None => Ret (-1, None, s)
        | Some file =>
            do lines <- load fuel file;
            let s := set_text s (Some lines) in
            if a_omega A then do r <- find fuel A lines object_number system jde; Ret (rval r, Some r, s)
            else Ret (0, None, s)
        end
    end.

(** cospar.cpp:288-299 [load_cospar_file]; the argument is NULL, or the contents of the file if there is one *)
Definition load_cospar_file (fuel : nat) (E : env) (s : statics) (file : option (option (list Z))) : outcome (Z * statics) :=
  do '(r, _, s) <- get_cospar_data fuel E (mk_asked false false false) s FREE_INTERNAL_DATA 0 0%R;
  match file with
  | None => Ret (r, s)
  | Some f => do '(r, _, s) <- get_cospar_data fuel (mk_env f (dt E) (earth E)) (mk_asked false false false) s 0 0 0%R; Ret (r, s)
  end.

(** cospar.cpp:301-319 [planet_rotation_rate] *)
Definition planet_rotation_rate (fuel : nat) (E : env) (s : statics) (planet_no system_no : Z) : outcome (R * statics) :=
  if negb (planet_no =? prev_planet s) || negb (system_no =? prev_system s) then
    do '(rv, r, s) <- get_cospar_data fuel E (mk_asked false true false) s planet_no system_no 2451545%R;
    let omega := if negb (rv =? 0) then 0%R
                 else match r with Some r => match r_om r with Some v => v | None => prev_omega s end | None => prev_omega s end in
    Ret (omega, mk_statics (text s) planet_no system_no omega (p_planet s) (p_system s) (p_jd s) (p_matrix s) (p_rval s))
  else Ret (prev_omega s, s).

(** cospar.cpp:321-329 [planet_radii]; [old] is what the array holds before *)
Definition planet_radii (fuel : nat) (E : env) (s : statics) (planet_no : Z) (old : list Q) : outcome (Z * list Q * statics) :=
  do '(rv, r, s) <- get_cospar_data fuel E (mk_asked false false true) s planet_no 0 2451545%R;
  Ret (rv, match r with Some r => r_radii r | None => old end, s).

(** cospar.cpp:388-397: the matrix, all nine numbers of which are written; a pole or angle that has not been set is undefined behaviour *)
Definition negate_row (m : list R) : list R := firstn 3 m ++ map Ropp (firstn 3 (skipn 3 m)) ++ skipn 6 m.
Definition orientation (r : option results) : outcome (list R) :=
  match r with
  | Some {| r_ra := Some pole_ra; r_decl := Some pole_dec; r_om := Some omega; r_retro := is_retrograde |} =>
      let pole_ra := (pole_ra * (PI / 180))%R in
      let pole_dec := (pole_dec * (PI / 180))%R in
      do a <- RotModel.polar3_to_cartesian [0; 0; 0]%R (pole_ra - PI / 2) 0;
      do b <- RotModel.polar3_to_cartesian [0; 0; 0]%R (pole_ra - PI) (PI / 2 - pole_dec);
      do c <- RotModel.polar3_to_cartesian [0; 0; 0]%R pole_ra pole_dec;
      do m <- RotModel.spin_matrix (a ++ b ++ c) 0 3 (omega * PI / 180 + PI)%R;
      Ret (if is_retrograde then negate_row m else m)
  | _ => UB
  end.
(** cospar.cpp:346-401 [calc_planet_orientation] *)
Definition calc_planet_orientation (fuel : nat) (E : env) (s : statics) (planet_no system_no : Z) (jd : R)
  : outcome (Z * list R * statics) :=
  if (planet_no =? p_planet s) && (system_no =? p_system s) && Reqb jd (p_jd s) then Ret (p_rval s, p_matrix s, s)
  else
    let tdt := (jd + dt E jd / 86400)%R in
    let keep s m rv := mk_statics (text s) (prev_planet s) (prev_system s) (prev_omega s) planet_no system_no jd m rv in
    if planet_no =? 3 then
      let year := (2000 + (tdt - 2451545) / (36525 / 100))%R in
      let m := negate_row (earth E year) in
      Ret (0, m, keep s m 0)
    else
      do '(rv, r, s) <- get_cospar_data fuel E (mk_asked true true false) s planet_no system_no tdt;
      do m <- orientation r;
      Ret (rv, m, keep s m rv).
