(** mpc2sof.cpp: from 'mpcorb.dat' and 'ELEMENTS.COMET' to one file in the Standard Orbit Format (SOF).

    A string is given by the bytes before its terminator, a file by its bytes.  Numbers are exact rationals; angles are left
    in degrees (the products by PI / 180 and 180 / PI cancel).  Failures of files and of realloc( ) are left out. *)
From Coq Require Import QArith String.
From Verif Require Import CBase CStr TstrModel CtimeModel.
From Verif Require MpcfModel EopModel CsvModel.
Local Open Scope string_scope.
Local Open Scope list_scope.
Local Open Scope Z_scope.

(** [n] bytes from [i] on: memcpy( ..., buff + i, n), or buff + i printed with %.ns *)
Definition bytes_at (buff : list Z) (i n : nat) : list Z := firstn n (skipn i buff).
(** %-ns *)
Definition left_justified (n : nat) (s : list Z) : list Z := s ++ repeat 32 (n - List.length s).
(** %n.pf *)
Definition number_field (n p : nat) (q : Q) : list Z := let d := fixed p q in repeat 32 (n - List.length d) ++ d.

(** comets.h: the members of ELEMENTS that are printed *)
Record elements := mk_elements { perih_time : Q; epoch : Q; q : Q; incl : Q; asc_node : Q; arg_per : Q; ecc : Q }.

(** mpc2sof.cpp:36-58 [parse_elements_dot_comet]; None if it returns -1.  (derive_quantities( ) does not change what is
    printed.) *)
Definition parse_elements_dot_comet (fuel : nat) (E : env) (buff : list Z) : outcome (option elements) :=
  let num k := MpcfModel.atof (skipn k buff) in
  if (116 <? List.length buff)%nat && (nth 113 buff 0 =? 46) then
    do q <- num 51%nat;
    do epoch <- num 44%nat;
    do ecc <- num 64%nat;
    do incl <- num 75%nat;
    do arg_per <- num 85%nat;
    do asc_node <- num 95%nat;
    do '(perih_time, _) <- get_time_from_string fuel E 0 (bytes_at buff 105 14) 0;
    Ret (Some (mk_elements perih_time (epoch + (24000005 # 10))%Q q incl asc_node arg_per ecc))
  else Ret None.

(** mpc2sof.cpp:60-76 [extract_name]; iline has 203 bytes. *)
Definition extract_name (iline : list Z) : list Z :=
  let blanks := repeat 32 12 in
  let name := if nth 173 iline 0 =? 41
              then map (fun c => if c =? 40 then 32 else c) (repeat 32 5 ++ bytes_at iline 166 7)
              else bytes_at iline 175 12 in
  if list_eq_dec Z.eq_dec name blanks then bytes_at iline 166 12 else name.

(** mpc2sof.cpp:79-82 *)
Definition sof_header : list Z :=
  zs "Name        |Tp      .       |Te      |q          |" ++ zs "i  .      |Om .      |om .      |e         |" ++
  zs "rms |n_o  |Tfirst  |Tlast   |Perts  |H .  |G . ^" ++ [10].
Definition reclen : nat := List.length sof_header.

(** mpc2sof.cpp:84-100 [output_sof].  (perih_time and epoch_time are taken to have room for 80 bytes, as in C46; the texts have at most
    19.)  [L], [fuel] and [ic] are LONG_MAX, a bound on a loop and a static variable. *)
Definition base_time_format : Z :=
  FULL_CTIME_YEAR_FIRST + FULL_CTIME_MONTH_DAY + FULL_CTIME_NO_SPACES + FULL_CTIME_MONTHS_AS_DIGITS + FULL_CTIME_FORMAT_DAY + FULL_CTIME_LEADING_ZEROES.
Definition time_text (L : Z) (fuel : nat) (ic : Z) (jd : Q) (format : Z) : outcome (list Z) :=
  do b <- full_ctime L fuel ic 0 (repeat None 80) jd format; CsvModel.string_of b.
Definition output_sof (L : Z) (fuel : nat) (ic : Z) (elem : elements) : outcome (list Z) :=
  do perih_time <- time_text L fuel ic (perih_time elem) (base_time_format + 112);
  do epoch_time <- time_text L fuel ic (epoch elem) base_time_format;
  let text := perih_time ++ [32] ++ epoch_time ++ [32] ++ number_field 11 8 (q elem) ++ [32] ++
              number_field 10 6 (incl elem) ++ [32] ++ number_field 10 6 (asc_node elem) ++ [32] ++
              number_field 10 6 (arg_per elem) ++ [32] ++ number_field 10 8 (ecc elem) ++ [32] in
  if (List.length text <? 90)%nat then Ret text else Abort.

(** mpc2sof.cpp:143-175: the record of an asteroid.  [tfirst] is the text of the date of the first observation
    (mpc2sof.cpp:151-170), which is left open. *)
Definition asteroid_record (L : Z) (fuel : nat) (ic : Z) (tfirst : list Z -> outcome (list Z)) (elem : elements) (buff : list Z) : outcome (list Z) :=
  do el <- output_sof L fuel ic elem;
  do tfirst_buff <- tfirst buff;
  let tbuff := left_justified 13 (extract_name buff) ++ el ++ bytes_at buff 137 4 ++ [32] ++ bytes_at buff 117 5 ++ [32] ++
               firstn 8 tfirst_buff ++ [32] ++ bytes_at buff 194 8 ++ [32] ++ bytes_at buff 142 7 ++ [32] ++ bytes_at buff 8 5 ++ [32] ++
               bytes_at buff 14 5 ++ [10] in
  if (List.length tbuff =? reclen)%nat then Ret tbuff else Abort.

(** mpc2sof.cpp:201-204: the last byte of the name that is not a blank, from [t] down *)
Fixpoint name_end (buff : list Z) (t : nat) : outcome nat :=
  if nth t buff 0 =? 32 then match t with O => UB | S t => name_end buff t end else Ret t.
(** mpc2sof.cpp:189-209: the name of a comet.  [name] was filled with 0, so that it ends where nothing was copied. *)
Definition comet_name (buff : list Z) : outcome (list Z) :=
  if nth 2 buff 0 =? 32 then
    let name := bytes_at buff 3 12 in
    Ret (match strstr name (zs " (") with Some n => firstn n name | None => name end)
  else
    do t <- name_end buff 43;
    if (t <? 2)%nat then UB
    else
      let one := nth (t - 1) buff 0 =? 45 in let two := nth (t - 2) buff 0 =? 45 in
      Ret (bytes_at buff 0 4 ++ (if two then bytes_at buff (t - 2) 3 else if one then bytes_at buff (t - 1) 2 else [])).
(** mpc2sof.cpp:210-214: the record of a comet *)
Definition comet_record (L : Z) (fuel : nat) (ic : Z) (elem : elements) (buff : list Z) : outcome (list Z) :=
  do name <- comet_name buff;
  do el <- output_sof L fuel ic elem;
  let tbuff := left_justified 12 name ++ [32] ++ el ++ zs "           " ++ zs "                                     " ++ [10] in
  if (List.length tbuff =? reclen)%nat then Ret tbuff else Abort.

(** The records kept in memory: how many there are (n_out), how many there is room for (the size of obuff is a multiple of
    reclen, 0 for NULL), and their bytes.  They are stored front to back. *)
Record store := mk_store { n_out : Z; room : Z; kept : list Z }.
(** memcpy( obuff + n * reclen, tbuff, reclen) *)
Definition put (s : store) (tbuff : list Z) : outcome store :=
  if n_out s <? room s then Ret (mk_store (n_out s + 1) (room s) (kept s ++ tbuff)) else UB.
(** mpc2sof.cpp:176-179 *)
Definition add_asteroid (s : store) (tbuff : list Z) : outcome store :=
  let n := n_out s + 1 in
  put (if Z.land n (n - 1) =? 0 then mk_store (n_out s) (n * 2) (kept s) else s) tbuff.

(** mpc2sof.cpp:140-180: the lines of mpcorb.dat; fgets( ) takes at most 399 bytes.  [asteroid] is the record of a line, None
    if extract_mpcorb_dat( ) does not return a day.  [fuel] only bounds the loop. *)
Fixpoint asteroids (fuel : nat) (asteroid : list Z -> outcome (option (list Z))) (file : list Z) (s : store) : outcome store :=
  match file with
  | [] => Ret s
  | _ =>
      match fuel with
      | O => Fuel
      | S fuel =>
          let n := EopModel.line_length 399 file in
          let buff := firstn n file in let rest := skipn n file in
          if (List.length buff =? 203)%nat then
            do r <- asteroid buff;
            match r with
            | Some tbuff => do s <- add_asteroid s tbuff; asteroids fuel asteroid rest s
            | None => asteroids fuel asteroid rest s
            end
          else asteroids fuel asteroid rest s
      end
  end.
(** mpc2sof.cpp:191-218: the lines of ELEMENTS.COMET after the first two *)
Fixpoint comets (fuel : nat) (comet : list Z -> outcome (option (list Z))) (file : list Z) (s : store) : outcome store :=
  match file with
  | [] => Ret s
  | _ =>
      match fuel with
      | O => Fuel
      | S fuel =>
          let n := EopModel.line_length 399 file in
          let buff := firstn n file in let rest := skipn n file in
          do r <- comet buff;
          match r with
          | Some tbuff => do s <- put s tbuff; comets fuel comet rest s
          | None => comets fuel comet rest s
          end
      end
  end.
(** mpc2sof.cpp:193-194, 213: the record of a line of ELEMENTS.COMET *)
Definition comet_line (L : Z) (fuel : nat) (E : env) (fuel2 : nat) (ic : Z) (buff : list Z) : outcome (option (list Z)) :=
  do e <- parse_elements_dot_comet fuel E buff;
  match e with
  | Some elem => if Qle_bool (epoch elem) 1721000 then Ret None else do r <- comet_record L fuel2 ic elem buff; Ret (Some r)
  | None => Ret None
  end.
(** mpc2sof.cpp:124-224 [main]: what mpcorb.sof has in it, and the exit status.  [comet_file] is None if the second argument is
    "i". *)
Definition mpc2sof (fuel : nat) (asteroid comet : list Z -> outcome (option (list Z))) (mpcorb : list Z) (comet_file : option (list Z)) : outcome (list Z * Z) :=
  do s <- asteroids fuel asteroid mpcorb (mk_store 0 0 []);
  match comet_file with
  | None => Ret (sof_header ++ kept s, 0)
  | Some file =>
      let n1 := EopModel.line_length 399 file in let file1 := skipn n1 file in
      let n2 := EopModel.line_length 399 file1 in
      match file, file1 with
      | [], _ | _, [] => Ret (sof_header, -2)
      | _, _ => do s <- comets fuel comet (skipn n2 file1) s; Ret (sof_header ++ kept s, 0)
      end
  end.
