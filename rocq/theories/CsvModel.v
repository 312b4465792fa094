(** csv2ades.c: observations by Gaia, from files of comma separated values to ADES.

    A string is given by the bytes before its terminator, a file by its bytes; bytes that were printed are the result.
    Numbers are exact rationals. *)
From Coq Require Import QArith String.
From Verif Require Import CBase CStr TstrModel CtimeModel.
From Verif Require MpcfModel SofModel EopModel.
Local Open Scope string_scope.
Local Open Scope list_scope.
Local Open Scope Z_scope.

(** csv2ades.c:68-70: how many commas there are *)
Fixpoint commas (s : list Z) : nat :=
  match s with [] => O | c :: t => if c =? 44 then S (commas t) else commas t end.
(** csv2ades.c:73: strchr( ibuff, ','), and one byte on *)
Fixpoint after_comma (s : list Z) : option (list Z) :=
  match s with [] => None | c :: t => if c =? 44 then Some t else after_comma t end.
(** csv2ades.c:71-76 *)
Fixpoint skip_fields (nval : nat) (ibuff : list Z) : option (list Z) :=
  match nval with
  | O => Some ibuff
  | S n => match after_comma ibuff with Some t => skip_fields n t | None => None end
  end.
(** csv2ades.c:78-79 *)
Fixpoint copy_field (max_len : nat) (ibuff : list Z) : list Z :=
  match max_len, ibuff with
  | S n, c :: t => if c =? 44 then [] else c :: copy_field n t
  | _, _ => []
  end.
(** csv2ades.c:57-82 [get_csv], obuff being an array of [size] bytes.  A failed assertion is [Abort]. *)
Definition get_csv (size : nat) (ibuff header tag : list Z) (max_len : nat) : outcome (list Z) :=
  match strstr header tag with
  | None => Abort
  | Some found =>
      match skip_fields (commas (firstn found header)) ibuff with
      | None => Abort
      | Some t =>
          let obuff := copy_field max_len t in
          if (List.length obuff <? size)%nat then Ret obuff else UB
      end
  end.

(** csv2ades.c:87: char tbuff[90] *)
Definition tbuff_size : nat := 90.
(** afuncs.h:33; csv2ades.c:109, 94 *)
Definition AU_IN_KM : Q := 1495978707 # 10.
Definition LB : Q := 1550519768 # 100000000000000000.
Definition jd_epoch : Q := 24551975 # 10.

(** printf( "    <tag>%s</tag>\n", ...) *)
Definition element (tag : string) (text : list Z) : list Z :=
  zs "    <" ++ zs tag ++ zs ">" ++ text ++ zs "</" ++ zs tag ++ zs ">" ++ [10].

(** csv2ades.c:104-120: one turn of the loop *)
Definition coordinate (ibuff header : list Z) (i : nat) : outcome (list Z) :=
  let name := (if (i <? 3)%nat then [] else zs "v") ++ [120 + Z.of_nat (i mod 3)] ++ zs "_gaia_geocentric" in
  do t <- get_csv tbuff_size ibuff header name 29;
  do v <- MpcfModel.atof t;
  let value := (v * AU_IN_KM)%Q in
  let n := [49 + Z.of_nat (i mod 3)] in
  Ret (if (i <? 3)%nat
       then zs "    <pos" ++ n ++ zs ">" ++ fixed 4 (value * (1 - LB)) ++ zs "</pos" ++ n ++ zs ">" ++ [10]
       else zs "    <vel" ++ n ++ zs ">" ++ fixed 10 (value / 86400) ++ zs "</vel" ++ n ++ zs ">" ++ [10]).
Fixpoint coordinates (ibuff header : list Z) (l : list nat) : outcome (list Z) :=
  match l with
  | [] => Ret []
  | i :: l => do a <- coordinate ibuff header i; do b <- coordinates ibuff header l; Ret (a ++ b)
  end.

(** csv2ades.c:122-125: what is printed of tbuff.  (Its contents before the call are left out.)  [L] is LONG_MAX, [fuel]
    and [ic] are the bound on a loop and the static variable of C46. *)
Fixpoint string_of (b : buf) : outcome (list Z) :=
  match b with
  | Some c :: t => if c =? 0 then Ret [] else do s <- string_of t; Ret (c :: s)
  | _ => UB
  end.
Definition time_format : Z := 48 + (FULL_CTIME_YEAR_FIRST + FULL_CTIME_MONTH_DAY) + FULL_CTIME_LEADING_ZEROES + FULL_CTIME_MONTHS_AS_DIGITS.
Definition obs_time (L : Z) (fuel : nat) (ic : Z) (jd_obs : Q) : outcome (list Z) :=
  do b <- full_ctime L fuel ic 0 (repeat None tbuff_size) jd_obs time_format;
  do b <- wr b 7 45;
  do b <- wr b 4 45;
  do b <- wr b 10 84;
  string_of b.

(** csv2ades.c:134-148.  [rms_mag] is the text of (g_flux_sigma / g_flux) / log( 2.512) with three decimals. *)
Definition photometry (rms_mag : Q -> Q -> list Z) (ibuff header : list Z) : outcome (list Z) :=
  match strstr header (zs "g_mag,") with
  | None => Ret []
  | Some _ =>
      do t <- get_csv tbuff_size ibuff header (zs "g_mag,") 9;
      if (48 <=? nth 0 t 0) && (nth 0 t 0 <=? 57) then
        do f <- get_csv tbuff_size ibuff header (zs "g_flux") 99;
        do g_flux <- MpcfModel.atof f;
        do s <- get_csv tbuff_size ibuff header (zs "g_flux_error") 99;
        do g_flux_sigma <- MpcfModel.atof s;
        Ret (element "mag" t ++ element "rmsMag" (rms_mag g_flux_sigma g_flux) ++ element "band" (zs "G") ++ element "photCat" (zs "Gaia2"))
      else Ret []
  end.

(** csv2ades.c:84-151 [csv_to_ades] *)
Definition csv_to_ades (L : Z) (fuel : nat) (ic : Z) (rms_mag : Q -> Q -> list Z) (ibuff header : list Z) (low_num high_num : Z) : outcome (list Z) :=
  let get tag n := get_csv tbuff_size ibuff header (zs tag) n in
  let value tag := do t <- get tag 99%nat; MpcfModel.atof t in
  do number <- get "number_mp," 9%nat;
  do num <- SofModel.atoi number;
  if (low_num <=? num) && (num <=? high_num) then
    do c <- coordinates ibuff header [0; 1; 2; 3; 4; 5]%nat;
    do days <- value "epoch_utc,";
    do time <- obs_time L fuel ic (days + jd_epoch)%Q;
    do ra <- value "ra,";
    do dec <- value "dec,";
    do ra_err <- value "ra_error_random,";
    do dec_err <- value "dec_error_random,";
    do corr <- get "ra_dec_correlation_random," 10%nat;
    do phot <- photometry rms_mag ibuff header;
    Ret (zs "   <optical>" ++ [10] ++ element "permID" number ++ element "mode" (zs "TDI") ++ element "stn" (zs "258") ++
         element "sys" (zs "ICRF_KM") ++ element "ctr" (zs "399") ++ c ++ element "obsTime" (time ++ zs "Z") ++
         element "ra" (fixed 9 ra) ++ element "dec" (fixed 9 dec) ++ element "rmsRA" (fixed 5 (ra_err / 1000)) ++
         element "rmsDec" (fixed 5 (dec_err / 1000)) ++ element "rmsCorr" corr ++ element "astCat" (zs "Gaia3") ++
         phot ++ zs "   </optical>" ++ [10])
  else Ret [].

(** csv2ades.c:167-175 [file_needed]: the loop from [i] on *)
Fixpoint needed_loop (fuel : nat) (file_no i low_num high_num : Z) : outcome bool :=
  match fuel with
  | O => Fuel
  | S fuel =>
      if i <=? high_num then
        do stop <- ev IMAX (low_num + 20%Z)%cx;
        if i <? stop then
          do k <- ev IMAX (i + 11%Z)%cx;
          if Z.rem k 20 =? file_no then Ret true
          else do i <- ev IMAX (i + 1%Z)%cx; needed_loop fuel file_no i low_num high_num
        else Ret false
      else Ret false
  end.
Definition file_needed (file_no low_num high_num : Z) : outcome bool := needed_loop 21 file_no low_num low_num high_num.

(** csv2ades.c:214-220: the lines of one file; fgets( ) takes at most 799 bytes.  [fuel] only bounds the loop.  (Bytes of
    value 0 in a file, which end the string early, are left out.) *)
Fixpoint rows (fuel : nat) (to_ades : list Z -> list Z -> outcome (list Z)) (file header : list Z) : outcome (list Z) :=
  match file with
  | [] => Ret []
  | _ =>
      match fuel with
      | O => Fuel
      | S fuel =>
          let n := EopModel.line_length 799 file in
          let buff := firstn n file in let rest := skipn n file in
          if prefix (zs "solution_id") buff then rows fuel to_ades rest buff
          else
            do a <- (if nth 0 buff 0 =? 35 then Ret [] else to_ades buff header);
            do b <- rows fuel to_ades rest header;
            Ret (a ++ b)
      end
  end.
(** csv2ades.c:197-222: the files, [files] giving the contents of SsoObservation_00.csv to SsoObservation_19.csv; [false]
    if the program ended because there was none. *)
Fixpoint all_files (fuel : nat) (to_ades : list Z -> list Z -> outcome (list Z)) (files : Z -> option (list Z)) (low_num high_num : Z) (l : list Z) : outcome (list Z * bool) :=
  match l with
  | [] => Ret ([], true)
  | file_num :: l =>
      do need <- file_needed file_num low_num high_num;
      if need then
        match files file_num with
        | None => Ret ([], false)
        | Some file =>
            do a <- rows fuel to_ades file [];
            do '(b, ok) <- all_files fuel to_ades files low_num high_num l;
            Ret (a ++ b, ok)
        end
      else all_files fuel to_ades files low_num high_num l
  end.
Definition file_nums : list Z := [0; 1; 2; 3; 4; 5; 6; 7; 8; 9; 10; 11; 12; 13; 14; 15; 16; 17; 18; 19].
(** csv2ades.c:194-224: the lines of gaia.hdr *)
Fixpoint header_lines (fuel : nat) (star : outcome (list Z * bool)) (hdr : list Z) : outcome (list Z * bool) :=
  match hdr with
  | [] => Ret ([], true)
  | _ =>
      match fuel with
      | O => Fuel
      | S fuel =>
          let n := EopModel.line_length 799 hdr in
          let buff := firstn n hdr in let rest := skipn n hdr in
          do '(a, ok) <- (if nth 0 buff 0 =? 42 then star else Ret (buff, true));
          if ok then do '(b, ok) <- header_lines fuel star rest; Ret (a ++ b, ok) else Ret (a, false)
      end
  end.
(** csv2ades.c:187-193: sscanf( argv[1], "%d,%d", &low_num, &high_num); None is an error. *)
Definition arguments (arg : list Z) : outcome (option (Z * Z)) :=
  do r <- scan_d IMAX arg;
  match r with
  | None => Ret None
  | Some (low, t) =>
      do high <- (match lit 44 t with
                  | None => Ret (-1)
                  | Some t => do r <- scan_d IMAX t; Ret (match r with Some (h, _) => h | None => -1 end)
                  end);
      Ret (Some (low, if high <? 0 then low else high))
  end.
(** csv2ades.c:177-226 [main], with one argument, gaia.hdr being there: what is printed, and the exit status *)
Definition csv2ades (L : Z) (fuel : nat) (ic : Z) (rms_mag : Q -> Q -> list Z) (hdr : list Z) (files : Z -> option (list Z)) (arg : list Z) : outcome (list Z * Z) :=
  do a <- arguments arg;
  match a with
  | None => Ret ([], -1)
  | Some (low, high) =>
      let to_ades buff header := csv_to_ades L fuel ic rms_mag buff header low high in
      do '(out, ok) <- header_lines fuel (all_files fuel to_ades files low high file_nums) hdr;
      Ret (out, if ok then 0 else -2)
  end.
