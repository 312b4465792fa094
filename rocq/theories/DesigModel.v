(** Model of the designation code: unpack.cpp and the packing part of
    mpc_fmt.cpp.

    A string argument is the list of its bytes ([CStr.at_]); a pointer that was
    advanced is the rest of the list.  [obuff] is an option: [None] is NULL. *)
From Coq Require Import String.
From Verif Require Import CBase CStr StrModel.
Open Scope list_scope.

(** unpack.cpp:13-30 [mutant_hex_char_to_int]. *)
Definition mutant_hex_char_to_int (c : Z) : Z :=
  if 97 <=? c then (if c <=? 122 then c - 97 + 36 else -1)
  else if 65 <=? c then (if c <=? 90 then c - 65 + 10 else -1)
  else if (48 <=? c) && (c <=? 57) then c - 48 else -1.

(** unpack.cpp:32-45 [int_to_mutant_hex_char]. *)
Definition int_to_mutant_hex_char (ival : Z) : Z :=
  if (ival <? 0) || (61 <? ival) then 0
  else if ival <? 10 then to_char (48 + ival)
  else if ival <? 36 then to_char (65 - 10 + ival)
  else to_char (97 - 36 + ival).

(** unpack.cpp:47-60 [get_mutant_hex_value]: [i] is the offset of buff in [s]. *)
Fixpoint get_mutant_hex_loop (n : nat) (s : list Z) (i rval : Z) : outcome Z :=
  match n with
  | O => Ret rval
  | S n' => do c <- at_ s i;
            let digit := mutant_hex_char_to_int c in
            if digit =? -1 then Ret (-1)
            else do r <- ev IMAX (rval * 62 + digit)%cx;
                 get_mutant_hex_loop n' s (i + 1) r
  end.
Definition get_mutant_hex_value (s : list Z) (i : Z) (n_digits : nat) : outcome Z :=
  get_mutant_hex_loop n_digits s i 0.

(** unpack.cpp:65-74 [encode_value_in_mutant_hex]: [off] is the offset of buff
    in [b]; returns the left-over value and the buffer.  (The final pointer, one
    before buff, is not modelled.) *)
Fixpoint encode_value_in_mutant_hex (b : buf) (off : Z) (n_digits : nat) (value : Z) : outcome (Z * buf) :=
  match n_digits with
  | O => Ret (value, b)
  | S n => do b' <- wr b (off + Z.of_nat n) (int_to_mutant_hex_char (Z.rem value 62));
           encode_value_in_mutant_hex b' off n (Z.quot value 62)
  end.

(** mpc_func.h:86-93. *)
Definition OBJ_DESIG_ASTEROID_PROVISIONAL := 0.
Definition OBJ_DESIG_ASTEROID_NUMBERED := 1.
Definition OBJ_DESIG_COMET_PROVISIONAL := 2.
Definition OBJ_DESIG_COMET_NUMBERED := 3.
Definition OBJ_DESIG_NATSAT_PROVISIONAL := 4.
Definition OBJ_DESIG_NATSAT_NUMBERED := 5.
Definition OBJ_DESIG_ARTSAT := 6.
Definition OBJ_DESIG_OTHER := -1.

(** A non-NULL destination: the buffer and the offset of obuff in it. *)
Definition dest : Type := option (buf * Z).

(** unpack.cpp:80-140 [unpack_provisional_packed_desig].  ibuff is [s] + [p].
    snprintf_err( ) with a NULL destination and a size of 14 is undefined.  The
    arithmetic on [char] and on the two-digit numbers cannot overflow. *)
Definition unpack_provisional_packed_desig (obuff : dest) (obuff_size : nat) (s : list Z) (p : Z)
  : outcome (Z * dest) :=
  do c0 <- at_ s p;
  do ext <- (Ret (c0 =? 95) &&& tst s (p + 2) (fun c => (65 <=? c) && (c <=? 90)));
  if ext then
    do c1 <- at_ s (p + 1);
    let year := mutant_hex_char_to_int c1 in
    do desig_num <- get_mutant_hex_value s (p + 3) 4;
    if (year <? 0) || (desig_num <? 0) then Ret (-1, obuff)
    else
      let letter0 := 65 + Z.rem desig_num 25 in
      let letter := if 73 <=? letter0 then letter0 + 1 else letter0 in
      do c2 <- at_ s (p + 2);
      match obuff with
      | None => UB
      | Some (b, off) =>
          do '(_, b') <- snprintf_err b off 14
             (dec (year + 2000) ++ [32; c2; letter] ++ dec (620 + Z.quot desig_num 25));
          Ret (0, Some (b', off))
      end
  else
    do norm <- (Ret ((71 <=? c0) && (c0 <=? 75)) &&& tst s (p + 1) isdigit
            &&& tst s (p + 2) isdigit &&& tst s (p + 3) isupper
            &&& tst s (p + 5) isdigit &&& tst s (p + 6) (fun c => isalpha c || (c =? 48)));
    if norm then
      do c4 <- at_ s (p + 4);
      let no := mutant_hex_char_to_int c4 in
      let rval := if no =? -1 then -2 else 0 in
      match obuff with
      | None => Ret (rval, None)
      | Some (b, off) =>
          do c1 <- at_ s (p + 1); do c2 <- at_ s (p + 2); do c3 <- at_ s (p + 3);
          do c5 <- at_ s (p + 5); do c6 <- at_ s (p + 6);
          do b <- wr b off (if 75 <=? c0 then 50 else 49);
          do b <- wr b (off + 1) (to_char (48 + Z.rem (c0 - 65) 10));
          do b <- wr b (off + 2) c1;
          do b <- wr b (off + 3) c2;
          do b <- wr b (off + 4) 32;
          do b <- wr b (off + 5) c3;
          do b <- (if isupper c6 then do b <- wr b (off + 6) c6; wr b (off + 7) 0
                   else wr b (off + 6) 0);
          let output_no := no * 10 + c5 - 48 in
          do b <- (if output_no =? 0 then Ret b
                   else do '(_, b) <- snprintf_append b off obuff_size (dec output_no); Ret b);
          do b <- (if islower c6
                   then do '(_, b) <- snprintf_append b off obuff_size [45; c6 + 65 - 97]; Ret b
                   else Ret b);
          Ret (rval, Some (b, off))
      end
    else
      match obuff with
      | None => Ret (-1, None)
      | Some (b, off) => do b <- wr b off 0; Ret (-1, Some (b, off))
      end.

(** unpack.cpp:144-154 [is_artsat_desig]; the second atoi( ) returns what the
    first did. *)
Fixpoint is_artsat_desig (desig : list Z) : outcome bool :=
  match desig with
  | [] => Ret false
  | _ :: rest =>
      if (length desig <=? 8)%nat then Ret false
      else do hit <- (tst desig 4 (fun c => c =? 45)
                 &&& (do v <- atoi desig; Ret ((1956 <? v) && (v <? 2100)))
                 &&& tst desig 5 isdigit &&& tst desig 6 isdigit
                 &&& tst desig 7 isdigit &&& tst desig 8 isupper);
           if hit then Ret true else is_artsat_desig rest
  end.

(** unpack.cpp:156-157. *)
Definition planet_names_in_english : list (list Z) :=
  [zs "Venus"; zs "Earth"; zs "Mars"; zs "Jupiter"; zs "Saturn"; zs "Uranus"; zs "Neptune"; zs "Pluto"].
(** unpack.cpp:193-198. *)
Definition roman_digits : list (list Z) :=
  [zs ""; zs "I"; zs "II"; zs "III"; zs "IV"; zs "V"; zs "VI"; zs "VII"; zs "VIII"; zs "IX"].
Definition roman_tens : list (list Z) :=
  [zs ""; zs "X"; zs "XX"; zs "XXX"; zs "XL"; zs "L"; zs "LX"; zs "LXX"; zs "LXXX"; zs "XC"].
Definition roman_hundreds : list (list Z) :=
  [zs ""; zs "C"; zs "CC"; zs "CCC"; zs "CD"; zs "D"; zs "DC"; zs "DCC"; zs "DCCC"; zs "CM"].

(** unpack.cpp:180-184: the loop over the 12 columns. *)
Fixpoint desig_masks (n : nat) (s : list Z) (i mask digit_mask space_mask : Z) : outcome (Z * Z) :=
  match n with
  | O => Ret (digit_mask, space_mask)
  | S n' =>
      do c <- at_ s i;
      let dm := if isdigit c then Z.lor digit_mask mask else digit_mask in
      let sm := if isdigit c then space_mask
                else if c =? 32 then Z.lor space_mask mask else space_mask in
      desig_masks n' s (i + 1) (Z.shiftl mask 1) dm sm
  end.

(** unpack.cpp:201-206: the planet's name, for each planet with that initial. *)
Fixpoint planet_loop (names : list (list Z)) (b : buf) (c0 : Z) : outcome buf :=
  match names with
  | [] => Ret b
  | nm :: r =>
      do h <- at_ nm 0;
      do b' <- (if h =? c0
                then do '(_, b1) <- strlcpy b 0 nm 16;
                     do '(_, b2) <- strlcat b1 0 [32] 16; Ret b2
                else Ret b);
      planet_loop r b' c0
  end.

(** unpack.cpp:186-238: natural satellites.  (All twelve bytes were read by the
    loop before, so the order in which they are read again does not matter.) *)
Definition unpack_natsat (obuff : option buf) (packed : list Z) (digit_mask space_mask rval : Z)
  : outcome (Z * option buf) :=
  do c4 <- at_ packed 4;
  if negb (c4 =? 83) then Ret (rval, obuff) else
  do c0 <- at_ packed 0;
  if strchr (zs "MVEJSUNP") c0 && (Z.land digit_mask 14 =? 14) && (Z.land space_mask 4064 =? 4064)
  then
    match obuff with
    | None => Ret (OBJ_DESIG_NATSAT_NUMBERED, None)
    | Some b =>
        do obj_number <- atoi (skipn 1 packed);
        do b <- planet_loop planet_names_in_english b c0;
        do b <- (if Z.quot obj_number 100 =? 0 then Ret b
                 else do r <- nth_ub roman_hundreds (Z.quot obj_number 100);
                      do '(_, b) <- strlcat_err b 0 r 16; Ret b);
        do b <- (if Z.rem (Z.quot obj_number 10) 10 =? 0 then Ret b
                 else do r <- nth_ub roman_tens (Z.rem (Z.quot obj_number 10) 10);
                      do '(_, b) <- strlcat_err b 0 r 16; Ret b);
        do b <- (if Z.rem obj_number 10 =? 0 then Ret b
                 else do r <- nth_ub roman_digits (Z.rem obj_number 10);
                      do '(_, b) <- strlcat_err b 0 r 16; Ret b);
        Ret (OBJ_DESIG_NATSAT_NUMBERED, Some b)
    end
  else
    do c5 <- at_ packed 5; do c6 <- at_ packed 6; do c7 <- at_ packed 7; do c8 <- at_ packed 8;
    do c9 <- at_ packed 9; do c10 <- at_ packed 10; do c11 <- at_ packed 11;
    let digit := mutant_hex_char_to_int c9 in
    if strchr (zs "MVEJSUNP") c8 && (Z.land digit_mask 3264 =? 3264) && (space_mask =? 15)
       && (0 <=? digit) && (c11 =? 48) && (72 <=? c5) && (c5 <=? 90)
    then
      match obuff with
      | None => Ret (OBJ_DESIG_NATSAT_PROVISIONAL, None)
      | Some b =>
          do '(_, b) <- snprintf_err b 0 7 (zs "S/" ++ dec (20 + c5 - 75) ++ [c6; c7]);
          do b <- wr b 6 32;
          do b <- wr b 7 c8;
          do b <- wr b 8 32;
          do '(b, i) <- (if 10 <? digit
                         then do b <- wr b 9 (48 + Z.quot digit 10); Ret (b, 10) else Ret (b, 9));
          do '(b, i) <- (if digit =? 0 then Ret (b, i)
                         else do b <- wr b i (48 + Z.rem digit 10); Ret (b, i + 1));
          do b <- wr b i c10;
          do b <- wr b (i + 1) 0;
          Ret (OBJ_DESIG_NATSAT_PROVISIONAL, Some b)
      end
    else Ret (rval, obuff).

(** unpack.cpp:244-258: numbers from 620000 on.  [Some] is the early return. *)
Definition unpack_tilde (obuff : option buf) (prov : buf) (packed : list Z) (space_mask : Z)
  : outcome (option (Z * option buf)) :=
  do c0 <- at_ packed 0;
  if (c0 =? 126) && ((Z.land space_mask 992 =? 992) || (Z.land space_mask 992 =? 0)) then
    do num <- get_mutant_hex_value packed 1 4;
    if num <? 0 then Ret None
    else match obuff with
         | None => Ret (Some (OBJ_DESIG_ASTEROID_NUMBERED, None))
         | Some b =>
             do '(_, b) <- snprintf_err b 0 11 ([40] ++ dec (num + 620000) ++ [41]);
             do p0 <- rd prov 0;
             do b <- (if p0 =? 0 then Ret b
                      else do t <- buf_str 41 prov 0;
                           do '(_, b) <- snprintf_append b 0 24 ([32] ++ t); Ret b);
             Ret (Some (OBJ_DESIG_ASTEROID_NUMBERED, Some b))
         end
  else Ret None.

(** unpack.cpp:293-297, the two loops over the digits of a numbered comet; [i]
    and [j] as there.  [fuel] bounds the rounds. *)
Fixpoint skip_zeroes (fuel : nat) (s : list Z) (i : Z) : outcome Z :=
  match fuel with
  | O => Fuel
  | S f => do c <- at_ s i; if c =? 48 then skip_zeroes f s (i + 1) else Ret i
  end.
Fixpoint copy_digits (fuel : nat) (b : buf) (j : Z) (s : list Z) (i : Z) : outcome (buf * Z) :=
  match fuel with
  | O => Fuel
  | S f => do c <- at_ s i;
           if isdigit c then do b <- wr b j c; copy_digits f b (j + 1) s (i + 1) else Ret (b, j)
  end.

(** unpack.cpp:264-314: numbered asteroids and comets. *)
Definition unpack_numbered (obuff : option buf) (prov : buf) (packed : list Z)
    (digit_mask space_mask rval : Z) : outcome (Z * option buf) :=
  do c0 <- at_ packed 0;
  do go <- (Ret (isalnum c0 && (Z.land digit_mask 14 =? 14))
            &&& (Ret (Z.land space_mask 992 =? 992) ||| (do p0 <- rd prov 0; Ret (negb (p0 =? 0)))));
  if negb go then Ret (rval, obuff) else
  do c4 <- at_ packed 4;
  if isdigit c4 then
    let number0 := mutant_hex_char_to_int c0 in
    if number0 <? 0 then Ret (rval, obuff)
    else
      do v <- atoi (skipn 1 packed);
      do number <- ev IMAX (number0 * 10000 + v)%cx;
      match obuff with
      | None => Ret (OBJ_DESIG_ASTEROID_NUMBERED, None)
      | Some b =>
          do '(_, b) <- snprintf_err b 0 13 ([40] ++ dec number ++ [41]);
          do p0 <- rd prov 0;
          do b <- (if p0 =? 0 then Ret b
                   else do t <- buf_str 41 prov 0;
                        do '(_, b) <- snprintf_append b 0 23 ([32; 61; 32] ++ t); Ret b);
          Ret (OBJ_DESIG_ASTEROID_NUMBERED, Some b)
      end
  else if strchr (zs "PCDXAI") c4 then
    match obuff with
    | None => Ret (OBJ_DESIG_COMET_NUMBERED, None)
    | Some b =>
        do suffix <- at_ packed 11;
        do i <- skip_zeroes (S (length packed)) packed 0;
        do '(b, j) <- copy_digits (S (length packed)) b 0 packed i;
        do b <- wr b j c4;
        let j := j + 1 in
        do '(b, j) <-
          (if islower suffix then
             do extra <- at_ packed 10;
             do b <- wr b j 45;
             do '(b, j) <- (if islower extra
                            then do b <- wr b (j + 1) (extra + 65 - 97); Ret (b, j + 2)
                            else Ret (b, j + 1));
             do b <- wr b j (suffix + 65 - 97);
             Ret (b, j + 1)
           else Ret (b, j));
        do b <- wr b j 0;
        Ret (OBJ_DESIG_COMET_NUMBERED, Some b)
    end
  else Ret (rval, obuff).

(** unpack.cpp:316-328: provisional designations of asteroids and comets.  obuff
    stays advanced after "C/" was written, also if the rest is not a
    designation. *)
Definition unpack_plain (obuff : dest) (packed : list Z) (rval : Z) : outcome (Z * dest) :=
  do c4 <- at_ packed 4;
  if (rval =? OBJ_DESIG_OTHER) && prefix (zs "    ") packed && strchr (zs " PCDXA") c4 then
    do obuff <- (match obuff with
                 | Some (b, off) => if c4 =? 32 then Ret obuff
                                    else do b <- wr b off c4; do b <- wr b (off + 1) 47; Ret (Some (b, off + 2))
                 | None => Ret None
                 end);
    do '(bad, obuff) <- unpack_provisional_packed_desig obuff 16 packed 5;
    Ret (if negb (bad =? 0) then rval
         else if (c4 =? 32) || (c4 =? 65) then OBJ_DESIG_ASTEROID_PROVISIONAL
         else OBJ_DESIG_COMET_PROVISIONAL, obuff)
  else Ret (rval, obuff).

(** unpack.cpp:329-346: survey designations. *)
Definition unpack_survey (obuff : dest) (packed : list Z) (digit_mask space_mask rval : Z)
  : outcome (Z * dest) :=
  do c5 <- at_ packed 5; do c6 <- at_ packed 6; do c7 <- at_ packed 7;
  if (rval =? OBJ_DESIG_OTHER) && (space_mask =? 31) && (Z.land digit_mask 3840 =? 3840) && (c7 =? 83)
     && (((c5 =? 80) && (c6 =? 76)) || ((c5 =? 84) && (49 <=? c6) && (c6 <=? 51)))
  then match obuff with
       | None => Ret (OBJ_DESIG_ASTEROID_PROVISIONAL, None)
       | Some (b, off) =>
           do b <- store b off (firstn 4 (skipn 8 packed));
           do b <- wr b (off + 4) 32;
           do b <- wr b (off + 5) c5;
           do b <- wr b (off + 6) 45;
           do b <- wr b (off + 7) c6;
           do b <- wr b (off + 8) 0;
           Ret (OBJ_DESIG_ASTEROID_PROVISIONAL, Some (b, off))
       end
  else Ret (rval, obuff).

(** unpack.cpp:354-355: drop the trailing blanks. *)
Fixpoint trim_end (i : nat) (b : buf) (off : Z) : outcome nat :=
  match i with
  | O => Ret O
  | S i' => do c <- rd b (off + Z.of_nat i'); if c <=? 32 then trim_end i' b off else Ret i
  end.

(** unpack.cpp:348-357: the name as it is. *)
Definition unpack_as_is (obuff : dest) (packed : list Z) (rval : Z) : outcome dest :=
  match obuff with
  | Some (b, off) =>
      if rval =? OBJ_DESIG_OTHER then
        let i := span (Z.eqb 32) (firstn 12 packed) in
        do b <- store b off (firstn (12 - i) (skipn i packed));
        do n <- trim_end (12 - i) b off;
        do b <- wr b (off + Z.of_nat n) 0;
        Ret (Some (b, off))
      else Ret obuff
  | None => Ret None
  end.

Definition at0 (o : option buf) : dest := match o with Some b => Some (b, 0) | None => None end.
Definition of_dest (d : dest) : option buf := match d with Some (b, _) => Some b | None => None end.

(** unpack.cpp:166-362 [unpack_mpc_desig]. *)
Definition unpack_mpc_desig (obuff : option buf) (packed : list Z) : outcome (Z * option buf) :=
  do c0 <- at_ packed 0;
  if c0 =? 36 then
    match obuff with
    | None => Ret (OBJ_DESIG_ASTEROID_NUMBERED, None)
    | Some b => do '(_, b) <- strlcpy_err b 0 (skipn 1 packed) 16;
                Ret (OBJ_DESIG_ASTEROID_NUMBERED, Some b)
    end
  else
    do '(digit_mask, space_mask) <- desig_masks 12 packed 0 1 0 0;
    do '(rval, obuff) <- unpack_natsat obuff packed digit_mask space_mask OBJ_DESIG_OTHER;
    do '(_, prov) <- unpack_provisional_packed_desig (Some (repeat None 40, 0)) 40 packed 5;
    let provisional_desig := match prov with Some (b, _) => b | None => [] end in
    do early <- unpack_tilde obuff provisional_desig packed space_mask;
    match early with
    | Some r => Ret r
    | None =>
        do '(rval, obuff) <- unpack_numbered obuff provisional_desig packed digit_mask space_mask rval;
        do '(rval, obuff) <- unpack_plain (at0 obuff) packed rval;
        do '(rval, obuff) <- unpack_survey obuff packed digit_mask space_mask rval;
        do obuff <- unpack_as_is obuff packed rval;
        do art <- (if rval =? OBJ_DESIG_OTHER then is_artsat_desig packed else Ret false);
        Ret (if art then OBJ_DESIG_ARTSAT else rval, of_dest obuff)
    end.

(** unpack.cpp:368-388 [unpack_unaligned_mpc_desig].  A name of more than 12
    characters is copied without a terminator. *)
Definition unpack_unaligned_mpc_desig (obuff : option buf) (packed : list Z) : outcome (Z * option buf) :=
  let packed := skipn (span (Z.eqb 32) packed) packed in
  let len := span (fun c => (32 <? c) && (c <? 127)) packed in
  if (12 <? len)%nat then
    match obuff with
    | None => UB
    | Some b => do b <- store b 0 (firstn 12 packed); Ret (OBJ_DESIG_OTHER, Some b)
    end
  else
    let column := if (len =? 7)%nat || (len =? 8)%nat then (12 - len)%nat else O in
    unpack_mpc_desig obuff (repeat 32 column ++ firstn len packed ++ repeat 32 (12 - len - column)).

(* ================= packing ================= *)

(** mpc_fmt.cpp:51-58 [quick_atoi], with [int] overflow checked; [s] is the rest
    of the string. *)
Fixpoint quick_atoi (s : list Z) (rval : Z) : outcome Z :=
  match s with
  | c :: r => if isdigit c then do v <- ev IMAX (rval * 10 + (c - 48))%cx; quick_atoi r v else Ret rval
  | [] => Ret rval
  end.

(** mpc_fmt.cpp:581-617 [extract_roman_numeral]. *)
Fixpoint extract_roman_loop (str : list Z) (rval : Z) : outcome Z :=
  match str with
  | [] => Ret rval
  | c :: r =>
      let next := match r with d :: _ => d | [] => 0 end in
      let step (v : Z) := do x <- ev IMAX (rval + v)%cx; extract_roman_loop r x in
      if c =? 73 then step (if (next =? 86) || (next =? 88) then -1 else 1)
      else if c =? 86 then step 5
      else if c =? 88 then step (if (next =? 76) || (next =? 67) then -10 else 10)
      else if c =? 76 then step 50
      else if c =? 67 then step (if (next =? 68) || (next =? 77) then -100 else 100)
      else if c =? 68 then step 500
      else if c =? 77 then step 1000
      else Ret (-1)
  end.
Definition extract_roman_numeral (str : list Z) : outcome Z := extract_roman_loop str 0.

(** mpc_fmt.cpp:623. *)
Definition PACKED_DESIG_LEN : nat := 13.

(** mpc_fmt.cpp:625-649 [pack_permanent_natsat]; [i] is the index in
    planet_names_in_english. *)
Fixpoint pack_natsat_loop (names : list (list Z)) (i : Z) (b : buf) (fullname : list Z)
  : outcome (Z * buf) :=
  match names with
  | [] => Ret (-1, b)
  | nm :: r =>
      let len := length nm in
      do hit <- (Ret (prefix nm fullname) &&& tst fullname (Z.of_nat len) (fun c => c =? 32));
      do sat_number <-
        (if hit then
           do n <- atoi (skipn (len + 1) fullname);
           if n =? 0 then extract_roman_numeral (skipn (len + 1) fullname) else Ret n
         else Ret 0);
      if (0 <? sat_number) && (sat_number <? 1000) then
        do c0 <- at_ fullname 0;
        do '(_, b) <- snprintf_err b 0 PACKED_DESIG_LEN ([c0] ++ pad0 3 sat_number ++ zs "S       ");
        Ret (i, b)
      else pack_natsat_loop r (i + 1) b fullname
  end.
Definition pack_permanent_natsat (b : buf) (fullname : list Z) : outcome (Z * buf) :=
  pack_natsat_loop planet_names_in_english 0 b fullname.

(** mpc_fmt.cpp:653-672 [pack_provisional_natsat]. *)
Definition pack_provisional_natsat (b : buf) (fullname : list Z) : outcome (Z * buf) :=
  do ok <- (tst fullname 0 (fun c => c =? 83) &&& tst fullname 1 (fun c => c =? 47)
            &&& Ret (9 <? length fullname)%nat
            &&& tst fullname 6 (fun c => c =? 32) &&& tst fullname 8 (fun c => c =? 32)
            &&& tst fullname 7 (strchr (zs "MVEMJSUNP")));
  if negb ok then Ret (-1, b) else
  do year <- atoi (skipn 2 fullname);
  do num <- atoi (skipn 9 fullname);
  if (1900 <? year) && (year <? 2100) && (0 <? num) && (num <? 620) then
    do c7 <- at_ fullname 7;
    do '(_, b) <- snprintf_err b 0 PACKED_DESIG_LEN
       (zs "    S" ++ [to_char (65 + Z.quot year 100 - 10)] ++ pad0 2 (Z.rem year 100)
        ++ [c7; int_to_mutant_hex_char (Z.quot num 10); to_char (48 + Z.rem num 10)] ++ [48]);
    Ret (0, b)
  else Ret (-1, b).

(** mpc_fmt.cpp:726-728: the unsigned number at the start. *)
Fixpoint lead_number (s : list Z) (number : Z) : Z :=
  match s with
  | c :: r => if isdigit c then lead_number r ((number * 10 + (c - 48)) mod 4294967296) else number
  | [] => number
  end.

(** mpc_fmt.cpp:732-733: ignore trailing spaces. *)
Fixpoint drop_spaces (len : nat) (s : list Z) : nat :=
  match len with
  | O => O
  | S l => if nth l s 0 =? 32 then drop_spaces l s else len
  end.

(** mpc_fmt.cpp:767-772. *)
Definition surveys : list (list Z * list Z) :=
  [(zs "P-L", zs "PLS"); (zs "T-1", zs "T1S"); (zs "T-2", zs "T2S"); (zs "T-3", zs "T3S")].

(** mpc_fmt.cpp:765-778: survey designations. *)
Fixpoint pack_survey (l : list (list Z * list Z)) (b : buf) (obj : list Z) (i : nat) : outcome (option buf) :=
  match l with
  | [] => Ret None
  | (nm, pk) :: r =>
      if streq (skipn i obj) nm then
        do b <- store b 8 (firstn 4 obj);
        do b <- store b 5 pk;
        Ret (Some b)
      else pack_survey r b obj i
  end.

(** mpc_fmt.cpp:780-834: provisional designations.  Returns rval and the
    buffer.  [comet] is comet_desig. *)
Definition pack_provisional (b : buf) (obj : list Z) (i : nat) (len : nat) (number comet : Z)
  : outcome (Z * buf) :=
  do b <- (if number <? 6200 then wr b 5 (int_to_mutant_hex_char (number / 100)) else Ret b);
  do c2 <- at_ obj 2; do b <- wr b 6 c2;
  do c3 <- at_ obj 3; do b <- wr b 7 c3;
  do c <- at_ obj (Z.of_nat i); do b <- wr b 8 (toupper c);
  let i := S i in
  do c <- at_ obj (Z.of_nat i);
  do '(b, i, mangled) <-
     (if isupper c then do b <- wr b 11 c; Ret (b, S i, false)
      else if comet =? 0 then Ret (b, i, true)
      else do b <- wr b 11 48; Ret (b, i, false));
  do sub_designator <- quick_atoi (skipn i obj) 0;
  if (0 <=? sub_designator) && (number <? 6200) then
    do '(b, mangled) <-
      (if sub_designator <? 620 then
         do b <- wr b 10 (int_to_mutant_hex_char (Z.rem sub_designator 10));
         do b <- wr b 9 (int_to_mutant_hex_char (Z.quot sub_designator 10));
         Ret (b, mangled)
       else if (2000 <=? number) && (number <? 2062) then
         do p11 <- rd b 11;
         do n0 <- ev IMAX ((sub_designator - 620) * 25 + p11 - 65)%cx;
         let n := if 73 <? p11 then n0 - 1 else n0 in
         if 62 * 62 * 62 * 62 <=? n then Ret (b, true)
         else
           do b <- wr b 5 95;
           do b <- wr b 6 (int_to_mutant_hex_char (number - 2000));
           do p8 <- rd b 8;
           do b <- wr b 7 p8;
           do '(_, b) <- encode_value_in_mutant_hex b 8 4 n;
           Ret (b, mangled)
       else Ret (b, mangled));
    let i := (i + span isdigit (skipn i obj))%nat in
    do '(b, i) <-
      (if comet =? 0 then Ret (b, i)
       else
         do b <- wr b 4 comet;
         do frag <- (tst obj (Z.of_nat i) (fun c => c =? 45) &&& tst obj (Z.of_nat (i + 1)) isupper);
         if frag then
           do f <- at_ obj (Z.of_nat (i + 1));
           do b <- wr b 11 (f + 97 - 65);
           Ret (b, (i + 2)%nat)
         else Ret (b, i));
    Ret (if (i =? len)%nat && negb mangled then 0 else -1, b)
  else Ret (-1, b).

(** mpc_fmt.cpp:737-753: '297P', '1I', '73P-AB'.  [ci] is obj_name[i]. *)
Definition pack_permanent_comet (b : buf) (obj : list Z) (i : nat) (number ci : Z) : outcome (Z * buf) :=
  do '(_, b) <- vsnprintf b 0 5 (pad0 4 number);
  do b <- wr b 4 ci;
  do frag <- (tst obj (Z.of_nat (i + 1)) (fun c => c =? 45) &&& tst obj (Z.of_nat (i + 2)) isupper);
  if negb frag then Ret (0, b) else
  do f1 <- at_ obj (Z.of_nat (i + 2));
  do f2 <- at_ obj (Z.of_nat (i + 3));
  do b <- (if isupper f2 then do b <- wr b 10 (f1 + 97 - 65); wr b 11 (f2 + 97 - 65)
           else wr b 11 (f1 + 97 - 65));
  Ret (0, b).

(** mpc_fmt.cpp:836-849: numbered asteroids. *)
Definition pack_numbered (b : buf) (number : Z) : outcome (Z * buf) :=
  if number <? 620000 then
    do '(_, b) <- snprintf_err b 0 PACKED_DESIG_LEN
       ([int_to_mutant_hex_char (number / 10000)] ++ pad0 4 (number mod 10000) ++ zs "       ");
    Ret (0, b)
  else
    do b <- wr b 0 126;
    do '(_, b) <- encode_value_in_mutant_hex b 1 4 (number - 620000);
    Ret (0, b).

(** mpc_fmt.cpp:850-873: numbered comets such as 'P/297'. *)
Definition pack_slash_comet (b : buf) (obj : list Z) (i len : nat) (number comet : Z) : outcome (Z * buf) :=
  do fr <- (tst obj (Z.of_nat i) (fun c => c =? 45) &&& tst obj (Z.of_nat (i + 1)) isupper);
  do n_fragment_letters <-
    (if negb fr then Ret 0
     else if (i + 2 =? len)%nat then Ret 1
     else do two <- (Ret (i + 3 =? len)%nat &&& tst obj (Z.of_nat (i + 2)) isupper);
          Ret (if two then 2 else 0));
  if (i =? len)%nat || negb (n_fragment_letters =? 0) then
    do '(_, b) <- snprintf_err b 0 PACKED_DESIG_LEN (pad0 4 number ++ [comet] ++ zs "       ");
    do b <- (if n_fragment_letters =? 1
             then do f1 <- at_ obj (Z.of_nat (i + 1)); wr b 11 (f1 + 97 - 65) else Ret b);
    do b <- (if n_fragment_letters =? 2
             then do f1 <- at_ obj (Z.of_nat (i + 1));
                  do f2 <- at_ obj (Z.of_nat (i + 2));
                  do b <- wr b 10 (f1 + 97 - 65); wr b 11 (f2 + 97 - 65)
             else Ret b);
    Ret (0, b)
  else Ret (-1, b).

(** mpc_fmt.cpp:874-887: artificial and natural satellites. *)
Definition pack_satellite (b : buf) (obj : list Z) (len : nat) (number : Z) : outcome (Z * buf) :=
  do art <- (Ret ((1957 <=? number) && (number <? 2100))
             &&& tst obj 4 (fun c => c =? 45) &&& Ret ((9 <=? len)%nat && (len <=? 11)%nat));
  if art then
    do ok <- (tst obj 5 isdigit &&& tst obj 6 isdigit &&& tst obj 7 isdigit &&& tst obj 8 isupper);
    if ok then do b <- store b 0 (firstn len obj); Ret (0, b) else Ret (-1, b)
  else
    do '(r, b) <- pack_permanent_natsat b obj;
    if 0 <=? r then Ret (0, b)
    else do '(r, b) <- pack_provisional_natsat b obj;
         Ret (if 0 <=? r then 0 else -1, b).

(** mpc_fmt.cpp:755-887: all branches after the numbered comets, with i after the
    digits and a blank.  [inpar] is in_parentheses. *)
Definition pack_branches (b : buf) (obj : list Z) (i len : nat) (number comet : Z) (inpar : bool)
  : outcome (Z * buf) :=
  do ci <- at_ obj (Z.of_nat i);
  if (999 <? number) && (number <? 9000) && isupper ci then
    do sv <- pack_survey surveys b obj i;
    match sv with
    | Some b => Ret (0, b)
    | None => pack_provisional b obj i len number comet
    end
  else if inpar && (i =? len)%nat && (number <? 620000 + 62 * 62 * 62 * 62) && (0 <? number)
          && (comet =? 0) then pack_numbered b number
  else if (number <? 10000) && (0 <? number) && negb (comet =? 0) then
    pack_slash_comet b obj i len number comet
  else pack_satellite b obj len number.

(** mpc_fmt.cpp:889-904: the undeciphered name; [whole] still has its comet
    prefix. *)
Definition pack_undeciphered (b : buf) (whole : list Z) (len : nat) : outcome (Z * buf) :=
  do b <- (if (len <=? 7)%nat then store b 5 (firstn len whole)
           else do b <- wr b 0 36; store b 1 (firstn 11 whole));
  Ret (-1, b).

(** mpc_fmt.cpp:722-906: the part after the prefixes.  [whole] is the name
    without leading blanks and parenthesis, [obj] is [whole] without the comet
    prefix, [comet] is comet_desig (0 if none). *)
Definition pack_name (b : buf) (whole obj : list Z) (par : bool) (comet : Z) : outcome (Z * buf) :=
  do b <- store b 0 (repeat 32 12 ++ [0]);
  let i := span isdigit obj in
  let number := lead_number obj 0 in
  let len := drop_spaces (length obj - (if par then 1 else 0)) obj in
  let inpar := par || ((i =? len)%nat && (0 <? number) && (number <? 1000000) && (5 <=? i)%nat) in
  do ci <- at_ obj (Z.of_nat i);
  do permanent <- (Ret ((0 <? number) && (number <? 10000) && negb (ci =? 0))
                   &&& tst obj (Z.of_nat (i + 1)) (fun c => (c =? 0) || (c =? 45))
                   &&& Ret (strchr (zs "PDI") ci));
  if permanent then pack_permanent_comet b obj i number ci
  else
    let i := if (i <? len)%nat && (ci =? 32) then S i else i in
    do '(rval, b) <- pack_branches b obj i len number comet inpar;
    if rval =? -1 then pack_undeciphered b whole (if comet =? 0 then len else (len + 2)%nat)
    else Ret (rval, b).

(** mpc_fmt.cpp:694-906 [create_mpc_packed_desig].  [b] is packed_desig. *)
Definition create_mpc_packed_desig (b : buf) (obj_name : list Z) : outcome (Z * buf) :=
  let obj := skipn (span (Z.eqb 32) obj_name) obj_name in
  do par <- (tst obj 0 (fun c => c =? 40)
             &&& (let j := Z.of_nat (1 + span isdigit (skipn 1 obj)) in
                  tst obj j (fun c => c =? 41) &&& tst obj (j + 1) (fun c => c =? 0)));
  let obj := if par then skipn 1 obj else obj in
  do is_comet <- (tst obj 1 (fun c => c =? 47) &&& tst obj 0 (strchr (zs "PCXDA")));
  do c0 <- at_ obj 0;
  if is_comet then pack_name b obj (skipn 2 obj) par c0 else pack_name b obj obj par 0.
