(** Model of ades2mpc.cpp: reading ADES data (XML and PSV) line by line.

    What fills in an observation is in ObsModel.v; here the fields of the context that hold
    its parts are one value of an arbitrary type [W], and the functions that work on
    them (the cases of process_ades_tag for single values, get_a_line,
    setup_observation and check_for_tholen_sigmas) are arguments of the model, the
    [hooks].  None of those changes the other fields of the context.

    Bytes of a line are chars (signed); a line is the list of those before the
    terminator, so that a pointer into it is what is left of the list. *)
From Coq Require Import String.
From Verif Require Import CBase CStr.
Open Scope list_scope.

(** ades2mpc.cpp:37. *)
Definition MAX_DEPTH : nat := 20.

Section Ades.
Context {W : Type}.

(** ades2mpc.cpp:40-58 [ades2mpc_t].  [psv_tags] is NULL or an array. *)
Record ctx : Type := mk {
  depth : Z; tags : list Z; getting_lines : bool; passed_through : bool; prev_rval : Z;
  n_psv_fields : Z; psv_tags : option (list Z); rest : W }.

(** What is not modelled.
    [h_tag]: process_ades_tag (545-908) for a tag other than mpcCode, name, line and
    institution, with itag, tptr and len; gives rval and obuff.
    [h_line]: get_a_line (434-538) with what obuff holds; true if there was a line.
    [h_setup]: setup_observation (927-937).
    [h_tholen]: check_for_tholen_sigmas (950-977), whose obuff is overwritten later. *)
Record hooks : Type := mkh {
  h_tag : W -> Z -> list Z -> nat -> outcome (bool * list Z * W);
  h_line : W -> list Z -> outcome (bool * list Z * W);
  h_setup : W -> W;
  h_tholen : W -> list Z -> outcome (bool * W) }.
End Ades.
Arguments ctx W : clear implicits.
Arguments hooks W : clear implicits.

(** ades2mpc.cpp:60-66 [init_ades2mpc]. *)
Definition init_ades2mpc {W} (w : W) : ctx W := mk 0 (repeat 0 MAX_DEPTH) false false 0 0 None w.

Local Open Scope string_scope.
Local Open Scope list_scope.
Local Open Scope Z_scope.

(** ades2mpc.cpp:273-304, the table. *)
Definition tag_names : list string :=
  ["Location"; "MPCID"; "OffsetVal"; "OpticalID";
   "OpticalRes"; "OpticalResMag"; "OpticalResiduals";
   "Photometry"; "Precision"; "RadarID"; "RadarResiduals";
   "RadarValue"; "ades"; "aperture"; "arrayScale"; "artSat";
   "astCat"; "astrometry"; "band"; "biasDec"; "biasMag";
   "biasRA"; "biasTime"; "coinvestigators"; "collaborators";
   "com"; "comment"; "ctr"; "dec"; "decStar"; "delay";
   "deltaDec"; "deltaRA"; "deprecated"; "design"; "detector";
   "disc"; "dist"; "doppler"; "exp"; "fRatio"; "filter";
   "fitOrder"; "frq"; "fundingSource"; "institution"; "line";
   "localUse"; "logSNR"; "mag"; "measurers"; "mode";
   "mpcCode"; "nStars"; "name"; "notes"; "nucMag";
   "objectDetection"; "obsBlock"; "obsCenter"; "obsContext";
   "obsData"; "obsID"; "obsSubID"; "obsTime"; "observatory";
   "observers"; "occultation"; "offset"; "optical";
   "opticalResidual"; "orbID"; "orbProd"; "pa"; "permID";
   "photAp"; "photCat"; "photMod"; "photProd"; "photometry";
   "pixelScale"; "pos1"; "pos2"; "pos3"; "posCov11";
   "posCov12"; "posCov13"; "posCov22"; "posCov23"; "posCov33";
   "precDec"; "precRA"; "precTime"; "prog"; "provID"; "ra";
   "raStar"; "radar"; "radarResidual"; "rcv"; "ref";
   "remarks"; "resDec"; "resDelay"; "resDoppler"; "resMag";
   "resRA"; "rmsCorr"; "rmsDec"; "rmsDelay"; "rmsDist";
   "rmsDoppler"; "rmsFit"; "rmsMag"; "rmsPA"; "rmsRA";
   "rmsTime"; "seeing"; "selAst"; "selDelay"; "selDoppler";
   "selPhot"; "shapeOcc"; "sigCorr"; "sigDec"; "sigDelay";
   "sigDoppler"; "sigMag"; "sigRA"; "sigTime"; "software";
   "stn"; "subFmt"; "subFrm"; "submitter"; "sys"; "telescope";
   "trkID"; "trkMPC"; "trkSub"; "trx"; "uncTime"; "vel1";
   "vel2"; "vel3"].
Definition tag_table : list (list Z) := map zs tag_names.

(** ades2mpc.cpp:122-266, those of the numbers used here. *)
Definition ADES_comment : Z := 27.
Definition ADES_institution : Z := 46.
Definition ADES_line : Z := 47.
Definition ADES_measurers : Z := 51.
Definition ADES_mpcCode : Z := 53.
Definition ADES_name : Z := 55.
Definition ADES_observatory : Z := 66.
Definition ADES_observers : Z := 67.
Definition ADES_optical : Z := 70.
Definition ADES_submitter : Z := 135.

(** memcmp( a, b, n) == 0 for two strings.  It stops at the first difference, as
    memcmp( ) does in practice; the standard would let it read n bytes of both.  Past
    one terminator the bytes differ, as n bytes of one string are not zero. *)
Fixpoint memeq (a b : list Z) (n : nat) : bool :=
  match n with
  | O => true
  | S n => match a, b with
           | x :: a, y :: b => (x =? y) && memeq a b n
           | _, _ => false
           end
  end.

(** ades2mpc.cpp:314-316. *)
Fixpoint find_loop (table : list (list Z)) (i : Z) (buff : list Z) (len : nat) : Z :=
  match table with
  | [] => -1
  | t :: table => if memeq t buff len && Nat.eqb (List.length t) len then i + 1 else find_loop table (i + 1) buff len
  end.
(** ades2mpc.cpp:271-318 [find_tag]; [len] counts bytes of buff. *)
Definition find_tag (buff : list Z) (len : nat) : Z :=
  let '(buff, len) := match buff with 47 :: b => (b, pred len) | _ => (buff, len) end in
  if memeq buff (zs "ades") 4 then 0 else find_loop tag_table 0 buff len.

(** ades2mpc.cpp:427-432 [skip_whitespace]. *)
Definition skip_whitespace (s : list Z) : list Z := skipn (span isspace s) s.

(** strchr( s, c) and strstr( s, t) of the C library. *)
Fixpoint find_char (c : Z) (s : list Z) : option (list Z) :=
  match s with
  | [] => None
  | x :: r => if x =? c then Some s else find_char c r
  end.
Fixpoint contains (t s : list Z) : bool :=
  prefix t s || match s with [] => false | _ :: r => contains t r end.

(** strlcpy_err( obuff, s, 221) and snprintf_err( obuff, 221, ...) writing s: the text
    must fit (snprintf.cpp:192-204, 226-251). *)
Definition put_221 (s : list Z) : outcome (list Z) := if 221 <=? Z.of_nat (List.length s) then Abort else Ret s.

Section Xlate.
Context {W : Type}.
Variable h : hooks W.

Definition set_depth (c : ctx W) (d : Z) (t : list Z) : ctx W :=
  mk d t (getting_lines c) (passed_through c) (prev_rval c) (n_psv_fields c) (psv_tags c) (rest c).
Definition set_getting (c : ctx W) (g : bool) : ctx W :=
  mk (depth c) (tags c) g (passed_through c) (prev_rval c) (n_psv_fields c) (psv_tags c) (rest c).
Definition set_passed (c : ctx W) (p : bool) : ctx W :=
  mk (depth c) (tags c) (getting_lines c) p (prev_rval c) (n_psv_fields c) (psv_tags c) (rest c).
Definition set_psv (c : ctx W) (n : Z) (p : option (list Z)) : ctx W :=
  mk (depth c) (tags c) (getting_lines c) (passed_through c) (prev_rval c) n p (rest c).
Definition set_rest (c : ctx W) (w : W) : ctx W :=
  mk (depth c) (tags c) (getting_lines c) (passed_through c) (prev_rval c) (n_psv_fields c) (psv_tags c) w.
Definition set_prev (c : ctx W) (r : Z) : ctx W :=
  mk (depth c) (tags c) (getting_lines c) (passed_through c) r (n_psv_fields c) (psv_tags c) (rest c).

(** ades2mpc.cpp:545-908 [process_ades_tag]; returns rval, obuff and the context.
    What comes before the switch for the tags left to [h_tag] is part of [h_tag]. *)
Definition process_ades_tag (c : ctx W) (itag : Z) (tptr : list Z) (len : nat) : outcome (Z * list Z * ctx W) :=
  let text := firstn len tptr in
  if itag =? ADES_mpcCode then
    if (40 <=? len)%nat then UB          (* name[ ] not set *)
    else do o <- put_221 (zs "COD " ++ text ++ [10]); Ret (1, o, c)
  else if (itag =? ADES_name) || (itag =? ADES_line) || (itag =? ADES_institution) then
    if 1 <? depth c then
      do parent <- nth_ub (tags c) (depth c - 2);
      let intro :=
        if (parent =? ADES_mpcCode) || (parent =? ADES_comment) then zs "COM "
        else if parent =? ADES_observatory then zs "COM Observatory name "
        else if parent =? ADES_observers then zs "OBS "
        else if parent =? ADES_measurers then zs "MEA "
        else if parent =? ADES_submitter then zs "CON "
        else zs "COM Mangled '" in
      let outro :=
        if (parent =? ADES_mpcCode) || (parent =? ADES_comment) || (parent =? ADES_observatory) || (parent =? ADES_observers)
           || (parent =? ADES_measurers) || (parent =? ADES_submitter) then [10] else [39; 10] in
      do o <- put_221 (intro ++ text ++ outro); Ret (1, o, c)
    else Ret (1, zs "COM Mangled name data" ++ [10], c)
  else
    do '(r, o, w) <- h_tag h (rest c) itag tptr len;
    Ret (if r : bool then 1 else 0, o, set_rest c w).

(** ades2mpc.cpp:434-538 [get_a_line]. *)
Definition get_a_line (c : ctx W) (obuff : list Z) : outcome (Z * list Z * ctx W) :=
  do '(more, o, w) <- h_line h (rest c) obuff;
  let c := set_rest c w in
  let c := if more : bool then c else set_getting c false in
  Ret (if getting_lines c then 1 else 0, o, c).

(** ades2mpc.cpp:927-937 [setup_observation]. *)
Definition setup_observation (c : ctx W) : ctx W := set_rest c (h_setup h (rest c)).

(** ades2mpc.cpp:910-925 [process_psv_tag]; the return value is not used.  The second
    loop drops trailing spaces. *)
Fixpoint drop_trailing (f : Z -> bool) (s : list Z) (len : nat) : nat :=
  match len with
  | O => O
  | S n => if f (nth n s 0) then drop_trailing f s n else len
  end.
Definition process_psv_tag (c : ctx W) (obuff : list Z) (itag : Z) (ibuff : list Z) : outcome (list Z * ctx W) :=
  let ibuff := skip_whitespace ibuff in
  let len := span (fun x => negb (x =? 124) && (32 <=? x)) ibuff in
  let len := drop_trailing (Z.eqb 32) ibuff len in
  if Nat.ltb 0 len && (0 <=? itag) then
    do '(_, o, c) <- process_ades_tag c itag ibuff len; Ret (o, c)
  else Ret (obuff, c).

(** ades2mpc.cpp:984-990: count the fields, but not beyond n_psv_fields + 1; [k] is
    n_psv_fields + 1 - i. *)
Fixpoint count_fields (k : nat) (tptr : option (list Z)) (i : Z) : Z :=
  match k with
  | O => i
  | S k => match tptr with
           | None => i
           | Some t => count_fields k (match find_char 124 t with Some r => Some (tl r) | None => None end) (i + 1)
           end
  end.
(** ades2mpc.cpp:994-1003: the fields from i on, [k] of them. *)
Fixpoint psv_loop (k : nat) (i : Z) (c : ctx W) (tg : list Z) (obuff : list Z) (ibuff : option (list Z))
  : outcome (list Z * ctx W * option (list Z)) :=
  match k with
  | O => Ret (obuff, c, ibuff)
  | S k =>
      do itag <- nth_ub tg i;
      do b <- (match ibuff with Some b => Ret b | None => UB end);
      do '(obuff, c) <- process_psv_tag c obuff itag b;
      let next := find_char 124 b in
      do next <- (if i =? n_psv_fields c - 1 then Ret next
                  else match next with Some r => Ret (Some (tl r)) | None => Abort end);
      psv_loop k (i + 1) c tg obuff next
  end.
(** ades2mpc.cpp:979-1006 [process_psv_line]; what obuff holds is discarded or
    overwritten by get_a_line( ), it is returned here all the same. *)
Definition process_psv_line (c : ctx W) (obuff : list Z) (tg : list Z) (ibuff : list Z) : outcome (Z * list Z * ctx W) :=
  let n := n_psv_fields c in
  if negb (count_fields (Z.to_nat (n + 1)) (Some ibuff) 0 =? n) then Ret (0, obuff, c)
  else
    do '(o, c, after) <- psv_loop (Z.to_nat n) 0 (setup_observation c) tg obuff (Some ibuff);
    match after with None => Ret (1, o, c) | Some _ => Abort end.

(** ades2mpc.cpp:1018-1030: how many fields, or none if one does not start with a
    lowercase letter; [fuel] bounds the rounds. *)
Fixpoint header_fields (fuel : nat) (s : list Z) (n : Z) : outcome Z :=
  match fuel with
  | O => Fuel
  | S f =>
      let s := skip_whitespace s in
      match s with
      | x :: _ => if islower x then
                    match find_char 124 s with Some r => header_fields f (tl r) (n + 1) | None => Ret (n + 1) end
                  else Ret 0
      | [] => Ret 0
      end
  end.
(** ades2mpc.cpp:1038-1053: the tags of the fields. *)
Fixpoint header_tags (fuel : nat) (s : list Z) : outcome (list Z) :=
  match fuel with
  | O => Fuel
  | S f =>
      let s := skip_whitespace s in
      let i := span (fun x => negb (x =? 124) && (32 <? x)) s in
      let t := find_tag s i in
      if t <=? 0 then Abort
      else match find_char 124 s with
           | Some r => do l <- header_tags f (tl r); Ret (t :: l)
           | None => Ret [t]
           end
  end.
(** ades2mpc.cpp:1013-1056 [check_for_psv_header]. *)
Definition check_for_psv_header (c : ctx W) (buff : list Z) : outcome (Z * ctx W) :=
  do n <- header_fields (S (List.length buff)) buff 0;
  if n <? 4 then Ret (0, c)
  else
    do l <- header_tags (S (List.length buff)) buff;
    Ret (Z.of_nat (List.length l), set_psv c n (Some l)).

(** ades2mpc.cpp:1058-1085 [process_psv_header] for a line of at least two bytes. *)
Definition process_psv_header (c : ctx W) (obuff : list Z) (ibuff : list Z) : outcome (Z * list Z * ctx W) :=
  let s := skipn 2 ibuff in
  let i := span (fun x => 32 <? x) s in
  let itag := find_tag s i in
  if 0 <=? itag then
    if nth 0 ibuff 0 =? 35 then
      do t <- set_ub (tags c) 1 itag;
      Ret (2, obuff, set_depth c (depth c) t)
    else
      do t <- set_ub (tags c) 2 itag;
      let c := set_depth c 3 t in
      let s := skip_whitespace (skipn i s) in
      let i := span (fun x => 32 <=? x) s in
      do '(r, o, c) <- process_ades_tag c itag s i;
      Ret (r, o, set_depth c 0 (tags c))
  else Ret (0, obuff, c).

(** ades2mpc.cpp:1152-1208: the loop over tags and text.  [inr rval] is a return from
    inside it. *)
Fixpoint xml_loop (fuel : nat) (c : ctx W) (obuff : list Z) (rval : Z) (tptr : list Z)
  : outcome (list Z * ctx W * (Z + Z)) :=
  match fuel with
  | O => Fuel
  | S f =>
      if rval <? 0 then Ret (obuff, c, inl rval)
      else match tptr with
      | [] => Ret (obuff, c, inl rval)
      | x :: r =>
          if x =? 60 then
            let len := span (fun y => negb (y =? 62)) tptr in
            if Nat.eqb len (List.length tptr) then Ret (obuff, c, inr (-4))
            else
              let tag_idx := find_tag r (pred len) in
              let closing := match r with 47 :: _ => true | _ => false end in
              do '(c, rval) <-
                (if tag_idx <? 0 then Ret (c, rval)
                 else
                   do '(c, rval) <-
                     (if closing then
                        do d <- ev IMAX (depth c - 1)%cx;
                        let c := set_depth c d (tags c) in
                        if d <? 0 then Ret (c, -2)
                        else do t <- nth_ub (tags c) d;
                             Ret (c, if t =? tag_idx then rval else -2)
                      else
                        do t <- set_ub (tags c) (depth c) tag_idx;
                        let c := set_depth c (depth c + 1) t in
                        Ret (c, if depth c =? Z.of_nat MAX_DEPTH then -3 else rval));
                   if tag_idx =? ADES_optical then
                     if closing then Ret (set_getting c true, 1) else Ret (setup_observation c, rval)
                   else Ret (c, rval));
              xml_loop f c obuff rval (skip_whitespace (skipn (S len) tptr))
          else if negb (depth c =? 0) then
            do itag <- nth_ub (tags c) (depth c - 1);
            let len := span (fun y => negb (y =? 60)) tptr in
            let len := drop_trailing (fun y => (0 <=? y) && (y <=? 32)) tptr len in
            do '(rval, obuff, c) <- process_ades_tag c itag tptr len;
            xml_loop f c obuff rval (skip_whitespace (skipn len tptr))
          else Ret (obuff, c, inr rval)
      end
  end.

(** ades2mpc.cpp:1091-1217 [xlate_ades2mpc]; returns rval, obuff and the context.
    [in_place]: obuff and buff are the same array (then [obuff] must be [buff]).
    [temp] is what temp_obuff holds at first.  [fuel] bounds the rounds of the last
    loop. *)
Definition xlate_ades2mpc (fuel : nat) (in_place : bool) (temp : list Z) (c : ctx W) (obuff buff : list Z)
  : outcome (Z * list Z * ctx W) :=
  if passed_through c then Ret (0, obuff, set_passed c false)
  else if getting_lines c then get_a_line c obuff
  else
    let c := if (depth c =? 0) && contains (zs "<optical>") buff then set_depth c 1 (tags c) else c in
    do '(n, c) <- check_for_psv_header c buff;
    if negb (n =? 0) then Ret (0, obuff, set_depth c 1 (tags c))
    else
      (* the buffer the helper functions write to *)
      let w := if in_place then temp else obuff in
      do '(rval, w, c) <-
        (match psv_tags c with
         | None => Ret (0, w, c)
         | Some tg =>
             do '(rval, w, c) <- process_psv_line c w tg buff;
             Ret (rval, w, if rval =? 0 then set_depth (set_psv c 0 None) 0 (tags c) else c)
         end);
      do '(rval, c) <-
        (if rval =? 0 then
           do '(t, r) <- h_tholen h (rest c) buff;
           Ret (if t : bool then (1, set_getting (set_rest c r) true) else (0, set_rest c r))
         else Ret (rval, c));
      do '(head, w, c) <-
        (if (rval =? 0) && (match buff with a :: 32 :: _ => (a =? 35) || (a =? 33) | _ => false end)
         then process_psv_header c w buff else Ret (0, w, c));
      if negb (head =? 0) then
        if head =? 1 then
          do o <- (if in_place then put_221 w else Ret w);
          Ret (1, o, set_passed c true)
        else Ret (0, if in_place then obuff else w, set_passed c false)
      else
        let c := if negb (rval =? 0) then set_getting c true else c in
        if (rval =? 0) && (depth c =? 0) && negb (contains (zs "<ades version") buff) then
          do o <- (if in_place then Ret buff else put_221 buff);
          Ret (1, o, set_passed c true)
        else if getting_lines c then get_a_line c (if in_place then buff else w)
        else
          do '(o, c, res) <- xml_loop fuel c (if in_place then [] else w) rval (skip_whitespace buff);
          match res with
          | inr r => Ret (r, if in_place then buff else o, c)
          | inl r =>
              do '(o, c) <- (if r =? 0 then Ret (o, c) else do '(_, o, c) <- get_a_line c o; Ret (o, c));
              do o <- (if in_place then put_221 o else Ret o);
              Ret (r, o, c)
          end.

(** ades2mpc.cpp:1256-1267, the loops of [fgets_with_ades_xlation].  [lines] is what is
    left of the file, as fgets_trimmed( ) gives it line by line. *)
Fixpoint read_loop (fuel : nat) (lines : list (list Z)) (temp : list Z) (c : ctx W) (prev : Z) (buff : list Z)
  : outcome (Z * list Z * ctx W * list (list Z)) :=
  if negb (prev =? 0) then Ret (prev, buff, c, lines)
  else match lines with
       | [] => Ret (prev, buff, c, [])
       | l :: lines =>
           do '(r, o, c) <- xlate_ades2mpc fuel true temp c l l;
           read_loop fuel lines temp c r o
       end.
(** ades2mpc.cpp:1250-1270 [fgets_with_ades_xlation]. *)
Definition fgets_with_ades_xlation (fuel : nat) (temp : list Z) (c : ctx W) (buff : list Z) (lines : list (list Z))
  : outcome (Z * list Z * ctx W * list (list Z)) :=
  do '(prev, buff, c) <- (if prev_rval c =? 0 then Ret (0, buff, c) else xlate_ades2mpc fuel true temp c buff buff);
  do '(r, o, c, lines) <- read_loop fuel lines temp c prev buff;
  let o := firstn (span (fun x => negb (x =? 10) && negb (x =? 13)) o) o in
  Ret (r, o, set_prev c r, lines).

(** ades2mpc.cpp:106-115 [free_ades2mpc_context]: the return value. *)
Definition free_ades2mpc_context (c : ctx W) : Z := depth c.
End Xlate.
