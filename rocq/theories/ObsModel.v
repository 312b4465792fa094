(** Model of the part of ades2mpc.cpp that fills in a single observation: the elements of an ADES observation go to
    the columns of an 80-column line, a second line and some comment lines.  With it the [hooks] of [AdesModel] are
    the whole program.

    A text that is pointed into is what is left of the C string, its terminator not included.  Numbers are exact
    rationals; printf rounds the exact value.  A text field of the context is the string it holds; the arrays for the
    two lines are lists of 83 bytes. *)
From Coq Require Import QArith String.
From Verif Require Import CBase CStr DesigModel MiscModel TstrModel CtimeModel AdesModel.
From Verif Require MpcfModel SofModel.
Import ListNotations.
Local Open Scope string_scope.
Local Open Scope list_scope.
Local Open Scope Z_scope.

(** ades2mpc.cpp:40-57: the text fields *)
Inductive part := RmsRA | RmsDec | Corr | RmsMag | RmsTime | FullRA | FullDec | FullMag | Notes | Program | TrkSub | ObsID | TrkID | Passband.
Definition part_eq_dec (a b : part) : {a = b} + {a <> b}.
Proof. decide equality. Defined.
(** Their sizes (PIECE_SIZE is 26) *)
Definition size_of (p : part) : Z :=
  match p with FullMag => 9 | Notes => 7 | Program => 3 | TrkSub => 14 | TrkID => 12 | Passband => 4 | _ => 26 end.

(** ades2mpc.cpp:40-57 [ades2mpc_t], the fields for one observation.  [t2k]: None for NOT_A_VALID_TIME. *)
Record obs := mk_obs { line : list Z; line2 : list Z; text : part -> list Z; t2k : option Q; id_set : Z;
  center : Z; vel : list Q; ignore_artsat : bool }.
Definition set_line (w : obs) l := mk_obs l (line2 w) (text w) (t2k w) (id_set w) (center w) (vel w) (ignore_artsat w).
Definition set_line2 (w : obs) l := mk_obs (line w) l (text w) (t2k w) (id_set w) (center w) (vel w) (ignore_artsat w).
Definition set_text (w : obs) (p : part) (s : list Z) :=
  mk_obs (line w) (line2 w) (fun q => if part_eq_dec p q then s else text w q) (t2k w) (id_set w) (center w) (vel w) (ignore_artsat w).
Definition set_t2k (w : obs) t := mk_obs (line w) (line2 w) (text w) t (id_set w) (center w) (vel w) (ignore_artsat w).
Definition set_id (w : obs) i := mk_obs (line w) (line2 w) (text w) (t2k w) i (center w) (vel w) (ignore_artsat w).
Definition set_center (w : obs) c := mk_obs (line w) (line2 w) (text w) (t2k w) (id_set w) c (vel w) (ignore_artsat w).
Definition set_vel (w : obs) v := mk_obs (line w) (line2 w) (text w) (t2k w) (id_set w) (center w) v (ignore_artsat w).

(** 59-65 [init_ades2mpc]: all zero bytes, no time *)
Definition init_obs : obs := mk_obs (repeat 0 83) (repeat 0 83) (fun _ => []) None 0 0 [0; 0; 0]%Q false.

(** memcpy( b + off, t, strlen( t)), and one byte *)
Definition put_at (b : list Z) (off : Z) (t : list Z) : outcome (list Z) :=
  if (0 <=? off) && (off + Z.of_nat (List.length t) <=? Z.of_nat (List.length b))
  then Ret (firstn (Z.to_nat off) b ++ t ++ skipn (Z.to_nat off + List.length t) b) else UB.
(** The n bytes from a pointer into a string; the terminator may be one of them *)
Definition bytes_at (s : list Z) (n : nat) : outcome (list Z) :=
  if (n <=? List.length s)%nat then Ret (firstn n s)
  else if (n =? S (List.length s))%nat then Ret (s ++ [0]) else UB.
(** The string at a place of an array *)
Definition str_at (b : list Z) (off : nat) : outcome (list Z) :=
  let s := skipn off b in
  let n := span (fun x => negb (x =? 0)) s in
  if (n =? List.length s)%nat then UB else Ret (firstn n s).
(** assert( len < sizeof( field)); strlcpy_err( field, name, sizeof( field)) *)
Definition keep (w : obs) (p : part) (len : nat) (name : outcome (list Z)) : outcome obs :=
  if Z.of_nat len <? size_of p then do n <- name; Ret (set_text w p n) else Abort.
(** strlcpy_err( field, name, sizeof( field)) alone: an error if it does not fit *)
Definition copy_err (w : obs) (p : part) (name : outcome (list Z)) : outcome obs :=
  do n <- name; if Z.of_nat (List.length n) <? size_of p then Ret (set_text w p n) else Abort.

(** 324-375 [pack_mpc_reference]: the five bytes at [packed] before and after *)
Definition five (b : buf) : outcome (list Z) :=
  (fix go (b : buf) : outcome (list Z) :=
     match b with [] => Ret [] | Some c :: r => do t <- go r; Ret (c :: t) | None :: _ => UB end) b.
Definition pack_mpc_reference (packed ref : list Z) : outcome (list Z) :=
  let len := List.length ref in
  let mutant first v := do '(_, b) <- encode_value_in_mutant_hex (Some first :: repeat None 4) 1 4 v; five b in
  if (12 <=? len)%nat && (len <=? 14)%nat && prefix (zs "MPEC ") ref && (nth 9 ref 0 =? 45) then
    Ret ([69; nth 10 ref 0] ++ repeat 48 (14 - len) ++ skipn 11 ref)
  else if prefix (zs "MPS ") ref then
    do n <- atoi (skipn 4 ref);
    let n := n mod 4294967296 in
    if n <? 260000 then Ret ((97 + n / 10000) :: pad0 4 (n mod 10000))
    else mutant 126 (to_int (n - 260000))
  else if prefix (zs "MPC ") ref then
    do n <- atoi (skipn 4 ref);
    let n := n mod 4294967296 in
    if n <? 110000 then Ret (if n <? 100000 then pad0 5 (n mod 100000) else 64 :: pad0 4 (n mod 100000))
    else mutant 35 (to_int (n - 110000))
  else if hd 0 ref =? 33 then Ret (firstn 5 (ref ++ repeat 32 5))
  else Ret packed.

(** 377-398 [move_fits_time]: what is written *)
Definition move_fits_time (s : list Z) : outcome (list Z) :=
  do ok <- tst s 4 (Z.eqb 45) &&& tst s 7 (Z.eqb 45) &&& tst s 10 (Z.eqb 84) &&& tst s 13 (Z.eqb 58);
  if ok : bool then
    let century := nth 0 s 0 * 10 + nth 1 s 0 - 48 * 11 in
    let r := skipn 2 s in
    let r := firstn (span (fun x => negb (x =? 90)) r) r in
    Ret (int_to_mutant_hex_char century :: map (fun x => if isdigit x then x else 58) (filter (fun x => isdigit x || (x =? 84)) r))
  else Ret [].

(** 400-425 [place_value]: [s] is iptr; what is written at optr, and the return value.  Only the last point counts. *)
Fixpoint last_point (s : list Z) (i p : nat) : nat :=
  match s with [] => p | c :: r => last_point r (S i) (if c =? 46 then i else p) end.
Definition padsp_text (w : nat) (t : list Z) : list Z := repeat 32 (w - List.length t) ++ t.
Definition place_value (s : list Z) (ilen leading_places : nat) : outcome (list Z * bool) :=
  let point_loc := last_point (firstn ilen s) 0 ilen in
  if (point_loc <=? leading_places)%nat then
    if (8 <? ilen - point_loc)%nat then
      do v <- MpcfModel.atof s;
      let t := if (leading_places =? 2)%nat then padsp_text 11 (fixed 8 v) ++ [32] else padsp_text 12 (fixed 8 v) in
      if (12 <? List.length t)%nat then Abort else Ret (t, true)
    else
      let n := if (ilen <? 9 + point_loc)%nat then ilen else (9 + point_loc)%nat in
      do b <- bytes_at s n;
      Ret (repeat 48 (leading_places - point_loc) ++ b, false)
  else Abort.

(** 626-627, 651 *)
Definition modes : list (list Z) := map zs ["CCCD"; "BCMO"; "nVID"; "PPHO"; "eENC"; "pPMT"; "MMIC"; "TMER"; "CTDI"; "EOCC"; "?UNK"].
Definition programs : list Z := zs "0123456789!" ++ [34] ++ zs "#$%&'()*+,-./[\]^_`{|}~".

(** Position of a byte in a string, as strchr( ) finds it *)
Definition index_of (c : Z) (s : list Z) : option nat := let n := span (fun x => negb (x =? c)) s in if (n =? List.length s)%nat then None else Some n.

Definition has_byte (c : Z) (s : list Z) : bool := existsb (Z.eqb c) s.

(** 702-769: the position of a spacecraft, with 'S' in column 15; [k] is itag - ADES_pos1.  What is in [name] beyond
    the 13 bytes moved if a sign is put before a number that had an exponent is not looked at. *)
Definition satellite_offset (w : obs) (k : Z) (len : nat) (name : list Z) : outcome (bool * list Z * obs) :=
  let sign_loc := 34 + k * 12 in
  let unit := nth 32 (line2 w) 0 in
  do '(name, nlen) <-
    (if has_byte 101 name || has_byte 69 name
     then do v <- MpcfModel.atof name; let t := fixed 13 v in if (40 <=? List.length t)%nat then Abort else Ret (t, 12)
     else Ret (name, Z.of_nat len));
  do '(name, nlen) <-
    (if negb (hd 0 name =? 43) && negb (hd 0 name =? 45)
     then (if nlen + 1 <=? 39 then Ret (43 :: firstn (Z.to_nat (nlen + 1)) name, nlen + 1) else UB)
     else Ret (name, nlen));
  do l2 <- put_at (line2 w) sign_loc [hd 0 name];
  do p <- (match index_of 46 name with Some p => Ret (Z.of_nat p) | None => Abort end);
  let go decimal_loc :=
    let decimal_loc := decimal_loc - p in
    do b <- bytes_at (tl name) (Z.to_nat (if 11 <? nlen then 10 else nlen - 1));
    do l2 <- put_at l2 (decimal_loc + 1) b;
    Ret (false, [], set_line2 w l2) in
  if unit =? 49 then
    if p <? 9 then go (sign_loc + 6 + (if 7 <=? p then 1 else 0) + (if 8 <=? p then 1 else 0)) else Abort
  else if unit =? 50 then
    if p <? 4 then go (sign_loc + 2 + (if p =? 3 then 1 else 0)) else Abort
  else Ret (true, zs "Bad posn data" ++ [10], set_line2 w l2).

(** 770-793: the position of a roving observer, with 'V' in column 15 *)
Definition roving_place (w : obs) (k : Z) (len : nat) (name : list Z) : outcome obs :=
  let point := index_of 46 name in
  if k =? 0 then
    match point with
    | Some p => do l2 <- put_at (line2 w) (37 - Z.of_nat p) (firstn len name); Ret (set_line2 w l2)
    | None => UB
    end
  else if k =? 1 then
    let signed := (hd 0 name =? 45) || (hd 0 name =? 43) in
    do l2 <- put_at (line2 w) 45 [if signed then hd 0 name else 43];
    let name := if signed then tl name else name in
    match point with
    | Some p => let p := if signed then Z.of_nat p - 1 else Z.of_nat p in
                do l2 <- put_at l2 (48 - p) name; Ret (set_line2 w l2)
    | None => UB
    end
  else do l2 <- put_at (line2 w) (61 - Z.of_nat len) name; Ret (set_line2 w l2).

(** 130-270 *)
Definition ADES_artSat : Z := 16.
Definition ADES_astCat : Z := 17.
Definition ADES_band : Z := 19.
Definition ADES_ctr : Z := 28.
Definition ADES_dec : Z := 29.
Definition ADES_deprecated : Z := 34.
Definition ADES_disc : Z := 37.
Definition ADES_mag : Z := 50.
Definition ADES_mode : Z := 52.
Definition ADES_notes : Z := 56.
Definition ADES_obsID : Z := 63.
Definition ADES_obsTime : Z := 65.
Definition ADES_permID : Z := 75.
Definition ADES_pos1 : Z := 82.
Definition ADES_prog : Z := 94.
Definition ADES_provID : Z := 95.
Definition ADES_ra : Z := 96.
Definition ADES_ref : Z := 101.
Definition ADES_rmsCorr : Z := 108.
Definition ADES_rmsDec : Z := 109.
Definition ADES_rmsMag : Z := 114.
Definition ADES_rmsRA : Z := 116.
Definition ADES_rmsTime : Z := 117.
Definition ADES_stn : Z := 132.
Definition ADES_sys : Z := 136.
Definition ADES_trkID : Z := 138.
Definition ADES_trkMPC : Z := 139.
Definition ADES_trkSub : Z := 140.
Definition ADES_vel1 : Z := 143.

(** One byte of the line *)
Definition col (w : obs) (i : Z) (c : Z) : outcome obs := do l <- put_at (line w) i [c]; Ret (set_line w l).

(** 838-859: permID, and provID; name[ ] has 40 bytes *)
Definition packed_id (w : obs) (itag : Z) (name : list Z) : outcome obs :=
  let i := span isdigit name in
  do name <- (if (i =? List.length name)%nat then (if (i + 2 <? 40)%nat then Ret (40 :: name ++ [41]) else UB) else Ret name);
  do '(_, b) <- create_mpc_packed_desig (repeat None 20) name;
  do t <- five (firstn 12 b);
  do l <- put_at (line w) 0 t;
  Ret (set_id (set_line w l) itag).

Section Tag.
(** What get_time_from_stringl( ) depends on, and a bound for its recursion *)
Variables (E : env) (fuel : nat).

(** 545-908 [process_ades_tag] for the tags of an observation: rval, obuff and the observation.  name[ ] is set only if
    it has room. *)
Definition process_tag (w : obs) (itag : Z) (s : list Z) (len : nat) : outcome (bool * list Z * obs) :=
  let name := if (len <? 40)%nat then Ret (firstn len s) else UB in
  let quiet (r : outcome obs) := do w <- r; Ret (false, [], w) in
  let at0 := nth 0 s 0 in
  if itag =? ADES_stn then quiet (do b <- bytes_at s 3; do l <- put_at (line w) 77 b; Ret (set_line w l))
  else if itag =? ADES_obsTime then quiet
    (do y <- SofModel.atoi s;
     let too_far := 2099 <? y in
     do t <- move_fits_time s;
     do l <- put_at (line w) 15 t;
     let w := set_line w l in
     if (17 <? List.length t)%nat || too_far then
       do n <- name;
       let n := firstn (span (fun x => negb (x =? 90)) n) n in
       do '(t, _) <- get_time_from_stringl fuel E 0 n 0;
       let w := set_t2k w (Some t) in
       if too_far then col w 15 75 else Ret w
     else Ret w)
  else if itag =? ADES_band then quiet
    (let c1 := nth 1 s 0 in
     let c := if ((at0 =? 80) || (at0 =? 83)) && has_byte c1 (zs "grizwy") then c1
              else if (at0 =? 65) && ((c1 =? 111) || (c1 =? 99)) then c1
              else if (at0 =? 71) && ((c1 =? 98) || (c1 =? 114)) then c1
              else at0 in
     do w <- col w 70 c;
     if (0 <? len)%nat && (len <? 4)%nat then do n <- name; Ret (set_text w Passband n) else Abort)
  else if itag =? ADES_mode then quiet
    (if (len =? 3)%nat then
       fold_left (fun r m => do w <- r; if streq (tl m) (firstn 3 s) then col w 14 (hd 0 m) else Ret w) modes (Ret w)
     else Ret w)
  else if itag =? ADES_deprecated then quiet (col w 14 88)
  else if itag =? ADES_disc then quiet (if at0 =? 42 then col w 12 42 else Ret w)
  else if itag =? ADES_ref then quiet
    (if (len <? 40)%nat then
       do t <- pack_mpc_reference (firstn 5 (skipn 72 (line w))) (firstn len s);
       do l <- put_at (line w) 72 t; Ret (set_line w l)
     else Ret w)
  else if itag =? ADES_prog then quiet
    (do idx <- SofModel.atoi s;
     do w <- (if (0 <=? idx) && (idx <=? 34) then col w 13 (nth (Z.to_nat idx) programs 0) else Ret w);
     keep w Program len name)
  else if itag =? ADES_sys then
    (do n <- name;
     do l2 <- put_at (line2 w) 0 [32];
     do '(unit, kind) <-
       (if streq n (zs "ICRF_KM") then Ret (49, 115) else if streq n (zs "ICRF_AU") then Ret (50, 115)
        else if streq n (zs "WGS84") then Ret (49, 118) else Abort);
     do l2 <- put_at l2 14 [kind];
     do l2 <- put_at l2 32 [unit];
     quiet (col (set_line2 w l2) 14 (toupper kind)))
  else if itag =? ADES_ctr then quiet (do n <- name; do c <- SofModel.atoi n; Ret (set_center w c))
  else if (ADES_vel1 <=? itag) && (itag <=? ADES_vel1 + 2) then quiet
    (if nth 14 (line w) 0 =? 83 then
       do n <- name; do v <- MpcfModel.atof n;
       let k := Z.to_nat (itag - ADES_vel1) in
       Ret (set_vel w (firstn k (vel w) ++ v :: skipn (S k) (vel w)))
     else Abort)
  else if (ADES_pos1 <=? itag) && (itag <=? ADES_pos1 + 2) then
    (if nth 14 (line w) 0 =? 83 then do n <- name; satellite_offset w (itag - ADES_pos1) len n
     else if nth 14 (line w) 0 =? 86 then quiet (do n <- name; roving_place w (itag - ADES_pos1) len n)
     else Abort)
  else if itag =? ADES_ra then quiet
    (let '(s, len) := if at0 =? 43 then (tl s, pred len) else (s, len) in
     do '(t, long) <- place_value s len 3;
     do l <- put_at (line w) 32 t;
     let w := set_line w l in
     if long : bool then (if Z.of_nat len + 1 <=? 26 then Ret (set_text w FullRA (firstn len s)) else UB) else Ret w)
  else if itag =? ADES_dec then quiet
    (let signed := (at0 =? 45) || (at0 =? 43) in
     let sign := if signed then at0 else 43 in
     do w <- col w 44 sign;
     let '(s, len) := if signed then (tl s, pred len) else (s, len) in
     do '(t, long) <- place_value s len 2;
     do l <- put_at (line w) 45 t;
     let w := set_line w l in
     if long : bool then (if Z.of_nat len + 2 <=? 26 then Ret (set_text w FullDec (sign :: firstn len s)) else UB) else Ret w)
  else if itag =? ADES_astCat then quiet
    (if (len <? 40)%nat then
       do n <- name; do c <- net_name_to_byte_code n;
       do w <- col w 71 c; if c =? 0 then Abort else Ret w
     else Abort)
  else if itag =? ADES_rmsRA then quiet (keep w RmsRA len name)
  else if itag =? ADES_notes then quiet (do w <- keep w Notes len name; do n <- name; col w 13 (nth 0 n 0))
  else if itag =? ADES_rmsDec then quiet (keep w RmsDec len name)
  else if itag =? ADES_rmsCorr then quiet (keep w Corr len name)
  else if itag =? ADES_rmsTime then quiet (keep w RmsTime len name)
  else if itag =? ADES_rmsMag then quiet (keep w RmsMag len name)
  else if itag =? ADES_provID then quiet
    (if id_set w =? ADES_permID then Ret w
     else if (len <? 40)%nat then do n <- name; packed_id w itag n else Abort)
  else if itag =? ADES_permID then quiet
    (if (len <? 40)%nat then do n <- name; packed_id w itag n else Abort)
  else if itag =? ADES_artSat then quiet
    (if (len <? 13)%nat then
       if (id_set w =? 0) && negb (ignore_artsat w) then
         do l <- put_at (line w) 0 (firstn len s); Ret (set_id (set_line w l) ADES_artSat)
       else Ret w
     else Abort)
  else if itag =? ADES_trkSub then quiet
    (if (len <? 13)%nat then
       do n <- name;
       let w := set_text w TrkSub n in
       if id_set w =? 0 then
         do l <- put_at (line w) (if (len <? 8)%nat then 5 else 12 - Z.of_nat len) (firstn len s);
         Ret (set_id (set_line w l) ADES_trkSub)
       else Ret w
     else Abort)
  else if itag =? ADES_trkID then quiet (keep w TrkID len name)
  else if itag =? ADES_obsID then quiet (keep w ObsID len name)
  else if itag =? ADES_mag then quiet
    (do l <- put_at (line w) 65 (firstn (Nat.min len 5) s);
     let w := set_line w l in
     if (5 <? len)%nat then copy_err w FullMag name else Ret w)
  else if itag =? ADES_trkMPC then Ret (false, [], w)
  else Ret (false, zs "COM Unhandled ADES tag " ++ dec itag, w).
End Tag.

(** 926-938 [setup_observation] *)
Definition blank_line (old : list Z) : list Z := repeat 32 80 ++ [10; 0] ++ skipn 82 old.
Definition setup (w : obs) : obs :=
  mk_obs (blank_line (line w)) (0 :: tl (blank_line (line2 w))) (text w) None 0 399 (vel w) (ignore_artsat w).

(** afuncs.h:33, 56-59 *)
Definition AU_IN_KM : Q := 1495978707 # 10.
(** "%+13.7f" and "%13.7f" *)
Definition velocity (plus : bool) (v : Q) : list Z :=
  padsp_text 13 ((if plus && Qle_bool 0 v then [43] else []) ++ fixed 7 v).

(** 434-538 [get_a_line] with obuff_size 221: is there a line, obuff, and the observation.  (The branch of 486-490 is
    never reached.) *)
Definition next_line (w : obs) (obuff : list Z) : outcome (bool * list Z * obs) :=
  let t := text w in
  let some (p : part) := match t p with [] => false | _ => true end in
  if some RmsRA then
    do corr <- (if streq (t RmsRA) (t RmsDec) then Ret []
                else do c <- MpcfModel.atof (t Corr);
                     Ret (zs "x" ++ t RmsDec ++ (if Qeq_bool c 0 then [] else zs "," ++ t Corr)));
    do o <- put_221 (zs "COM Sigmas " ++ t RmsRA ++ corr ++ (if some RmsMag then zs " m:" ++ t RmsMag else []) ++
                     (if some RmsTime then zs " t:" ++ t RmsTime else []) ++ [10]);
    Ret (true, o, set_text (set_text (set_text w RmsMag []) RmsTime []) RmsRA [])
  else if some TrkSub || some ObsID || some TrkID then
    do o <- put_221 (zs "COM IDs" ++ (if some TrkSub then zs " trkSub:" ++ t TrkSub else []) ++
                     (if some ObsID then zs " obsID:" ++ t ObsID else []) ++
                     (if some TrkID then zs " trkID:" ++ t TrkID else []) ++ [10]);
    Ret (true, o, set_text (set_text (set_text w TrkSub []) ObsID []) TrkID [])
  else if some FullRA || some FullDec || (match t2k w with Some _ => true | None => false end) then
    do o <- put_221 (zs "COM RA/dec " ++ (if some FullRA then t FullRA else zs "-") ++ zs " " ++ (if some FullDec then t FullDec else zs "-") ++
                     (match t2k w with Some x => zs " " ++ fixed 15 x | None => [] end) ++ [10]);
    Ret (true, o, set_t2k (set_text (set_text w FullRA []) FullDec []) None)
  else if some FullMag then
    do o <- put_221 (zs "COM full mag " ++ t FullMag ++ [10]);
    Ret (true, o, set_text w FullMag [])
  else if negb (nth 1 (t Passband) 0 =? 0) || (32 <? nth 0 (t Notes) 0) || (32 <=? nth 0 (t Program) 0) then
    do o <- put_221 (zs "COM ADES tags" ++ (if negb (nth 1 (t Passband) 0 =? 0) then zs " band:" ++ t Passband else []) ++
                     (if 32 <=? nth 0 (t Notes) 0 then zs " notes:" ++ t Notes else []) ++
                     (if 32 <=? nth 0 (t Program) 0 then zs " progcode:" ++ t Program else []));
    Ret (true, o, set_text (set_text (set_text w Passband (firstn 1 (t Passband))) Notes []) Program [])
  else if negb (forallb (fun v => Qeq_bool v 0) (vel w)) then
    let m := if nth 32 (line2 w) 0 =? 50 then (AU_IN_KM / 86400)%Q else 1%Q in
    let v i := (nth i (vel w) 0 * m)%Q in
    do d <- str_at (line w) 15;
    do c <- str_at (line w) 77;
    do o <- put_221 (zs "COM vel (km/s) " ++ firstn 14 d ++ zs "  " ++ velocity true (v 0%nat) ++ velocity false (v 1%nat) ++
                     velocity false (v 2%nat) ++ zs " " ++ c);
    Ret (true, o, set_vel w [0; 0; 0]%Q)
  else if negb (nth 0 (line w) 0 =? 0) then
    do o <- str_at (line w) 0;
    do l2 <- (if nth 0 (line2 w) 0 =? 0 then Ret (line2 w)
              else
                do l2 <- put_at (line2 w) 0 (firstn 12 (line w));
                do l2 <- put_at l2 15 (firstn 17 (skipn 15 (line w)));
                do l2 <- (if center w =? 399 then Ret l2
                          else let c := padsp 8 (center w) in if (9 <=? List.length c)%nat then Abort else put_at l2 69 (c ++ [0]));
                put_at l2 77 (firstn 3 (skipn 77 (line w))));
    do l <- put_at (line w) 0 [0];
    Ret (true, o, set_line2 (set_line w l) l2)
  else if negb (nth 0 (line2 w) 0 =? 0) then
    do o <- str_at (line2 w) 0;
    do l2 <- put_at (line2 w) 0 [0];
    Ret (true, o, set_line2 w l2)
  else Ret (false, obuff, w).

(** 950-977 [check_for_tholen_sigmas]; [L] is LONG_MAX *)
Definition tholen (L : Z) (w : obs) (s : list Z) : outcome (bool * obs) :=
  let c i := nth i s 0 in
  if (92 <=? List.length s)%nat && ((0 <=? c 92%nat) && (c 92%nat <? 32)) && (c 82%nat =? 46) && (c 88%nat =? 46) && (c 80%nat =? 32) && (c 86%nat =? 32) then
    do valid <- MpcfModel.is_valid_mpc_code (skipn 77 s);
    if valid : bool then
      let o := firstn 80 s in
      do '(jd, _) <- MpcfModel.extract_date_from_mpc_report L o;
      if Qeq_bool jd 0 then Ret (false, w)
      else
        let w := setup w in
        let w := set_text (set_text w RmsRA (firstn 5 (skipn 81 s))) RmsDec (firstn 5 (skipn 87 s)) in
        do l <- put_at (line w) 0 (o ++ [0]);
        do '(r, b) <- create_mpc_packed_desig (repeat None 13) (firstn 12 o);
        do l <- (if r =? 0 then do t <- five (firstn 12 b); put_at l 0 t else Ret l);
        Ret (true, set_line w l)
    else Ret (false, w)
  else Ret (false, w).

(** The whole program: the hooks of [AdesModel] *)
Definition whole (E : env) (fuel : nat) : hooks obs := mkh (process_tag E fuel) next_line setup (tholen (e_long E)).
