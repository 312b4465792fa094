(** Model of the variable-star designations of miscell.cpp and of the catalogue
    codes of mpc_fmt.cpp. *)
From Coq Require Import String.
From Verif Require Import CBase CStr StrModel.
Open Scope list_scope.

(** miscell.cpp:147-149, the loop over the decimal digits; [j] is the offset of
    buff. *)
Fixpoint var_digits (powers : list Z) (b : buf) (j var_no : Z) : outcome (buf * Z) :=
  match powers with
  | [] => Ret (b, j)
  | i :: rest =>
      if i <=? var_no then
        do b' <- wr b j (to_char (Z.rem (Z.quot var_no i) 10 + 48));
        var_digits rest b' (j + 1) var_no
      else var_digits rest b j var_no
  end.

(** miscell.cpp:155-156 and 159-160, the two searches for the first letter [i]:
    while i <= last and curr_no + (top - i) < var_no, curr_no += top + 1 - i.
    [fuel] bounds the rounds.  (All values are below 1000: no overflow.) *)
Fixpoint first_letter (fuel : nat) (last top var_no i curr_no : Z) : outcome (Z * Z) :=
  match fuel with
  | O => Fuel
  | S f => if (i <=? last) && (curr_no + (top - i) <? var_no)
           then first_letter f last top var_no (i + 1) (curr_no + (top - i + 1))
           else Ret (i, curr_no)
  end.

(** miscell.cpp:135-169 [make_var_desig]; [b] is buff. *)
Definition make_var_desig (b : buf) (var_no : Z) : outcome buf :=
  if var_no <? 10 then
    do v <- ev IMAX (82 + var_no - 1)%cx;
    do b <- wr b 0 (to_char v);
    wr b 1 0
  else if 334 <? var_no then
    do b <- wr b 0 86;
    do '(b, j) <- var_digits [1000; 100; 10; 1] b 1 var_no;
    wr b j 0
  else
    do b <- wr b 2 0;
    do '(i, curr_no) <- first_letter 30 90 90 var_no 82 10;
    do '(i, curr_no) <- (if 90 <? i then first_letter 30 80 89 var_no 65 curr_no else Ret (i, curr_no));
    do b <- wr b 0 (to_char i);
    do b <- wr b 1 (to_char (i + var_no - curr_no));
    do b0 <- rd b 0;
    do b <- (if (b0 <? 82) && (74 <=? b0) then wr b 0 (to_char (b0 + 1)) else Ret b);
    do b0 <- rd b 0;
    do b1 <- rd b 1;
    if (b0 <? 82) && (74 <=? b1) then wr b 1 (to_char (b1 + 1)) else Ret b.

(** miscell.cpp:217-261 [decipher_var_desig]. *)
Definition decipher_var_desig (desig : list Z) : outcome Z :=
  do d0 <- at_ desig 0;
  do d1 <- at_ desig 1;
  let first := toupper d0 in
  let second := toupper d1 in
  let len := span (fun c => negb (c =? 32)) desig in
  do rval <-
    match len with
    | 1%nat =>
        let rval := -2 in
        let rval := if (82 <=? first) && (first <=? 90) then first - 82 else rval in
        let rval := if (65 <=? d0) && (d0 <=? 81) then 9200 + d0 - 65 else rval in
        let rval := if ((97 <=? d0) && (d0 <=? 113)) || (d0 =? 117) then 9100 + d0 - 97 else rval in
        Ret rval
    | 2%nat =>
        if (first <=? second) && (second <=? 90) then
          if 82 <=? first then
            let f := first - 82 in
            let s := second - 82 in
            Ret (f * 8 - Z.quot (f * (f - 1)) 2 + 9 + s)
          else if negb (first =? 74) && negb (second =? 74) && (65 <=? first) then
            let f := first - 65 in
            let f := if 8 <? f then f - 1 else f in
            let s := second - 65 in
            let s := if 8 <? s then s - 1 else s in
            Ret (f * 24 - Z.quot (f * (f - 1)) 2 + 9 + 45 + s)
          else Ret (-2)
        else Ret (-2)
    | _ => if first =? 86 then do v <- atoi (skipn 1 desig); ev IMAX (v - 1)%cx else Ret (-2)
    end;
  ev IMAX (rval + 1)%cx.

(** mpc_fmt.cpp:466-522 [net_codes], without the NULL at the end. *)
Definition net_codes : list (list Z) := map zs
  ["aUSNO-A1"; "bUSNO-SA1"; "cUSNO-A2"; "dUSNO-SA2"; "eUCAC-1"; "fTycho-1"; "gTycho-2"; "hGSC-1.0"; "iGSC-1.1";
   "jGSC-1.2"; "kGSC-2.2"; "lACT"; "mGSC-ACT"; "nSDSS-DR8"; "oUSNO-B1"; "pPPM"; "qUCAC-4"; "rUCAC-2"; "sUSNO-B2";
   "tPPMXL"; "uUCAC-3"; "vNOMAD"; "wCMC-14"; "xHIP-2"; "yHIP-1"; "zGSC-?"; "AAC"; "BSAO 1984"; "CSAO"; "DAGK 3";
   "EFK4"; "FACRS"; "GLick Gaspra Catalogue"; "HIda93 Catalogue"; "IPerth 70";
   "JCOSMOS/UKST Southern Sky Catalogue"; "KYale"; "L2MASS"; "MGSC-2.3"; "NSDSS-DR7"; "OSST-RC1"; "PMPOSC3";
   "QCMC-15"; "RSST-RC4"; "SURAT-1"; "TURAT-2"; "UGaia-DR1"; "VGaia-DR2"; "WGaia-DR3"; "XGaia-EDR3"; "XGaia-3E";
   "YUCAC-5"; "ZATLAS-2"]%string.

(** mpc_fmt.cpp:525-533 [byte_code_to_net_name]: [None] is NULL. *)
Fixpoint code_to_name (codes : list (list Z)) (byte_code : Z) : outcome (option (list Z)) :=
  match codes with
  | [] => Ret None
  | e :: rest => do c <- at_ e 0;
                 if byte_code =? c then Ret (Some (skipn 1 e)) else code_to_name rest byte_code
  end.
Definition byte_code_to_net_name (byte_code : Z) : outcome (option (list Z)) := code_to_name net_codes byte_code.

(** mpc_fmt.cpp:548-560 [reduce_net_name]: ibuff is [s] + [i], obuff is [b] + [j];
    returns the buffer.  [fuel] bounds the rounds. *)
Fixpoint reduce_net_name (fuel : nat) (b : buf) (j : Z) (s : list Z) (i : Z) : outcome buf :=
  match fuel with
  | O => Fuel
  | S f =>
      do c <- at_ s i;
      if c =? 0 then wr b j 0
      else if (c =? 45) || (c =? 32) then reduce_net_name f b j s (i + 1)
      else
        do zero <- (Ret (c =? 46) &&& tst s (i + 1) (fun c => c =? 48));
        if zero then reduce_net_name f b j s (i + 2)
        else
          do dr <- (Ret (c =? 68) &&& tst s (i + 1) (fun c => c =? 82));
          if dr then reduce_net_name f b j s (i + 2)
          else do b <- wr b j (toupper c); reduce_net_name f b (j + 1) s (i + 1)
  end.

(** mpc_fmt.cpp:568-573, the loop over the table; [net2] keeps its contents from
    one round to the next. *)
Fixpoint name_to_code (codes : list (list Z)) (net1 net2 : buf) (rval : Z) : outcome Z :=
  match codes with
  | [] => Ret rval
  | e :: rest =>
      let name := skipn 1 e in
      do net2 <- reduce_net_name (S (length name)) net2 0 name 0;
      do s1 <- buf_str 81 net1 0;
      do s2 <- buf_str 81 net2 0;
      if streq s1 s2 then do c <- at_ e 0; name_to_code rest net1 net2 c
      else name_to_code rest net1 net2 rval
  end.
(** mpc_fmt.cpp:562-577 [net_name_to_byte_code]. *)
Definition net_name_to_byte_code (net_name : list Z) : outcome Z :=
  do net1 <- reduce_net_name (S (length net_name)) (repeat None 80) 0 net_name 0;
  do rval <- name_to_code net_codes net1 (repeat None 80) 0;
  Ret (if rval =? 0 then 63 else rval).
