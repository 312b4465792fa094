(** Vocabulary of the properties of ADES observations and their 80-column lines.  Nothing here uses the model's own
    helpers, apart from the functions themselves and the fields of their state. *)
From Coq Require Import QArith String.
From Verif Require Import CBase CStr CtimeSpec DesigModel DesigSpec MpcfSpec MpcdSpec AdesModel AdesSpec ObsModel.
From Verif Require MiscSpec.
Import ListNotations.
Local Open Scope string_scope.
Local Open Scope list_scope.
Local Open Scope Z_scope.

(** Publications: "MPEC 2020-A27", "MPS 1234", "MPC 1234". *)
Inductive publication := Mpec (year half number : Z) | Mps (number : Z) | Mpc (number : Z).
(** What an ADES observation may say, one element of it each. *)
Inductive fact :=
| Station (code : list Z)
| When (y m day hh mm ss : Z) (n : nat) (d : Z)            (* with n decimals of seconds *)
| RightAscension (j n : nat) (k : Z)                       (* in degrees: j digits, n decimals, k units of the last *)
| Declination (sign : option bool) (j n : nat) (k : Z)     (* Some true for a minus sign *)
| Magnitude (t : list Z)
| Band (t : list Z)
| Catalogue (t : list Z) (code : Z)
| Discovery
| Mode (t : list Z)
| Deprecated (t : list Z)
| Programme (p : Z)
| Note (t : list Z)
| Reference (r : publication)
| Number (n : Z)
| Designation (name : list Z) (kind : Z)
| Tracklet (t : list Z)
| Aside (tag : string) (t : list Z).                       (* one that has no columns *)

(** The element's name, and its text. *)
Definition tag_of (e : fact) : string :=
  match e with
  | Station _ => "stn" | When _ _ _ _ _ _ _ _ => "obsTime" | RightAscension _ _ _ => "ra" | Declination _ _ _ _ => "dec"
  | Magnitude _ => "mag" | Band _ => "band" | Catalogue _ _ => "astCat" | Discovery => "disc" | Mode _ => "mode"
  | Deprecated _ => "deprecated" | Programme _ => "prog" | Note _ => "notes" | Reference _ => "ref" | Number _ => "permID"
  | Designation _ _ => "provID" | Tracklet _ => "trkSub" | Aside tag _ => tag
  end.
Definition text_of (e : fact) : list Z :=
  match e with
  | Station code => code
  | When y m day hh mm ss n d =>
      ndig 4 y ++ zs "-" ++ ndig 2 m ++ zs "-" ++ ndig 2 day ++ zs "T" ++ ndig 2 hh ++ zs ":" ++ ndig 2 mm ++ zs ":" ++ ndig 2 ss ++
      decimals n d ++ zs "Z"
  | RightAscension j n k => ndig j (k / 10 ^ Z.of_nat n) ++ decimals n (k mod 10 ^ Z.of_nat n)
  | Declination sign j n k =>
      (match sign with Some true => zs "-" | Some false => zs "+" | None => [] end) ++
      ndig j (k / 10 ^ Z.of_nat n) ++ decimals n (k mod 10 ^ Z.of_nat n)
  | Magnitude t | Band t | Catalogue t _ | Mode t | Deprecated t | Note t | Designation t _ | Tracklet t | Aside _ t => t
  | Discovery => zs "*"
  | Programme p => dec p
  | Reference (Mpec y h n) => zs "MPEC " ++ ndig 4 y ++ zs "-" ++ [h] ++ dec n
  | Reference (Mps n) => zs "MPS " ++ dec n
  | Reference (Mpc n) => zs "MPC " ++ dec n
  | Number n => dec n
  end.

(** The observing modes and the letters for them; the letters for programs. *)
Definition mode_letters : list (list Z * Z) :=
  [(zs "CCD", 67); (zs "CMO", 66); (zs "VID", 110); (zs "PHO", 80); (zs "ENC", 101); (zs "PMT", 112); (zs "MIC", 77); (zs "MER", 84);
   (zs "TDI", 67); (zs "OCC", 69); (zs "UNK", 63)].
Definition programme_letters : list Z := zs "0123456789!" ++ [34] ++ zs "#$%&'()*+,-./[\]^_`{|}~".
(** The elements without columns. *)
Definition aside_part (tag : string) : option part :=
  if String.eqb tag "rmsRA" then Some RmsRA else if String.eqb tag "rmsDec" then Some RmsDec
  else if String.eqb tag "rmsCorr" then Some Corr else if String.eqb tag "rmsMag" then Some RmsMag
  else if String.eqb tag "rmsTime" then Some RmsTime else if String.eqb tag "trkID" then Some TrkID
  else if String.eqb tag "obsID" then Some ObsID else None.

(** What the texts may be. *)
Definition fact_ok (e : fact) : Prop :=
  no_nul (text_of e) /\
  match e with
  | Station code => List.length code = 3%nat
  | When y m day hh mm ss n d =>
      1700 <= y <= 2099 /\ 1 <= m <= 12 /\ 1 <= day <= 31 /\ 0 <= hh < 24 /\ 0 <= mm < 60 /\ 0 <= ss < 60 /\
      (n <= 3)%nat /\ 0 <= d < 10 ^ Z.of_nat n
  | RightAscension j n k => (1 <= j <= 3)%nat /\ (n <= 7)%nat /\ 0 <= k < 10 ^ Z.of_nat (j + n)
  | Declination _ j n k => (1 <= j <= 2)%nat /\ (n <= 7)%nat /\ 0 <= k < 10 ^ Z.of_nat (j + n)
  | Magnitude t => (1 <= List.length t <= 5)%nat
  | Band t => (1 <= List.length t <= 3)%nat /\ 33 <= hd 0 t
  | Catalogue t code => (List.length t < 40)%nat /\
      exists name, In (code, name) (MiscSpec.other_spelling :: MiscSpec.catalogues) /\ MiscSpec.significant t = MiscSpec.significant name
  | Discovery => True
  | Mode t => In t (map fst mode_letters)
  | Deprecated t => t <> []
  | Programme p => 0 <= p <= 34
  | Note t => (1 <= List.length t <= 6)%nat /\ 33 <= hd 0 t
  | Reference (Mpec y h n) => 0 <= y < 10000 /\ capital h /\ 1 <= n < 1000
  | Reference (Mps n) => 0 <= n < 260000 + 62 ^ 4
  | Reference (Mpc n) => 0 <= n < 110000 + 62 ^ 4
  | Number n => 1 <= n < 620000 + 62 ^ 4
  | Designation name kind => (List.length name < 40)%nat /\ round_trip name kind /\ exists c, In c name /\ ~ (48 <= c <= 57)
  | Tracklet t => (1 <= List.length t <= 12)%nat /\ 33 <= hd 0 t
  | Aside tag t => (exists p, aside_part tag = Some p /\ 1 <= Z.of_nat (List.length t) < size_of p) /\ 33 <= hd 0 t
  end.

(** The zones of an 80-column line, in the order of their columns, with their widths. *)
Inductive zone := Object | Star | Note1 | Note2 | Date | Ra | Dec | Unused | Mag | Filter | Net | Ref | Site.
Definition zones : list zone := [Object; Star; Note1; Note2; Date; Ra; Dec; Unused; Mag; Filter; Net; Ref; Site].
Definition width (z : zone) : nat :=
  match z with
  | Object => 12 | Star => 1 | Note1 => 1 | Note2 => 1 | Date => 17 | Ra => 12 | Dec => 12 | Unused => 9 | Mag => 5 | Filter => 1
  | Net => 1 | Ref => 5 | Site => 3
  end%nat.
(** A line, given what is in its zones. *)
Definition card (f : zone -> list Z) : list Z := concat (map f zones).
Definition zone_of (e : fact) : option zone :=
  match e with
  | Station _ => Some Site | When _ _ _ _ _ _ _ _ => Some Date | RightAscension _ _ _ => Some Ra | Declination _ _ _ _ => Some Dec
  | Magnitude _ => Some Mag | Band _ => Some Filter | Catalogue _ _ => Some Net | Discovery => Some Star
  | Mode _ | Deprecated _ => Some Note2 | Programme _ | Note _ => Some Note1 | Reference _ => Some Ref
  | Number _ | Designation _ _ | Tracklet _ => Some Object | Aside _ _ => None
  end.
(** Each element occurs once, and no two that have the same columns, apart from those of the object's names: the number
    goes before the designation, and that before the observer's own name. *)
Definition rank (e : fact) : Z := match e with Number _ => 2 | Designation _ _ => 1 | _ => 0 end.
Definition consistent (es : list fact) : Prop :=
  NoDup (map tag_of es) /\
  forall e e' z, In e es -> In e' es -> zone_of e = Some z -> zone_of e' = Some z -> z <> Object -> e = e'.

(** A text on the left of n columns. *)
Definition on_left (n : nat) (t : list Z) : list Z := t ++ blanks (n - List.length t).
(** The letter of a passband. *)
Definition filter_letter (t : list Z) : Z :=
  let c := nth 0 t 0 in
  let c1 := nth 1 t 0 in
  if existsb (fun x => streq (zs x) (firstn 2 t)) ["Pg"; "Pr"; "Pi"; "Pz"; "Pw"; "Py"; "Sg"; "Sr"; "Si"; "Sz"; "Sw"; "Sy"; "Ao"; "Ac"; "Gb"; "Gr"]
  then c1 else c.
(** A number above the range of the digits: four digits to base 62 after the given character. *)
Definition in_base62 (first : Z) (v : Z) (t : list Z) : Prop :=
  exists s ds, t = first :: s /\ List.length s = 4%nat /\ Forall2 is_digit62 s ds /\ number62 ds = v.

(** [t] is how the element is to be shown in the columns of its zone. *)
Definition shown_as (e : fact) (t : list Z) : Prop :=
  match e with
  | Station code => t = code
  | When y m day hh mm ss n d => t = packed_time (55 + y / 100) (y mod 100) m day hh mm ss n d
  | RightAscension _ n k => t = columns (angle_text Decimal3 n k)
  | Declination sign _ n k => t = on_left 12 ((match sign with Some true => 45 | _ => 43 end) :: angle_text Decimal n k)
  | Magnitude m => t = on_left 5 m
  | Band b => t = [filter_letter b]
  | Catalogue _ code => t = [code]
  | Discovery => t = zs "*"
  | Mode m => exists c, In (m, c) mode_letters /\ t = [c]
  | Deprecated _ => t = zs "X"
  | Programme p => t = [nth (Z.to_nat p) programme_letters 0]
  | Note n => t = firstn 1 n
  | Reference (Mpec _ h n) => t = [69; h] ++ ndig 3 n
  | Reference (Mps n) => if n <? 260000 then t = (97 + n / 10000) :: ndig 4 (n mod 10000) else in_base62 126 (n - 260000) t
  | Reference (Mpc n) =>
      if n <? 100000 then t = ndig 5 n
      else if n <? 110000 then t = 64 :: ndig 4 (n - 100000) else in_base62 35 (n - 110000) t
  | Number n => forall o : buf, (24 <= List.length o)%nat ->
      exists o', unpack_mpc_desig (Some o) t = Ret (OBJ_DESIG_ASTEROID_NUMBERED, Some o') /\ holds o' 0 (zs "(" ++ dec n ++ zs ")")
  | Designation name kind => forall o : buf, (24 <= List.length o)%nat ->
      exists o', unpack_mpc_desig (Some o) t = Ret (kind, Some o') /\ holds o' 0 name
  | Tracklet s => if (List.length s <? 8)%nat then t = blanks 5 ++ on_left 7 s else t = blanks (12 - List.length s) ++ s
  | Aside _ _ => False
  end.
(** What is put aside for the comment lines. *)
Definition put_aside (e : fact) : option (part * list Z) :=
  match e with
  | Band t => Some (Passband, t) | Programme p => Some (Program, dec p) | Note t => Some (Notes, t) | Tracklet t => Some (TrkSub, t)
  | Aside tag t => match aside_part tag with Some p => Some (p, t) | None => None end
  | _ => None
  end.

(** After the text of an element comes the end of the line, a blank or other white space, '|' or '<'. *)
Definition ends (after : list Z) : Prop := match after with [] => True | c :: _ => 1 <= c <= 32 \/ c = 124 \/ c = 60 end.
(** The elements handed over one after the other, each with what follows it in its line. *)
Fixpoint hand_over (h : hooks obs) (es : list (fact * list Z)) (w : obs) : outcome obs :=
  match es with
  | [] => Ret w
  | (e, after) :: es =>
      do '(r, o, w) <- h_tag h w (num (tag_of e)) (text_of e ++ after) (List.length (text_of e));
      match r, o with false, [] => hand_over h es w | _, _ => Abort end
  end.
(** [f] shows these elements, and is blank elsewhere. *)
Definition shows_facts (es : list fact) (f : zone -> list Z) : Prop :=
  (forall z, List.length (f z) = width z /\ no_nul (f z)) /\
  (forall e z, In e es -> zone_of e = Some z -> (forall e', In e' es -> zone_of e' = Some z -> rank e' <= rank e) -> shown_as e (f z)) /\
  (forall z, (forall e, In e es -> zone_of e <> Some z) -> f z = blanks (width z)).
(** A field of the observation holds what an element puts there, or what it held before. *)
Definition aside_kept (es : list fact) (old new : part -> list Z) : Prop :=
  (forall e p t, In e es -> put_aside e = Some (p, t) -> new p = t) /\
  (forall p, (forall e t, In e es -> put_aside e <> Some (p, t)) -> new p = old p).

(** A line of a table: every column is empty or has the text of an element of the column's name. *)
Inductive row : list string -> list (list Z) -> list fact -> Prop :=
| row_end : row [] [] []
| row_empty n f ns fs es : trim f = [] -> row ns fs es -> row (n :: ns) (f :: fs) es
| row_fact e f ns fs es : trim f = text_of e -> row ns fs es -> row (tag_of e :: ns) (f :: fs) (e :: es).

(** The lines put out for an observation, one for each call, until there are no more. *)
Inductive puts_out (h : hooks obs) : obs -> list (list Z) -> obs -> Prop :=
| puts_end w : (forall o, h_line h w o = Ret (false, o, w)) -> puts_out h w [] w
| puts_line w l w' ls w'' : (forall o, h_line h w o = Ret (true, l, w')) -> puts_out h w' ls w'' -> puts_out h w (l :: ls) w''.

(** The comment lines for what has been put aside; [c] is the value of the correlation.  (The texts of full positions,
    magnitudes and times are of elements not described here.) *)
Definition present (t : list Z) : bool := match t with [] => false | _ => true end.
Definition with_name (name : string) (t : list Z) : list Z := if present t then zs name ++ t else [].
Definition comments (c : Q) (t : part -> list Z) : list (list Z) :=
  (if present (t RmsRA) then
     [zs "COM Sigmas " ++ t RmsRA ++
      (if list_eq_dec Z.eq_dec (t RmsRA) (t RmsDec) then [] else zs "x" ++ t RmsDec ++ (if Qeq_bool c 0 then [] else zs "," ++ t Corr)) ++
      with_name " m:" (t RmsMag) ++ with_name " t:" (t RmsTime) ++ [10]]
   else []) ++
  (if present (t TrkSub) || present (t ObsID) || present (t TrkID) then
     [zs "COM IDs" ++ with_name " trkSub:" (t TrkSub) ++ with_name " obsID:" (t ObsID) ++ with_name " trkID:" (t TrkID) ++ [10]]
   else []) ++
  (if (2 <=? List.length (t Passband))%nat || present (t Notes) || present (t Program) then
     [zs "COM ADES tags" ++ (if (2 <=? List.length (t Passband))%nat then zs " band:" ++ t Passband else []) ++
      with_name " notes:" (t Notes) ++ with_name " progcode:" (t Program)]
   else []).
(** Texts that fit, and that do not start with a blank. *)
Definition texts_ok (t : part -> list Z) : Prop :=
  forall p, Z.of_nat (List.length (t p)) < size_of p /\ no_nul (t p) /\ (t p = [] \/ 33 <= hd 0 (t p)).
(** Nothing is left of the observation before, apart from what is never cleared: the uncertainty in declination, the
    correlation, and the first letter of the passband. *)
Definition settled (w : obs) : Prop :=
  (forall p, p <> RmsDec -> p <> Corr -> p <> Passband -> text w p = []) /\ (List.length (text w Passband) <= 1)%nat /\ texts_ok (text w) /\
  forallb (fun v => Qeq_bool v 0) (vel w) = true.
(** The two buffers for lines are of 83 bytes (ades2mpc.cpp:42). *)
Definition sized (w : obs) : Prop := List.length (line w) = 83%nat /\ List.length (line2 w) = 83%nat.
(** Uncertainties in magnitude or time are given only along with one in position. *)
Definition with_position (es : list fact) : Prop :=
  forall t, In (Aside "rmsMag" t) es \/ In (Aside "rmsTime" t) es -> exists t', In (Aside "rmsRA" t') es.
(** A text on the right of n columns. *)
Definition on_right (n : nat) (t : list Z) : list Z := blanks (n - List.length t) ++ t.
(** Elements with any texts, each followed by '|'. *)
Fixpoint give (h : hooks obs) (l : list (string * string)) (w : obs) : outcome obs :=
  match l with
  | [] => Ret w
  | (tag, t) :: l => do '(_, _, w) <- h_tag h w (num tag) (zs t ++ zs "|") (String.length t); give h l w
  end.
(** The lines put out after that, at most n of them, and the state afterwards. *)
Fixpoint drain (n : nat) (h : hooks obs) (w : obs) : outcome (list (list Z) * obs) :=
  match n with
  | O => Fuel
  | S n => do '(more, o, w) <- h_line h w []; if more : bool then do '(ls, w) <- drain n h w; Ret (o :: ls, w) else Ret ([], w)
  end.
(** The lines for two observations after each other. *)
Definition two_lines (h : hooks obs) (a b : list (string * string)) : outcome (list (list Z) * list (list Z)) :=
  do w <- give h a (h_setup h init_obs); do '(la, w) <- drain 20 h w; do w <- give h b (h_setup h w); do '(lb, w) <- drain 20 h w; Ret (la, lb).
(** The 80 columns for one observation. *)
Definition columns_of (h : hooks obs) (a : list (string * string)) : outcome (list Z) :=
  do w <- give h a (h_setup h init_obs); Ret (firstn 80 (line w)).
