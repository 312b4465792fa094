(** Specification for C40: lines of text, tags and fields, and what the reader should
    make of them. *)
From Coq Require Import String.
From Verif Require Import CBase CStr AdesModel.
Local Open Scope string_scope.
Local Open Scope list_scope.
Local Open Scope Z_scope.

(** [t] occurs in [s]. *)
Definition occurs (t s : list Z) : Prop := exists a b, s = a ++ t ++ b.

(** The fields of a line, separated by '|' (byte 124). *)
Fixpoint fields (s : list Z) : list (list Z) :=
  match s with
  | [] => [[]]
  | x :: r => if x =? 124 then [] :: fields r
              else match fields r with f :: l => (x :: f) :: l | [] => [[x]] end
  end.

(** The first byte of [f] that is not white space is a lowercase letter. *)
Definition starts_lower (f : list Z) : Prop :=
  exists a x b, f = a ++ x :: b /\ Forall (fun y => isspace y = true) a /\ 97 <= x <= 122.

(** Four or more fields that start with a lowercase letter: this is taken for a PSV header. *)
Definition psv_header (s : list Z) : Prop := (4 <= List.length (fields s))%nat /\ Forall starts_lower (fields s).

(** "# ..." or "! ..." *)
Definition psv_info (s : list Z) : Prop := exists r, s = zs "# " ++ r \/ s = zs "! " ++ r.

(** A line that has nothing to do with ADES. *)
Definition plain (s : list Z) : Prop :=
  ~ occurs (zs "<optical>") s /\ ~ occurs (zs "<ades version") s /\ ~ psv_header s /\ ~ psv_info s.

(** The line is not one of astrometry with sigmas behind it, whatever the context. *)
Definition not_tholen {W} (h : hooks W) (s : list Z) : Prop := forall w, h_tholen h w s = Ret (false, w).

(** The reader is not inside ADES data and has nothing to put out. *)
Definition outside {W} (c : ctx W) : Prop :=
  depth c = 0 /\ getting_lines c = false /\ passed_through c = false /\ psv_tags c = None.

(** What repeated calls of fgets_with_ades_xlation( ) give until it returns 0. *)
Inductive outputs {W} (h : hooks W) (fuel : nat) (temp : list Z) : ctx W -> list Z -> list (list Z) -> list (list Z) -> Prop :=
| outputs_end c buff lines o c' lines' :
    fgets_with_ades_xlation h fuel temp c buff lines = Ret (0, o, c', lines') -> outputs h fuel temp c buff lines []
| outputs_more c buff lines r o c' lines' outs :
    fgets_with_ades_xlation h fuel temp c buff lines = Ret (r, o, c', lines') -> r <> 0 ->
    outputs h fuel temp c' o lines' outs -> outputs h fuel temp c buff lines (o :: outs).

(** The number of a tag: its place in the table, counted from 1. *)
Definition tag_number (name : string) (n : Z) : Prop := 1 <= n /\ nth_error tag_names (Z.to_nat (n - 1)) = Some name.

(** What the hooks do ends normally. *)
Definition total {W} (h : hooks W) : Prop :=
  (forall w t s n, exists r, h_tag h w t s n = Ret r) /\ (forall w o, exists r, h_line h w o = Ret r) /\
  (forall w s, exists r, h_tholen h w s = Ret r).

(** How many opening tags a line has at most, and how many closing tags. *)
Fixpoint opens (s : list Z) : Z :=
  match s with
  | 60 :: r => (match r with 47 :: _ => 0 | _ => 1 end) + opens r
  | _ :: r => opens r
  | [] => 0
  end.
Fixpoint closes (s : list Z) : Z :=
  match s with
  | 60 :: r => (match r with 47 :: _ => 1 | _ => 0 end) + closes r
  | _ :: r => closes r
  | [] => 0
  end.

(** No control characters but white space. *)
Definition printable (s : list Z) : Prop := Forall (fun x => isspace x = true \/ 32 < x \/ x < 0) s.

(** The number the reader uses for a tag: 0 for "ades", else its place in the table. *)
Fixpoint place (name : string) (l : list string) (i : Z) : Z :=
  match l with
  | [] => -1
  | n :: l => if String.eqb n name then i else place name l (i + 1)
  end.
Definition num (name : string) : Z := if String.eqb name "ades" then 0 else place name tag_names 1.

(** Items of XML data: the first tag with its attributes, an opening tag, a closing tag,
    a text, white space. *)
Inductive item : Type :=
| Ades (attributes : list Z)
| Open (name : string)
| Close (name : string)
| Text (s : list Z)
| Blank (s : list Z).
Definition show (i : item) : list Z :=
  match i with
  | Ades s => zs "<ades version" ++ s ++ zs ">"
  | Open n => zs "<" ++ zs n ++ zs ">"
  | Close n => zs "</" ++ zs n ++ zs ">"
  | Text s | Blank s => s
  end.
Definition shows (l : list item) : list Z := List.concat (map show l).

(** Texts have no '<' and neither start nor end with white space or a control
    character.  One text does not follow another. *)
Definition text_ok (s : list Z) : Prop :=
  s <> [] /\ ~ In 60 s /\ ~ (0 <= hd 0 s <= 32) /\ ~ (0 <= last s 0 <= 32).
Definition blank_ok (s : list Z) : Prop := Forall (fun x => isspace x = true) s.
Fixpoint items_ok (l : list item) : Prop :=
  match l with
  | [] => True
  | Ades s :: l => ~ In 62 s /\ items_ok l
  | Open n :: l | Close n :: l => In n tag_names /\ items_ok l
  | Blank s :: l => blank_ok s /\ items_ok l
  | Text s :: l => text_ok s /\ items_ok l /\
      match l with Text _ :: _ => False | Blank _ :: Text _ :: _ => False | Blank _ :: Blank _ :: _ => False | _ => True end
  end.

(** The tags that are open after the items, innermost first; [None] if a closing tag
    does not match, if more than [m] are open, or if there is text outside of all tags. *)
Fixpoint nest (m : nat) (l : list item) (stack : list string) : option (list string) :=
  match l with
  | [] => Some stack
  | Ades _ :: l => if (List.length stack <? m)%nat then nest m l ("ades" :: stack) else None
  | Open n :: l => if (List.length stack <? m)%nat then nest m l (n :: stack) else None
  | Close n :: l => match stack with t :: s => if String.eqb t n then nest m l s else None | [] => None end
  | Text _ :: l => match stack with [] => None | _ => nest m l stack end
  | Blank _ :: l => nest m l stack
  end.

(** The context's stack holds these open tags. *)
Definition stack_is {W} (c : ctx W) (stack : list string) : Prop :=
  depth c = Z.of_nat (List.length stack) /\ firstn (List.length stack) (tags c) = map num (rev stack) /\
  List.length (tags c) = MAX_DEPTH /\ Forall (fun n => In n tag_names) stack.

(** What is made of a text inside the open tags [stack]: a line to put out for a code, a
    name and the like, else it goes to the observation.  The text is the first [len]
    bytes of [s].  Gives whether there is a line, and the line. *)
Definition name_line (parent : string) (text : list Z) : list Z :=
  if String.eqb parent "mpcCode" then zs "COM " ++ text ++ [10]
  else if String.eqb parent "comment" then zs "COM " ++ text ++ [10]
  else if String.eqb parent "observatory" then zs "COM Observatory name " ++ text ++ [10]
  else if String.eqb parent "observers" then zs "OBS " ++ text ++ [10]
  else if String.eqb parent "measurers" then zs "MEA " ++ text ++ [10]
  else if String.eqb parent "submitter" then zs "CON " ++ text ++ [10]
  else zs "COM Mangled '" ++ text ++ zs "'" ++ [10].
Definition value {W} (h : hooks W) (stack : list string) (w : W) (s : list Z) (len : nat) : outcome (Z * list Z * W) :=
  match stack with
  | [] => UB
  | tag :: outer =>
      if String.eqb tag "mpcCode" then
        if (len <? 40)%nat then Ret (1, zs "COD " ++ firstn len s ++ [10], w) else UB
      else if String.eqb tag "name" || String.eqb tag "line" || String.eqb tag "institution" then
        match outer with
        | parent :: _ =>
            let l := name_line parent (firstn len s) in
            if (List.length l <? 221)%nat then Ret (1, l, w) else Abort
        | [] => Ret (1, zs "COM Mangled name data" ++ [10], w)
        end
      else
        do '(r, o, w) <- h_tag h w (num tag) s len;
        Ret (if r : bool then 1 else 0, o, w)
  end.

(** What is made of the items: the line to put out, the observation so far, whether
    there is a line, and whether an observation is complete. *)
Fixpoint feed {W} (h : hooks W) (l : list item) (stack : list string) (w : W) (out : list Z) (r : Z) (complete : bool)
  : outcome (list Z * W * Z * bool) :=
  match l with
  | [] => Ret (out, w, r, complete)
  | Ades _ :: l => feed h l ("ades" :: stack) w out r complete
  | Open n :: l => feed h l (n :: stack) (if String.eqb n "optical" then h_setup h w else w) out r complete
  | Close n :: l =>
      if String.eqb n "optical" then feed h l (tl stack) w out 1 true else feed h l (tl stack) w out r complete
  | Text s :: l =>
      do '(r, out, w) <- value h stack w (s ++ shows l) (List.length s);
      feed h l stack w out r complete
  | Blank _ :: l => feed h l stack w out r complete
  end.

(** A line with the given fields. *)
Fixpoint join (fs : list (list Z)) : list Z :=
  match fs with
  | [] => []
  | [f] => f
  | f :: fs => f ++ 124 :: join fs
  end.
(** Without the blanks at both ends. *)
Definition skip_blanks (f : list Z) : list Z := skipn (span isspace f) f.
Fixpoint trim_end (f : list Z) : list Z :=
  match f with
  | [] => []
  | x :: r => match trim_end r with [] => if x =? 32 then [] else [x] | t => x :: t end
  end.
Definition trim (f : list Z) : list Z := trim_end (skip_blanks f).

(** The fields of a PSV line go to the tags of their columns; empty ones are left out. *)
Fixpoint feed_fields {W} (h : hooks W) (ns : list string) (fs : list (list Z)) (w : W) : outcome W :=
  match ns, fs with
  | n :: ns, f :: fs =>
      do w <- (match trim f with
               | [] => Ret w
               | t => do '(_, _, w) <- value h [n] w (skip_blanks f ++ match fs with [] => [] | _ => 124 :: join fs end) (List.length t);
                      Ret w
               end);
      feed_fields h ns fs w
  | _, _ => Ret w
  end.

(** At the end of a line: if there is a line to put out, the observation may add to it or
    replace it.  Gives what is returned, the line, the observation and whether there is
    more to put out for it. *)
Definition put_out {W} (h : hooks W) (x : list Z * W * Z * bool) : outcome (Z * list Z * W * bool) :=
  let '(out, w, r, complete) := x in
  if r =? 0 then Ret (r, out, w, complete)
  else do '(more, out, w) <- h_line h w out; Ret (r, out, w, complete && more).

(** Ready for a line of XML data: nothing to put out, not in a PSV section. *)
Definition ready {W} (c : ctx W) : Prop := getting_lines c = false /\ passed_through c = false /\ psv_tags c = None.

(** Lines handed to the reader one after the other. *)
Inductive calls {W} (h : hooks W) (fuel : nat) (temp : list Z) : ctx W -> list (list Z) -> ctx W -> Prop :=
| calls_end c : calls h fuel temp c [] c
| calls_line c s r o c' lines c'' : ready c -> xlate_ades2mpc h fuel true temp c s s = Ret (r, o, c') ->
    calls h fuel temp c' lines c'' -> calls h fuel temp c (s :: lines) c''.

(** No code in the data so far. *)
Definition codeless {W} (c : ctx W) : Prop :=
  ~ In (num "mpcCode") (tags c) /\ match psv_tags c with Some l => ~ In (num "mpcCode") l | None => True end.
(** A code of 40 bytes or more cannot occur: the line is short, or codes do not occur in
    it nor in the data before. *)
Definition no_long_code {W} (c : ctx W) (s : list Z) : Prop :=
  (List.length s < 40)%nat \/ (~ occurs (zs "mpcCode") s /\ codeless c).

(** The context is one the reader itself has made. *)
Definition sane {W} (c : ctx W) : Prop :=
  List.length (tags c) = MAX_DEPTH /\ 0 <= depth c <= 19 /\
  match psv_tags c with Some l => n_psv_fields c = Z.of_nat (List.length l) | None => True end.

(** A field of a PSV header: the name of a tag that starts with a lowercase letter,
    perhaps with white space around it. *)
Definition named (f : list Z) (n : string) : Prop :=
  In n tag_names /\ n <> "ades" /\ 97 <= hd 0 (zs n) <= 122 /\ exists a b, f = a ++ zs n ++ b /\ blank_ok a /\ blank_ok b.
(** A field of a PSV data line: printable ASCII. *)
Definition field_ok (f : list Z) : Prop := Forall (fun x => 32 <= x /\ x <> 124) f.
(** In a PSV section with these columns, and nothing to put out. *)
Definition in_psv {W} (c : ctx W) (ns : list string) : Prop :=
  getting_lines c = false /\ passed_through c = false /\ depth c = 1 /\
  psv_tags c = Some (map num ns) /\ n_psv_fields c = Z.of_nat (List.length ns) /\ Forall (fun n => In n tag_names /\ n <> "ades") ns.

(** The other fields of the context have not changed. *)
Definition kept {W} (c c' : ctx W) : Prop :=
  passed_through c' = passed_through c /\ prev_rval c' = prev_rval c /\ n_psv_fields c' = n_psv_fields c /\ psv_tags c' = psv_tags c.

(** A line of well-formed items that is not taken for something else. *)
Definition line_ok {W} (h : hooks W) (l : list item) : Prop :=
  items_ok l /\ ~ psv_header (shows l) /\ ~ psv_info (shows l) /\ not_tholen h (shows l).

(** A reader with no observation in progress: the parts not modelled do nothing. *)
Definition idle : hooks unit := mkh (fun w _ _ _ => Ret (false, [], w)) (fun w o => Ret (false, o, w)) (fun w => w) (fun w _ => Ret (false, w)).

(** The line after [k] calls of fgets_with_ades_xlation( ), each of which gave a line. *)
Fixpoint reads {W} (h : hooks W) (fuel k : nat) (c : ctx W) (buff : list Z) (lines : list (list Z)) : outcome (list Z * ctx W * list (list Z)) :=
  match k with
  | O => Ret (buff, c, lines)
  | S k => do '(r, o, c, lines) <- fgets_with_ades_xlation h fuel [] c buff lines; if r =? 1 then reads h fuel k c o lines else Fuel
  end.
