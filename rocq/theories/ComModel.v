(** The designation inside the name of a comet (com_file.cpp: extract_periodic_name).  The input is the bytes before its terminator;
    what is written to the output buffer is the bytes before the terminator there.  The size of that buffer is not known to the
    function and not modelled; [C68_length] says what it must be. *)
From Coq Require Import String List.
From Verif Require Export CStr.
Local Open Scope list_scope.
Local Open Scope Z_scope.

(** strstr: the position of the first occurrence. *)
Fixpoint strstr (s p : list Z) : option nat :=
  if prefix p s then Some O
  else match s with [] => None | _ :: r => match strstr r p with Some n => Some (S n) | None => None end end.

(** com_file.cpp 64-65: back from [end] to an opening parenthesis, or to the start. *)
Fixpoint back (s : list Z) (i : nat) : nat :=
  match i with
  | O => O
  | S i' => if nth i s 0 =? 40 then i else back s i'
  end.

(** com_file.cpp 59-72: a permanent number, as in (145P). *)
Definition permanent (s : list Z) : option (list Z) :=
  match strstr s (zs "P)"%string) with
  | Some e => let i := back s e in if nth i s 0 =? 40 then Some (firstn (e - i) (skipn (i + 1) s)) else None
  | None => None
  end.

(** The bytes at the start that satisfy [f], and those behind them: the loops "while( f( *loc)) *ostr++ = *loc++;". *)
Fixpoint takes (f : Z -> bool) (s : list Z) : list Z := match s with c :: r => if f c then c :: takes f r else [] | [] => [] end.
Fixpoint skips (f : Z -> bool) (s : list Z) : list Z := match s with c :: r => if f c then skips f r else s | [] => [] end.

(** com_file.cpp 81-99, behind the letter and the slash. *)
Definition year_and_rest (loc : list Z) : list Z :=
  let loc := skips (Z.eqb 32) loc in
  let year := takes isdigit loc in
  let loc := skips isdigit loc in
  let loc := skips (Z.eqb 32) loc in
  let id := takes isupper loc in
  let loc := skips isupper loc in
  let sub := takes isdigit loc in
  let loc := skips isdigit loc in
  year ++ [32] ++ id ++ sub ++ match loc with 45 :: loc' => 45 :: takes isupper loc' | _ => [] end.

(** com_file.cpp 74-101: a designation such as C/1999 X1 or P/2003 RZ47. *)
Fixpoint provisional (s : list Z) : option (list Z) :=
  match s with
  | [] => None
  | c :: r =>
    if ((c =? 80) || (c =? 67)) && (nth 0 r 0 =? 47) && ((49 <=? nth 1 r 0) && (nth 1 r 0 <=? 57))
    then Some (c :: 47 :: year_and_rest (skipn 1 r)) else provisional r
  end.

(** com_file.cpp 104-114: a designation in parentheses such as (2001 HT50). *)
Fixpoint bare (s : list Z) : outcome (option (list Z)) :=
  match s with
  | [] => Ret None
  | c :: r =>
    if c =? 40 then
      do y <- atoi r;
      if (1000 <? y) && (y <? 2300) then Ret (Some (takes (fun x => negb (x =? 41)) r)) else bare r
    else bare r
  end.

(** extract_periodic_name( ), com_file.cpp 54-116: the result, and what is written, if anything. *)
Definition extract_periodic_name (istr : list Z) : outcome (Z * option (list Z)) :=
  match permanent istr with
  | Some t => Ret (1, Some t)
  | None => match provisional istr with
            | Some t => Ret (1, Some t)
            | None => do o <- bare istr; match o with Some t => Ret (1, Some t) | None => Ret (0, None) end
            end
  end.
