(** Model of snprintf.cpp: bounded copying, appending and formatting. *)
From Verif Require Import CBase CStr.

(** snprintf.cpp:134-137, the loop of [strlcpy].  [nleft] is the counter before
    the decrement; the result is the counter, the buffer and both pointers.
    (The loop is entered with nleft != 0, so [O] is not reached.) *)
Fixpoint strlcpy_loop (nleft : nat) (dst : buf) (di : Z) (src : list Z) (si : Z)
  : outcome (nat * buf * Z * Z) :=
  match nleft with
  | O => UB
  | S O => Ret (O, dst, di, si)
  | S n =>
      do c <- at_ src si;
      do dst' <- wr dst di c;
      if c =? 0 then Ret (n, dst', di + 1, si + 1)
      else strlcpy_loop n dst' (di + 1) src (si + 1)
  end.

(** "while (*src++) ;" (snprintf.cpp:144): the pointer after the loop.  [fuel]
    bounds the rounds. *)
Fixpoint skip_string (fuel : nat) (src : list Z) (si : Z) : outcome Z :=
  match fuel with
  | O => Fuel
  | S f => do c <- at_ src si;
           if c =? 0 then Ret (si + 1) else skip_string f src (si + 1)
  end.

(** snprintf.cpp:127-149 [strlcpy]: the return value and the destination. [di]
    is the offset of dst in its buffer. *)
Definition strlcpy (dst : buf) (di : Z) (src : list Z) (dsize : nat) : outcome (Z * buf) :=
  do '(nleft, dst1, d1, s1) <-
    (match dsize with
     | O => Ret (O, dst, di, 0)
     | _ => strlcpy_loop dsize dst di src 0
     end);
  do '(dst2, s2) <-
    (match nleft with
     | O => do dst2 <- (match dsize with O => Ret dst1 | _ => wr dst1 d1 0 end);
            do s2 <- skip_string (S (length src)) src s1;
            Ret (dst2, s2)
     | _ => Ret (dst1, s1)
     end);
  Ret (s2 - 0 - 1, dst2).

(** snprintf.cpp:167-168: the end of dst, or dsize bytes on. *)
Fixpoint find_end (n : nat) (dst : buf) (di : Z) : outcome Z :=
  match n with
  | O => Ret di
  | S n' => do c <- rd dst di;
            if c =? 0 then Ret di else find_end n' dst (di + 1)
  end.

(** snprintf.cpp:174-180.  [fuel] bounds the rounds. *)
Fixpoint strlcat_loop (fuel : nat) (n : nat) (dst : buf) (di : Z) (src : list Z) (si : Z)
  : outcome (buf * Z * Z) :=
  match fuel with
  | O => Fuel
  | S f =>
      do c <- at_ src si;
      if c =? 0 then Ret (dst, di, si)
      else match n with
           | S n' => do dst' <- wr dst di c; strlcat_loop f n' dst' (di + 1) src (si + 1)
           | O => strlcat_loop f O dst di src (si + 1)
           end
  end.

(** snprintf.cpp:159-184 [strlcat]; [di] is the offset of dst in its buffer. *)
Definition strlcat (dst : buf) (di : Z) (src : list Z) (dsize : nat) : outcome (Z * buf) :=
  do e <- find_end dsize dst di;
  let dlen := e - di in
  match (dsize - Z.to_nat dlen)%nat with
  | O => Ret (dlen + Z.of_nat (length src), dst)
  | S n =>
      do '(dst1, d1, s1) <- strlcat_loop (S (length src)) n dst e src 0;
      do dst2 <- wr dst1 d1 0;
      Ret (dlen + s1, dst2)
  end.

(** snprintf.cpp:192-204 [strlcpy_err].  The message on stderr is not
    modelled; "assert( rval >= dsize); exit( -1);" ends the program with or
    without NDEBUG. *)
Definition strlcpy_err (dst : buf) (di : Z) (src : list Z) (dsize : nat) : outcome (Z * buf) :=
  do '(rval, dst') <- strlcpy dst di src dsize;
  if Z.of_nat dsize <=? rval then Abort else Ret (rval, dst').

(** snprintf.cpp:206-218 [strlcat_err]. *)
Definition strlcat_err (dst : buf) (di : Z) (src : list Z) (dsize : nat) : outcome (Z * buf) :=
  do '(rval, dst') <- strlcat dst di src dsize;
  if Z.of_nat dsize <=? rval then Abort else Ret (rval, dst').

(** The C library's vsnprintf: [out] is the text the format produces.  It stores
    as much as fits and a terminator, nothing if [max] is 0. *)
Fixpoint store (dst : buf) (di : Z) (s : list Z) : outcome buf :=
  match s with
  | [] => Ret dst
  | c :: r => do dst' <- wr dst di c; store dst' (di + 1) r
  end.
Definition vsnprintf (dst : buf) (di : Z) (max : nat) (out : list Z) : outcome (Z * buf) :=
  match max with
  | O => Ret (Z.of_nat (length out), dst)
  | S m => do dst' <- store dst di (firstn m out ++ [0]);
           Ret (Z.of_nat (length out), dst')
  end.

(** strlen of a string inside a buffer; [fuel] bounds the rounds. *)
Fixpoint buf_len (fuel : nat) (b : buf) (i : Z) : outcome Z :=
  match fuel with
  | O => Fuel
  | S f => do c <- rd b i;
           if c =? 0 then Ret 0 else do n <- buf_len f b (i + 1); Ret (n + 1)
  end.

(** The string inside a buffer, as a %s argument reads it. *)
Fixpoint buf_str (fuel : nat) (b : buf) (i : Z) : outcome (list Z) :=
  match fuel with
  | O => Fuel
  | S f => do c <- rd b i;
           if c =? 0 then Ret [] else do r <- buf_str f b (i + 1); Ret (c :: r)
  end.

(** snprintf.cpp:52-73 [_sn_append], assertions enabled.  vsnprintf's error return
    (negative) does not occur for the formats used. *)
Definition sn_append (no_truncation : bool) (b : buf) (off : Z) (max_len : nat) (out : list Z)
  : outcome (Z * buf) :=
  do ilen <- buf_len (S (length b)) b off;
  if negb (ilen <=? Z.of_nat max_len) then Abort else
  do '(rval, b') <- vsnprintf b (off + ilen) (max_len - Z.to_nat ilen) out;
  if (Z.of_nat max_len <=? rval + ilen) && no_truncation then Abort
  else Ret (rval + ilen, b').
(** snprintf.cpp:75-91. *)
Definition snprintf_append := sn_append true.
Definition snprintf_append_trunc := sn_append false.

(** snprintf.cpp:225-246 [snprintf_err]. *)
Definition snprintf_err (b : buf) (off : Z) (max_len : nat) (out : list Z) : outcome (Z * buf) :=
  do '(rval, b') <- vsnprintf b off max_len out;
  if Z.of_nat max_len <=? rval then Abort else Ret (rval, b').
