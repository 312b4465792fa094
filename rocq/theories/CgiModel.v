(** Model of cgi_func.cpp: decoding of URL-encoded form data. *)
From Coq Require Import String.
From Verif Require Import CBase CStr StrModel.
Open Scope list_scope.

(** cgi_func.cpp:124-136, the value of a hexadecimal digit; [None]: not a digit. *)
Definition hex_digit (c1 : Z) : option Z :=
  if (48 <=? c1) && (c1 <=? 57) then Some (c1 - 48)
  else if (65 <=? c1) && (c1 <=? 70) then Some (c1 - 65 + 10)
  else None.

(** cgi_func.cpp:108-143 [get_urlencoded_piece].  *idata is [s] + [p]; buff is
    [b] + [j]; [left] is max_buff after the first decrement ("size_t": an initial
    max_buff of 0 becomes SIZE_MAX, see below).  Returns c, the new tptr and the
    buffer; [None]: the early return of -1 (nothing else is stored then).  [fuel]
    bounds the rounds. *)
Fixpoint piece_loop (fuel : nat) (s : list Z) (p : Z) (b : buf) (j : Z) (left : Z) (end_char : Z)
  : outcome (option (Z * Z) * buf) :=
  match fuel with
  | O => Fuel
  | S f =>
      do c <- at_ s p;
      if 13 <? c then
        if left =? 0 then
          (* stopped by max_buff: the decrement happened, c was not stored *)
          let t := if c =? end_char then p + 1 else p in
          do b <- wr b j 0; Ret (Some (c, t), b)
        else if c =? end_char then do b <- wr b j 0; Ret (Some (c, p + 1), b)
        else if c =? 43 then do b <- wr b j 32; piece_loop f s (p + 1) b (j + 1) (left - 1) end_char
        else if c =? 37 then
          do c1 <- at_ s (p + 1);
          match hex_digit c1 with
          | None => Ret (None, b)
          | Some h =>
              do c2 <- at_ s (p + 2);
              match hex_digit c2 with
              | None => Ret (None, b)
              | Some l => do b <- wr b j (to_char (h * 16 + l));
                          piece_loop f s (p + 3) b (j + 1) (left - 1) end_char
              end
          end
        else do b <- wr b j c; piece_loop f s (p + 1) b (j + 1) (left - 1) end_char
      else
        let t := if c =? end_char then p + 1 else p in
        do b <- wr b j 0; Ret (Some (c, t), b)
  end.

Definition SIZE_MAX : Z := 18446744073709551615.
(** The return value, *idata and the buffer. *)
Definition get_urlencoded_piece (s : list Z) (p : Z) (b : buf) (max_buff : Z) (end_char : Z)
  : outcome (Z * Z * buf) :=
  let left := if max_buff =? 0 then SIZE_MAX else max_buff - 1 in
  do '(r, b) <- piece_loop (S (length s)) s p b 0 left end_char;
  match r with
  | None => Ret (-1, p, b)
  | Some (c, t) => Ret (c, t, b)
  end.

(** cgi_func.cpp:145-155 [get_urlencoded_form_data]: the return value, *idata, field
    and buff. *)
Definition get_urlencoded_form_data (s : list Z) (p : Z) (field : buf) (max_field : Z) (buff : buf) (max_buff : Z)
  : outcome (Z * Z * buf * buf) :=
  do '(c, p, field) <- get_urlencoded_piece s p field max_field 61;
  if negb (c =? 61) then Ret (-1, p, field, buff)
  else
    do '(c, p, buff) <- get_urlencoded_piece s p buff max_buff 38;
    Ret (if negb (c =? 38) && (13 <? c) then 1 else 0, p, field, buff).
