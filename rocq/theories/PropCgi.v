(** Property C29: URL-encoded form data.

    [encoding], [form] and [yields] are defined in [CgiSpec].  A call is given
    the text, the offset of *idata in it, the destination and its size, and
    returns its value, the new offset and the destination(s). *)
From Coq Require Import Lia String.
From Verif Require Import CBase CStr CgiModel CgiSpec CgiThms.
Open Scope list_scope.

(** C29.  A piece that fits is decoded: the destination holds the text and its
    terminator (and is unchanged behind it), and exactly the piece and the
    character that ends it are consumed. *)
Theorem C29_piece :
  forall end_char text e before rest (b : buf) size,
  13 < end_char -> end_char <> 43 -> end_char <> 37 ->
  encoding end_char text e -> Z.of_nat (length text) < size <= Z.of_nat (length b) ->
  get_urlencoded_piece (before ++ e ++ end_char :: rest) (Z.of_nat (length before)) b size end_char
  = Ret (end_char, Z.of_nat (length (before ++ e ++ [end_char])),
         map Some text ++ [Some 0] ++ skipn (length text + 1) b).
Proof. exact C29_piece_proof. Qed.
Print Assumptions C29_piece.

Example C29_piece_case :
  encoding 38 (zs "M 31&b") (zs "M+31%26b") /\
  get_urlencoded_piece (zs "a=M+31%26b&c=d") 2 (repeat None 8) 8 38
  = Ret (38, 11, map Some (zs "M 31&b") ++ [Some 0; None]).
Proof.
  split; [|vm_compute; reflexivity].
  repeat match goal with |- context [zs ?s] => let v := eval vm_compute in (zs s) in change (zs s) with v end.
  apply enc_self; [lia..|]. apply enc_blank. apply enc_self; [lia..|]. apply enc_self; [lia..|].
  apply (enc_percent 38 38); [unfold byte; lia|]. apply enc_self; [lia..|]. apply enc_nil.
Qed.

(** C29.  The same at the end of the text or before a control character up to 13
    (CR, LF): this is not consumed, and is the return value. *)
Theorem C29_last_piece :
  forall end_char text e before rest (b : buf) size,
  13 < end_char -> end_char <> 43 -> end_char <> 37 ->
  encoding end_char text e -> hd 0 rest <= 13 -> Z.of_nat (length text) < size <= Z.of_nat (length b) ->
  get_urlencoded_piece (before ++ e ++ rest) (Z.of_nat (length before)) b size end_char
  = Ret (hd 0 rest, Z.of_nat (length (before ++ e)), map Some text ++ [Some 0] ++ skipn (length text + 1) b).
Proof. exact C29_last_piece_proof. Qed.
Print Assumptions C29_last_piece.

Example C29_last_piece_case :
  get_urlencoded_piece (zs "c=d") 2 (repeat None 4) 4 38 = Ret (0, 3, [Some 100; Some 0; None; None]).
Proof. vm_compute. reflexivity. Qed.

(** C29.  A piece that does not fit: the destination holds as much of the text as
    fits, exactly that much is consumed, and the return value is neither the end
    character nor below 14. *)
Theorem C29_piece_cut :
  forall end_char text e before rest (b : buf) size,
  13 < end_char -> end_char <> 43 -> end_char <> 37 ->
  encoding end_char text e -> 1 <= size <= Z.of_nat (length text) -> size <= Z.of_nat (length b) ->
  exists text1 text2 e1 e2 c, text = text1 ++ text2 /\ e = e1 ++ e2 /\
  encoding end_char text1 e1 /\ encoding end_char text2 e2 /\ Z.of_nat (length text1) = size - 1 /\
  13 < c /\ c <> end_char /\
  get_urlencoded_piece (before ++ e ++ rest) (Z.of_nat (length before)) b size end_char
  = Ret (c, Z.of_nat (length (before ++ e1)), map Some text1 ++ [Some 0] ++ skipn (length text1 + 1) b).
Proof. exact C29_piece_cut_proof. Qed.
Print Assumptions C29_piece_cut.

Example C29_piece_cut_case :
  get_urlencoded_piece (zs "a=M+31%26b&c=d") 2 (repeat None 8) 5 38
  = Ret (37, 6, map Some (zs "M 31") ++ [Some 0; None; None; None]).
Proof. vm_compute. reflexivity. Qed.

(** C29.  Any text at all, and any size from 1 on: the call returns, reads nothing
    outside the text, writes nothing outside the given size, and does not advance
    beyond the end.  Unless it returns -1 the destination holds a terminated
    string.  Missing: the size 0, and the terminator after -1; see below. *)
Theorem C29_piece_safe_partial :
  forall s p (b : buf) size end_char, 13 < end_char ->
  0 <= p <= Z.of_nat (length s) -> 1 <= size <= Z.of_nat (length b) ->
  exists c p' b', get_urlencoded_piece s p b size end_char = Ret (c, p', b') /\
    p <= p' <= Z.of_nat (length s) /\ length b' = length b /\
    skipn (Z.to_nat size) b' = skipn (Z.to_nat size) b /\
    (c <> -1 -> exists text, Z.of_nat (length text) < size /\ holds b' 0 text).
Proof. exact C29_piece_safe_partial_proof. Qed.
Print Assumptions C29_piece_safe_partial.

Example C29_piece_safe_case :
  get_urlencoded_piece (zs "a%4") 0 (repeat None 3) 2 61 = Ret (37, 1, [Some 97; Some 0; None]).
Proof. vm_compute. reflexivity. Qed.

(** C29.  A percent sign without two digits: the destination has no terminator, and if
    it is the value's, get_urlencoded_form_data( ) reports success (and has not
    consumed the value). *)
Theorem C29_bad_escape_refuted :
  get_urlencoded_piece (zs "ab%4g&") 0 (repeat None 4) 4 38 = Ret (-1, 0, [Some 97; Some 98; None; None]) /\
  get_urlencoded_form_data (zs "f=ab%4g&") 0 (repeat None 4) 4 (repeat None 4) 4
  = Ret (0, 2, [Some 102; Some 0; None; None], [Some 97; Some 98; None; None]).
Proof. exact C29_bad_escape_refuted_proof. Qed.
Print Assumptions C29_bad_escape_refuted.

(** C29.  Lower-case hexadecimal digits, as "%c3", are refused. *)
Theorem C29_lower_case_refuted :
  get_urlencoded_piece (zs "%c3") 0 (repeat None 4) 4 38 = Ret (-1, 0, repeat None 4) /\
  get_urlencoded_piece (zs "%C3") 0 (repeat None 4) 4 38 = Ret (0, 3, [Some (-61); Some 0; None; None]).
Proof. exact C29_lower_case_refuted_proof. Qed.
Print Assumptions C29_lower_case_refuted.

(** C29.  With a size of 0 there is no limit: any plain text longer than the
    destination is written beyond its end. *)
Theorem C29_size_zero_refuted :
  forall s (b : buf), (forall c, In c s -> 64 < c <= 127) -> (length b <= length s)%nat ->
  Z.of_nat (length s) <= SIZE_MAX -> get_urlencoded_piece s 0 b 0 38 = UB.
Proof. exact C29_size_zero_refuted_proof. Qed.
Print Assumptions C29_size_zero_refuted.

Example C29_size_zero_case : get_urlencoded_piece (zs "Ceres") 0 (repeat None 5) 0 38 = UB.
Proof. vm_compute. reflexivity. Qed.

(** C29.  A whole form: successive calls yield its fields and values in order, and
    then -1, if each fits in its destination. *)
Theorem C29_form :
  forall pairs e max_field max_buff, form pairs e ->
  (forall field value, In (field, value) pairs ->
     Z.of_nat (length field) < max_field /\ Z.of_nat (length value) < max_buff) ->
  yields e max_field max_buff 0 pairs.
Proof. exact C29_form_proof. Qed.
Print Assumptions C29_form.

Example C29_form_case : form [(zs "a", zs "b c"); (zs "d", [])] (zs "a=b+c&d=").
Proof.
  apply (form_more (zs "a") (zs "b c") (zs "a") (zs "b+c") _ (zs "d=")); repeat match goal with |- context [zs ?s] => let v := eval vm_compute in (zs s) in change (zs s) with v end.
  - apply enc_self; [lia..|apply enc_nil].
  - apply enc_self; [lia..|]. apply enc_blank. apply enc_self; [lia..|apply enc_nil].
  - apply (form_one [100] [] [100] []); [|apply enc_nil]. apply enc_self; [lia..|apply enc_nil].
Qed.
