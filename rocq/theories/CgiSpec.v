(** Specification vocabulary for URL-encoded form data. *)
From Coq Require Import String.
From Verif Require Import CBase CStr CgiModel.
Open Scope list_scope.

Definition hexadecimal : list Z := zs "0123456789ABCDEF".
(** [encoding end_char text e]: [e] is an encoding of [text] that can be followed
    by [end_char]: each byte is written as itself, as '+' if it is a blank, or as
    '%' and the two hexadecimal digits of its (unsigned) value. *)
Inductive encoding (end_char : Z) : list Z -> list Z -> Prop :=
| enc_nil : encoding end_char [] []
| enc_self c text e : 13 < c <= 127 -> c <> 43 -> c <> 37 -> c <> end_char ->
    encoding end_char text e -> encoding end_char (c :: text) (c :: e)
| enc_blank text e : encoding end_char text e -> encoding end_char (32 :: text) (43 :: e)
| enc_percent c text e : byte c ->
    encoding end_char text e ->
    encoding end_char (c :: text)
      (37 :: nth (Z.to_nat (c mod 256 / 16)) hexadecimal 0 :: nth (Z.to_nat (c mod 256 mod 16)) hexadecimal 0 :: e).

(** The text of a whole form: "field=value&field=value...". *)
Inductive form : list (list Z * list Z) -> list Z -> Prop :=
| form_one f v ef ev : encoding 61 f ef -> encoding 38 v ev -> form [(f, v)] (ef ++ 61 :: ev)
| form_more f v ef ev more e : encoding 61 f ef -> encoding 38 v ev -> form more e ->
    form ((f, v) :: more) (ef ++ 61 :: ev ++ 38 :: e).

(** Successive calls of get_urlencoded_form_data( ), each on the rest of the text
    [s] and with any buffers of the given sizes, yield [pairs] and then -1. *)
Inductive yields (s : list Z) (max_field max_buff : Z) : Z -> list (list Z * list Z) -> Prop :=
| yields_end p : (forall field buff : buf, Z.of_nat (length field) = max_field -> Z.of_nat (length buff) = max_buff ->
      exists p' field', get_urlencoded_form_data s p field max_field buff max_buff = Ret (-1, p', field', buff)) ->
    yields s max_field max_buff p []
| yields_pair p p' f v more : (forall field buff : buf, Z.of_nat (length field) = max_field -> Z.of_nat (length buff) = max_buff ->
      exists field' buff', get_urlencoded_form_data s p field max_field buff max_buff = Ret (0, p', field', buff') /\
        holds field' 0 f /\ holds buff' 0 v) ->
    yields s max_field max_buff p' more ->
    yields s max_field max_buff p ((f, v) :: more).
