(** Property C68 (the designation in the name of a comet; com_file.cpp: extract_periodic_name).

    [numbered], [lettered], [no_number] and [no_letter] say what designations a text has; see [ComSpec].  The texts are without
    their terminating zeroes. *)
From Coq Require Import Lia List String.
From Verif Require Import CBase CStr ComModel ComSpec ComThms.
Import ListNotations.
Local Open Scope list_scope.
Local Open Scope Z_scope.

(** A permanent number in parentheses, as in (145P), is found wherever it is and before any other designation. *)
Theorem C68_numbered :
forall s a d b, numbered s a d b -> extract_periodic_name s = Ret (1, Some (d ++ [80])).
Proof. exact C68_numbered_proof. Qed.
Print Assumptions C68_numbered.

Example C68_numbered_case : extract_periodic_name (zs "Halley (P/1682 Q1) = (1P)"%string) = Ret (1, Some (zs "1P"%string)) /\ numbered (zs "(1P)"%string) [] (zs "1"%string) [].
Proof.
  split; [vm_compute; reflexivity|]. split; [reflexivity|]. split; [intros [H|[]]; discriminate|]. intros u v E. change (zs "(1P)"%string) with [40; 49; 80; 41] in E. destruct u as [|x [|y u]]; cbn in *; try discriminate E. lia.
Qed.

(** Otherwise the first designation such as C/1999 X1 is given, with one blank between the year and the rest, however many there are, and with the letter of a fragment. *)
Theorem C68_lettered :
forall s c year id sub frag, no_number s -> lettered s c year id sub frag ->
  extract_periodic_name s = Ret (1, Some ([c; 47] ++ year ++ [32] ++ id ++ sub ++ frag)).
Proof. exact C68_lettered_proof. Qed.
Print Assumptions C68_lettered.

Example C68_lettered_case : extract_periodic_name (zs "Biela (P/1846   D1-AB)"%string) = Ret (1, Some (zs "P/1846 D1-AB"%string)) /\ lettered (zs "C/2 A1"%string) 67 [50] [65] [49] [].
Proof.
  split; [vm_compute; reflexivity|]. exists [], 1%nat, []. split; [reflexivity|]. split; [now right|]. split; [intros u _; cbn; lia|]. split; [exists 50, []; split; [reflexivity|lia]|].
  unfold a_digit, a_capital. repeat split; try discriminate; try (repeat constructor; lia).
Qed.

(** Otherwise a designation in parentheses that starts with a year from 1001 to 2299, as in (2001 HT50), is given as it is. *)
Theorem C68_bare :
forall a y v t b, let s := a ++ [40] ++ y ++ t ++ [41] ++ b in no_number s -> no_letter s ->
  ~ In 40 a -> year_of y v -> 1000 < v < 2300 -> not_first a_digit (t ++ [41]) -> ~ In 41 t ->
  extract_periodic_name s = Ret (1, Some (y ++ t)).
Proof. exact C68_bare_proof. Qed.
Print Assumptions C68_bare.

Example C68_bare_case : extract_periodic_name (zs "P/Linear-NEAT (2001 HT50)"%string) = Ret (1, Some (zs "2001 HT50"%string)) /\ year_of (zs "2001"%string) 2001.
Proof. split; [vm_compute; reflexivity|]. exists 2, 0, 0, 1. repeat split; try reflexivity; lia. Qed.

(** A text without any of these and without a parenthesis gives 0, and nothing is written. *)
Theorem C68_none :
forall s, no_number s -> no_letter s -> ~ In 40 s -> extract_periodic_name s = Ret (0, None).
Proof. exact C68_none_proof. Qed.
Print Assumptions C68_none.

Example C68_none_case : extract_periodic_name (zs "Hale-Bopp"%string) = Ret (0, None).
Proof. vm_compute. reflexivity. Qed.

(** Whatever the text, the result is 1 with a designation written or 0 with nothing written, and the designation is at most one byte longer than the text. *)
Theorem C68_length :
forall s r o, extract_periodic_name s = Ret (r, o) ->
  (r = 0 /\ o = None) \/ (r = 1 /\ exists t, o = Some t /\ (length t <= length s + 1)%nat).
Proof. exact C68_length_proof. Qed.
Print Assumptions C68_length.

Example C68_length_case : extract_periodic_name (zs "(145P)"%string) = Ret (1, Some (zs "145P"%string)).
Proof. vm_compute. reflexivity. Qed.

(** So a buffer of the size of the text is not enough: for a text that ends in the year, the designation written is longer than the text. *)
Theorem C68_longer_refuted :
exists s t, extract_periodic_name s = Ret (1, Some t) /\ (length s < length t)%nat.
Proof. exact C68_longer_refuted_proof. Qed.
Print Assumptions C68_longer_refuted.

(** Of the letters of designations only P and C are known: for every other letter (D for lost comets, A, I, X) the designation is not found, although the comments in the file name D; neither is that of a fragment of a numbered comet. *)
Theorem C68_letters_refuted :
forall c, 65 <= c <= 90 -> c <> 80 -> c <> 67 ->
  extract_periodic_name ([40; c] ++ zs "/1993 F2)"%string) = Ret (0, None) /\ extract_periodic_name (zs "(73P-B)"%string) = Ret (0, None).
Proof. exact C68_letters_refuted_proof. Qed.
Print Assumptions C68_letters_refuted.

Example C68_letters_refuted_case : extract_periodic_name (zs "Shoemaker-Levy 9 (D/1993 F2)"%string) = Ret (0, None) /\ extract_periodic_name (zs "Shoemaker-Levy 9 (P/1993 F2)"%string) = Ret (1, Some (zs "P/1993 F2"%string)).
Proof. split; vm_compute; reflexivity. Qed.

(** The code skips blanks between the slash and the year, but never gets there: with a blank the designation is not found. *)
Theorem C68_blank_refuted :
forall n, extract_periodic_name (zs "C/"%string ++ repeat 32 (S n) ++ zs "1999 X1"%string) = Ret (0, None).
Proof. exact C68_blank_refuted_proof. Qed.
Print Assumptions C68_blank_refuted.

Example C68_blank_refuted_case : extract_periodic_name (zs "C/1999 X1"%string) = Ret (1, Some (zs "C/1999 X1"%string)).
Proof. vm_compute. reflexivity. Qed.

(** A number of ten digits or more in parentheses that is no int is undefined behaviour (atoi). *)
Theorem C68_huge_refuted :
extract_periodic_name (zs "X (2147483648)"%string) = UB.
Proof. exact C68_huge_refuted_proof. Qed.
Print Assumptions C68_huge_refuted.
