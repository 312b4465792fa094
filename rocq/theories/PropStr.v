(** Properties C27 and C28: the bounded string functions of snprintf.cpp.

    A buffer is a list of bytes, [None] where nothing was written yet, and a
    destination is a part [dst] of memory [pre ++ dst ++ post]; a write outside
    memory or a read of an unwritten byte would give [UB] (see [CStr]).  The
    size argument is the length of [dst].  A string without its terminator is a
    list of non-zero bytes. *)
From Coq Require Import Lia String.
From Verif Require Import CBase CStr StrModel StrThms.
Open Scope list_scope.

(** C27.  strlcpy( ) returns the length of the source; the destination holds the
    longest prefix of the source that leaves room for the terminator, then the
    terminator; its later bytes and all other memory are unchanged. *)
Theorem C27_strlcpy :
  forall (pre dst post : buf) (src : list Z), no_nul src -> (0 < length dst)%nat ->
  exists p q, src = p ++ q /\ (length p < length dst)%nat /\
  (q = [] \/ length p = (length dst - 1)%nat) /\
  strlcpy (pre ++ dst ++ post) (Z.of_nat (length pre)) src (length dst)
  = Ret (Z.of_nat (length src),
         pre ++ (map Some p ++ [Some 0] ++ skipn (length p + 1) dst) ++ post).
Proof. exact C27_strlcpy_proof. Qed.
Print Assumptions C27_strlcpy.

Example C27_strlcpy_case :
  strlcpy [Some 1; None; None; None; Some 2] 1 (zs "Ceres") 3
  = Ret (5, [Some 1; Some 67; Some 101; Some 0; Some 2]).
Proof. vm_compute. reflexivity. Qed.

(** C27.  With a size of zero nothing is written. *)
Theorem C27_strlcpy_size_zero :
  forall (dst : buf) (i : nat) (src : list Z), no_nul src -> (i <= length dst)%nat ->
  strlcpy dst (Z.of_nat i) src 0 = Ret (Z.of_nat (length src), dst).
Proof. exact C27_strlcpy_size_zero_proof. Qed.
Print Assumptions C27_strlcpy_size_zero.

(** C27.  If the destination holds the string d (and its terminator) within its
    size, strlcat( ) appends the longest prefix of the source that fits, and
    returns the length of d plus the length of the source. *)
Theorem C27_strlcat :
  forall (pre rest post : buf) (d src : list Z), no_nul d -> no_nul src ->
  let dst := map Some d ++ [Some 0] ++ rest in
  exists p q, src = p ++ q /\ (length d + length p < length dst)%nat /\
  (q = [] \/ (length d + length p = length dst - 1)%nat) /\
  strlcat (pre ++ dst ++ post) (Z.of_nat (length pre)) src (length dst)
  = Ret (Z.of_nat (length d + length src),
         pre ++ (map Some d ++ map Some p ++ [Some 0] ++ skipn (length d + length p + 1) dst) ++ post).
Proof. exact C27_strlcat_proof. Qed.
Print Assumptions C27_strlcat.

Example C27_strlcat_case :
  strlcat [Some 50; Some 0; None; None; None; Some 9] 0 (zs "Ceres") 4
  = Ret (6, [Some 50; Some 67; Some 101; Some 0; None; Some 9]).
Proof. vm_compute. reflexivity. Qed.

(** C27.  If none of the destination's bytes is a terminator, strlcat( ) changes
    nothing and returns the size plus the length of the source. *)
Theorem C27_strlcat_unterminated :
  forall (pre post : buf) (d src : list Z), no_nul d ->
  let dst := map Some d in
  strlcat (pre ++ dst ++ post) (Z.of_nat (length pre)) src (length dst)
  = Ret (Z.of_nat (length dst + length src), pre ++ dst ++ post).
Proof. exact C27_strlcat_unterminated_proof. Qed.
Print Assumptions C27_strlcat_unterminated.

Example C27_strlcat_unterminated_case :
  strlcat [Some 50; Some 51; None] 0 (zs "Ceres") 2 = Ret (7, [Some 50; Some 51; None]).
Proof. vm_compute. reflexivity. Qed.

(** C28.  strlcpy_err( ) returns, having copied the whole source, if the source and
    its terminator fit; otherwise the program ends. *)
Theorem C28_strlcpy_err :
  forall (pre dst post : buf) (src : list Z), no_nul src ->
  strlcpy_err (pre ++ dst ++ post) (Z.of_nat (length pre)) src (length dst)
  = if (length src <? length dst)%nat
    then Ret (Z.of_nat (length src),
              pre ++ (map Some src ++ [Some 0] ++ skipn (length src + 1) dst) ++ post)
    else Abort.
Proof. exact C28_strlcpy_err_proof. Qed.
Print Assumptions C28_strlcpy_err.

Example C28_strlcpy_err_case :
  strlcpy_err [None; None; None] 0 (zs "Io") 3 = Ret (2, [Some 73; Some 111; Some 0]) /\
  strlcpy_err [None; None; None] 0 (zs "Pan") 3 = Abort.
Proof. vm_compute. split; reflexivity. Qed.

(** C28.  The same for strlcat_err( ), appending to the string d. *)
Theorem C28_strlcat_err :
  forall (pre rest post : buf) (d src : list Z), no_nul d -> no_nul src ->
  let dst := map Some d ++ [Some 0] ++ rest in
  strlcat_err (pre ++ dst ++ post) (Z.of_nat (length pre)) src (length dst)
  = if (length d + length src <? length dst)%nat
    then Ret (Z.of_nat (length d + length src),
              pre ++ (map Some (d ++ src) ++ [Some 0] ++ skipn (length d + length src + 1) dst) ++ post)
    else Abort.
Proof. exact C28_strlcat_err_proof. Qed.
Print Assumptions C28_strlcat_err.

Example C28_strlcat_err_case :
  strlcat_err [Some 50; Some 0; None; None] 0 (zs "Io") 4 = Ret (3, [Some 50; Some 73; Some 111; Some 0]) /\
  strlcat_err [Some 50; Some 0; None; None] 0 (zs "Pan") 4 = Abort.
Proof. vm_compute. split; reflexivity. Qed.

(** C28.  A destination without terminator ends the program too. *)
Theorem C28_strlcat_err_unterminated :
  forall (pre post : buf) (d src : list Z), no_nul d ->
  strlcat_err (pre ++ map Some d ++ post) (Z.of_nat (length pre)) src (length d) = Abort.
Proof. exact C28_strlcat_err_unterminated_proof. Qed.
Print Assumptions C28_strlcat_err_unterminated.

(** C28.  snprintf_append( ), where out is the text that the format produces: as
    strlcat_err( ). *)
Theorem C28_snprintf_append :
  forall (pre rest post : buf) (d out : list Z), no_nul d ->
  let dst := map Some d ++ [Some 0] ++ rest in
  snprintf_append (pre ++ dst ++ post) (Z.of_nat (length pre)) (length dst) out
  = if (length d + length out <? length dst)%nat
    then Ret (Z.of_nat (length d + length out),
              pre ++ (map Some (d ++ out) ++ [Some 0] ++ skipn (length d + length out + 1) dst) ++ post)
    else Abort.
Proof. exact C28_snprintf_append_proof. Qed.
Print Assumptions C28_snprintf_append.

Example C28_snprintf_append_case :
  snprintf_append [Some 50; Some 0; None; None] 0 4 (dec 12) = Ret (3, [Some 50; Some 49; Some 50; Some 0]) /\
  snprintf_append [Some 50; Some 0; None; None] 0 4 (dec 123) = Abort.
Proof. vm_compute. split; reflexivity. Qed.

(** C28.  snprintf_append_trunc( ) always returns; the text is cut so that it fits
    with its terminator, and the return value is the length it would have had. *)
Theorem C28_snprintf_append_trunc :
  forall (pre rest post : buf) (d out : list Z), no_nul d ->
  let dst := map Some d ++ [Some 0] ++ rest in
  exists p q, out = p ++ q /\ (length d + length p < length dst)%nat /\
  (q = [] \/ (length d + length p = length dst - 1)%nat) /\
  snprintf_append_trunc (pre ++ dst ++ post) (Z.of_nat (length pre)) (length dst) out
  = Ret (Z.of_nat (length d + length out),
         pre ++ (map Some (d ++ p) ++ [Some 0] ++ skipn (length d + length p + 1) dst) ++ post).
Proof. exact C28_snprintf_append_trunc_proof. Qed.
Print Assumptions C28_snprintf_append_trunc.

Example C28_snprintf_append_trunc_case :
  snprintf_append_trunc [Some 50; Some 0; None; None] 0 4 (dec 123) = Ret (4, [Some 50; Some 49; Some 50; Some 0]).
Proof. vm_compute. reflexivity. Qed.

(** C28.  snprintf_err( ) returns if the formatted text and its terminator fit, and
    ends the program otherwise. *)
Theorem C28_snprintf_err :
  forall (pre dst post : buf) (out : list Z),
  snprintf_err (pre ++ dst ++ post) (Z.of_nat (length pre)) (length dst) out
  = if (length out <? length dst)%nat
    then Ret (Z.of_nat (length out),
              pre ++ (map Some out ++ [Some 0] ++ skipn (length out + 1) dst) ++ post)
    else Abort.
Proof. exact C28_snprintf_err_proof. Qed.
Print Assumptions C28_snprintf_err.
