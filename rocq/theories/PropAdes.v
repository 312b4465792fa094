(** Property C40 (reading ADES data).

    [plain], [outside], [not_tholen], [outputs], [total], [sane], [opens], [closes],
    [printable], [no_long_code], [codeless], [items_ok], [show(s)], [nest], [stack_is],
    [feed], [put_out], [value], [join], [fields], [named], [in_psv], [feed_fields],
    [name_line], [idle] and [reads] are defined in [AdesSpec].  [h] stands for the parts
    of the reader that fill in an observation; the theorems hold for any such. *)
From Coq Require Import Lia String.
From Verif Require Import CBase CStr AdesModel AdesSpec AdesXml AdesThms.
Local Open Scope string_scope.
Local Open Scope list_scope.
Local Open Scope Z_scope.

(** C40: a line that is not ADES data, read outside of ADES data, is returned unchanged, and
    the following call returns 0 and leaves the reader as it was. *)
Theorem C40_pass_through :
  forall (W : Type) (h : hooks W) fuel temp c line, outside c -> plain line -> not_tholen h line ->
  exists c', xlate_ades2mpc h fuel true temp c line line = Ret (1, line, c') /\
    (forall o s, xlate_ades2mpc h fuel true temp c' o s = Ret (0, o, c)) /\
    (forall o, (List.length line <= 220)%nat -> xlate_ades2mpc h fuel false temp c o line = Ret (1, line, c')) /\
    (forall o, (220 < List.length line)%nat -> xlate_ades2mpc h fuel false temp c o line = Abort).
Proof. exact C40_pass_through_proof. Qed.
Print Assumptions C40_pass_through.

Example C40_pass_through_case : exists c (line : list Z), @outside unit c /\ plain line /\ not_tholen idle line /\ line <> [].
Proof.
  exists (init_ades2mpc tt), (zs "     K24A01B  C2024 01 05.20833 10 00 00.00 +10 00 00.0"). split; [repeat split|]. split; [|split; [intros w; reflexivity|discriminate]].
  split; [apply not_occurs; vm_compute; reflexivity|]. split; [apply not_occurs; vm_compute; reflexivity|]. split; [apply not_header_eval; vm_compute; reflexivity|apply not_info_eval; vm_compute; reflexivity].
Qed.

(** C40: a file without ADES data is read line by line, unchanged. *)
Theorem C40_plain_file :
  forall (W : Type) (h : hooks W) fuel temp w buff lines,
  Forall (fun line => plain line /\ not_tholen h line /\ ~ In 10 line /\ ~ In 13 line) lines ->
  outputs h fuel temp (init_ades2mpc w) buff lines lines.
Proof. exact C40_plain_file_proof. Qed.
Print Assumptions C40_plain_file.

Example C40_plain_file_case : Forall (fun line => plain line /\ not_tholen idle line /\ ~ In 10 line /\ ~ In 13 line) [zs "COD 703"; []; zs "A|b|c|d"].
Proof.
  repeat (constructor; [split; [split; [apply not_occurs; vm_compute; reflexivity|split; [apply not_occurs; vm_compute; reflexivity|split; [apply not_header_eval; vm_compute; reflexivity|apply not_info_eval; vm_compute; reflexivity]]]|split; [intros w; reflexivity|split; vm_compute; intuition discriminate]]|]). constructor.
Qed.

(** C40: the reader never leaves its stack of tags and never goes on for ever, so long as a
    line does not close more tags than are open and fewer than twenty are open. *)
Theorem C40_stack_safe :
  forall (W : Type) (h : hooks W) fuel (in_place : bool) temp c o line,
  total h -> sane c -> no_long_code c line ->
  closes line = 0 \/ (psv_tags c = None /\ ~ psv_info line /\ closes line <= depth c) ->
  Z.max 1 (depth c) + opens line <= 19 ->
  match xlate_ades2mpc h fuel in_place temp c o line with
  | Ret (_, _, c') => sane c' /\ depth c' <= Z.max 1 (depth c) + opens line /\ (codeless c -> ~ occurs (zs "mpcCode") line -> codeless c')
  | UB => False
  | Abort => True
  | Fuel => ~ (printable line /\ (List.length line < fuel)%nat)
  end.
Proof. exact C40_stack_safe_proof. Qed.
Print Assumptions C40_stack_safe.

Example C40_stack_safe_case : exists (c : ctx unit) line, total idle /\ sane c /\ no_long_code c line /\
  (closes line = 0 \/ (psv_tags c = None /\ ~ psv_info line /\ closes line <= depth c)) /\ Z.max 1 (depth c) + opens line <= 19 /\ 0 < opens line /\ 0 < closes line.
Proof.
  exists (mk 2 (0 :: 62 :: repeat 0 18) false false 0 0 None tt), (zs "<optical><permID>1234</permID></optical>"). split; [repeat split; intros; eexists; reflexivity|].
  split; [split; [reflexivity|split; [cbn; lia|exact I]]|]. split; [right; split; [apply not_occurs; vm_compute; reflexivity|split; [vm_compute; intuition discriminate|exact I]]|].
  split; [right; split; [reflexivity|split; [apply not_info_eval; vm_compute; reflexivity|vm_compute; discriminate]]|]. vm_compute. repeat split; discriminate || reflexivity.
Qed.

(** C40: a line of well-formed XML data.  Tags are opened and closed in order; every text
    goes to the innermost open tag; what is open at the end of the line is what the items say. *)
Theorem C40_nested :
  forall (W : Type) (h : hooks W) fuel (in_place : bool) temp c o l stack stack',
  ready c -> stack_is c stack -> line_ok h l -> nest 19 l stack = Some stack' -> (List.length l < fuel)%nat ->
  stack <> [] \/ (occurs (zs "<ades version") (shows l) /\ ~ occurs (zs "<optical>") (shows l)) ->
  match (do x <- feed h l stack (rest c) (if in_place then [] else o) 0 false;
         do '(r, out, w, more) <- put_out h x;
         if in_place && (221 <=? List.length out)%nat then Abort else Ret (r, out, w, more)) with
  | Ret (r, out, w, more) => exists c', xlate_ades2mpc h fuel in_place temp c o (shows l) = Ret (r, out, c') /\
      stack_is c' stack' /\ rest c' = w /\ getting_lines c' = more /\ kept c c'
  | UB => xlate_ades2mpc h fuel in_place temp c o (shows l) = UB
  | Abort => xlate_ades2mpc h fuel in_place temp c o (shows l) = Abort
  | Fuel => xlate_ades2mpc h fuel in_place temp c o (shows l) = Fuel
  end.
Proof. exact C40_nested_proof. Qed.
Print Assumptions C40_nested.

Definition C40_items : list item :=
  [Open "optical"; Blank (zs " "); Open "permID"; Text (zs "1234"); Close "permID"; Close "optical"; Open "obsContext"].
Example C40_nested_case : exists c : ctx unit, ready c /\ stack_is c ["obsData"; "ades"] /\ line_ok idle C40_items /\
  nest 19 C40_items ["obsData"; "ades"] = Some ["obsContext"; "obsData"; "ades"].
Proof.
  exists (mk 2 (0 :: num "obsData" :: repeat 0 18) false false 0 0 None tt). split; [repeat split|]. split; [|split; [|reflexivity]].
  - split; [reflexivity|]. split; [reflexivity|]. split; [reflexivity|]. repeat (apply Forall_cons; [apply in_names; vm_compute; reflexivity|]). apply Forall_nil.
  - split; [|split; [apply not_header_eval; vm_compute; reflexivity|split; [apply not_info_eval; vm_compute; reflexivity|intros w; reflexivity]]].
    cbn [items_ok C40_items]. repeat split; try (apply in_names; vm_compute; reflexivity); try (vm_compute; intuition discriminate); repeat constructor.
Qed.

(** C40: an XML document read line by line.  The tags open in the reader are those of the
    document; at the end of a document whose tags match, free_ades2mpc_context( ) returns 0. *)
Theorem C40_document :
  forall (W : Type) (h : hooks W) fuel temp w (ls : list (list item)) c',
  Forall (fun l => line_ok h l /\ (List.length l < fuel)%nat) ls ->
  calls h fuel temp (init_ades2mpc w) (map shows ls) c' ->
  match ls with [] => True | l :: _ => occurs (zs "<ades version") (shows l) /\ ~ occurs (zs "<optical>") (shows l) end ->
  (forall k, (0 < k < List.length ls)%nat -> nest 19 (List.concat (firstn k ls)) [] <> Some []) ->
  forall stack, nest 19 (List.concat ls) [] = Some stack ->
  stack_is c' stack /\ free_ades2mpc_context c' = Z.of_nat (List.length stack).
Proof. exact C40_document_proof. Qed.
Print Assumptions C40_document.

Example C40_document_case :
  let ls := [[Ades (zs "='2022'")]; [Open "obsBlock"; Open "obsData"]; [Open "mag"; Text (zs "20.1"); Close "mag"]; [Blank (zs "  "); Close "obsData"; Close "obsBlock"]; [Close "ades"]] in
  Forall (fun l => line_ok idle l /\ (List.length l < 9)%nat) ls /\ (exists c', calls idle 9 [] (init_ades2mpc tt) (map shows ls) c') /\
  nest 19 (List.concat ls) [] = Some [] /\ (forall k, (0 < k < List.length ls)%nat -> nest 19 (List.concat (firstn k ls)) [] <> Some []).
Proof.
  split; [|split; [|split; [reflexivity|]]].
  - repeat (constructor; [split; [split; [cbn [items_ok]; repeat split; try (apply in_names; vm_compute; reflexivity); try (vm_compute; intuition discriminate); repeat constructor
      |split; [apply not_header_eval; vm_compute; reflexivity|split; [apply not_info_eval; vm_compute; reflexivity|intros w; reflexivity]]]|cbn; lia]|]). constructor.
  - eexists. repeat (eapply calls_line; [repeat split|vm_compute; reflexivity|]). apply calls_end.
  - intros [|[|[|[|[|k]]]]] Hk; cbn in Hk; try lia; vm_compute; discriminate.
Qed.

(** C40: a PSV header of at least four known column names is recognised, whatever came before,
    and nothing is put out for it. *)
Theorem C40_psv_header :
  forall (W : Type) (h : hooks W) fuel (in_place : bool) temp c o fs ns,
  getting_lines c = false -> passed_through c = false -> Forall2 named fs ns -> (4 <= List.length fs)%nat ->
  exists c', xlate_ades2mpc h fuel in_place temp c o (join fs) = Ret (0, o, c') /\ in_psv c' ns /\ tags c' = tags c /\ rest c' = rest c.
Proof. exact C40_psv_header_proof. Qed.
Print Assumptions C40_psv_header.

Example C40_psv_header_case : Forall2 named [zs "permID "; zs " obsTime"; zs "ra"; zs "dec"; zs "stn"] ["permID"; "obsTime"; "ra"; "dec"; "stn"].
Proof.
  apply Forall2_cons; [split; [apply in_names; vm_compute; reflexivity|split; [discriminate|split; [vm_compute; split; discriminate|exists [], [32]; repeat split; repeat constructor]]]|].
  apply Forall2_cons; [split; [apply in_names; vm_compute; reflexivity|split; [discriminate|split; [vm_compute; split; discriminate|exists [32], []; repeat split; repeat constructor]]]|].
  apply Forall2_cons; [split; [apply in_names; vm_compute; reflexivity|split; [discriminate|split; [vm_compute; split; discriminate|exists [], []; repeat split; repeat constructor]]]|].
  apply Forall2_cons; [split; [apply in_names; vm_compute; reflexivity|split; [discriminate|split; [vm_compute; split; discriminate|exists [], []; repeat split; repeat constructor]]]|].
  apply Forall2_cons; [split; [apply in_names; vm_compute; reflexivity|split; [discriminate|split; [vm_compute; split; discriminate|exists [], []; repeat split; repeat constructor]]]|].
  apply Forall2_nil.
Qed.

(** C40: every field of a PSV data line goes, without the blanks around it, to the tag of its
    column; then the lines of that observation are put out. *)
Theorem C40_psv_data :
  forall (W : Type) (h : hooks W) fuel temp c fs ns,
  in_psv c ns -> ns <> [] -> List.length fs = List.length ns -> Forall field_ok fs -> ~ psv_header (join fs) ->
  xlate_ades2mpc h fuel true temp c (join fs) (join fs) =
  do w <- feed_fields h ns fs (h_setup h (rest c));
  do '(more, o, w) <- h_line h w (join fs);
  Ret (if more : bool then 1 else 0, o, set_getting (set_rest c w) more).
Proof. exact C40_psv_data_proof. Qed.
Print Assumptions C40_psv_data.

Example C40_psv_data_case : exists c : ctx unit, in_psv c ["permID"; "obsTime"; "ra"; "dec"] /\
  Forall field_ok [zs "1234 "; zs "2024-01-05T12:00:00Z"; zs " 1.5"; []] /\ ~ psv_header (join [zs "1234 "; zs "2024-01-05T12:00:00Z"; zs " 1.5"; []]).
Proof.
  exists (mk 1 (repeat 0 20) false false 0 4 (Some (map num ["permID"; "obsTime"; "ra"; "dec"])) tt). split; [|split].
  - do 5 (split; [reflexivity|]). repeat (apply Forall_cons; [split; [apply in_names; vm_compute; reflexivity|discriminate]|]). apply Forall_nil.
  - repeat (apply Forall_cons; [apply field_eval; vm_compute; reflexivity|]). apply Forall_nil.
  - apply not_header_eval. vm_compute. reflexivity.
Qed.

(** C40: a plain line with another number of fields ends the PSV section and is returned
    unchanged. *)
Theorem C40_psv_end :
  forall (W : Type) (h : hooks W) fuel temp c line ns,
  in_psv c ns -> List.length (fields line) <> List.length ns -> plain line -> not_tholen h line ->
  exists c', xlate_ades2mpc h fuel true temp c line line = Ret (1, line, c') /\
    (forall o s, exists c'', xlate_ades2mpc h fuel true temp c' o s = Ret (0, o, c'') /\ outside c'' /\ rest c'' = rest c).
Proof. exact C40_psv_end_proof. Qed.
Print Assumptions C40_psv_end.

Example C40_psv_end_case : List.length (fields (zs "----- end -----")) <> List.length ["permID"; "obsTime"; "ra"; "dec"] /\ plain (zs "----- end -----").
Proof.
  split; [discriminate|]. split; [apply not_occurs; vm_compute; reflexivity|]. split; [apply not_occurs; vm_compute; reflexivity|]. split; [apply not_header_eval; vm_compute; reflexivity|apply not_info_eval; vm_compute; reflexivity].
Qed.

(** C40: lines "# observers" and "! name J. Doe" of a PSV header give the line "OBS J. Doe", and
    likewise for the other groups. *)
Theorem C40_psv_names :
  forall (W : Type) (h : hooks W) fuel temp c p n text,
  let line1 := zs "# " ++ zs p in let line2 := zs "! " ++ zs n ++ zs " " ++ text in
  outside c -> List.length (tags c) = MAX_DEPTH -> In p tag_names -> n = "name" \/ n = "line" \/ n = "institution" ->
  Forall (fun x => 32 <= x) text -> text <> [] -> hd 0 text <> 32 -> (List.length (name_line p text) <= 220)%nat ->
  not_tholen h line1 -> not_tholen h line2 -> ~ occurs (zs "<optical>") line2 ->
  exists c1, xlate_ades2mpc h fuel true temp c line1 line1 = Ret (0, line1, c1) /\
  exists c2, xlate_ades2mpc h fuel true temp c1 line2 line2 = Ret (1, name_line p text, c2) /\
  (forall o s, exists c3, xlate_ades2mpc h fuel true temp c2 o s = Ret (0, o, c3) /\ outside c3 /\ rest c3 = rest c /\
     exists c4, xlate_ades2mpc h fuel true temp c3 line2 line2 = Ret (1, name_line p text, c4)).
Proof. exact C40_psv_names_proof. Qed.
Print Assumptions C40_psv_names.

Example C40_psv_names_case : @outside unit (init_ades2mpc tt) /\ In "observers" tag_names /\ name_line "observers" (zs "J. Doe") = zs "OBS J. Doe" ++ [10] /\
  ~ occurs (zs "<optical>") (zs "! name J. Doe").
Proof. split; [repeat split|]. split; [apply in_names; vm_compute; reflexivity|]. split; [reflexivity|apply not_occurs; vm_compute; reflexivity]. Qed.

(** C40, a claim that fails: the stack of tags is never left.  After a closing tag too many the
    depth is -1, and the next opening tag writes before the stack. *)
Theorem C40_extra_close_refuted :
  let line1 := zs "<ades version='1'></ades></ades>" in let line2 := zs "<obsData>" in
  exists c, xlate_ades2mpc idle 50 true [] (init_ades2mpc tt) line1 line1 = Ret (-2, [], c) /\ depth c = -1 /\
    xlate_ades2mpc idle 50 true [] c line2 line2 = UB.
Proof. exact C40_extra_close_refuted_proof. Qed.
Print Assumptions C40_extra_close_refuted.

(** C40, a claim that fails: a closing tag without an opening tag is reported.  </optical> replaces
    the error with the return value 1. *)
Theorem C40_silent_close_refuted :
  let line1 := zs "<optical>" in let line2 := zs "</optical></optical></optical>" in
  exists c1 c2 o, xlate_ades2mpc idle 50 true [] (init_ades2mpc tt) line1 line1 = Ret (0, [], c1) /\
    xlate_ades2mpc idle 50 true [] c1 line2 line2 = Ret (1, o, c2) /\ depth c2 = -1.
Proof. exact C40_silent_close_refuted_proof. Qed.
Print Assumptions C40_silent_close_refuted.

(** C40, a claim that fails: the stack of tags is never left.  Twenty open tags are reported as an
    error, but the next opening tag writes behind the stack. *)
Theorem C40_deep_refuted :
  let line1 := zs "<ades version='1'>" ++ List.concat (repeat (zs "<observers>") 19) in let line2 := zs "<name>" in
  exists c, xlate_ades2mpc idle 50 true [] (init_ades2mpc tt) line1 line1 = Ret (-3, [], c) /\ depth c = 20 /\
    xlate_ades2mpc idle 50 true [] c line2 line2 = UB.
Proof. exact C40_deep_refuted_proof. Qed.
Print Assumptions C40_deep_refuted.

(** C40, a claim that fails: lines outside of ADES data are passed through.  A line of four or more
    fields that start with lowercase letters ends the program, unless all are column names. *)
Theorem C40_unknown_column_refuted :
  forall (W : Type) (h : hooks W) fuel (in_place : bool) temp w o,
  xlate_ades2mpc h fuel in_place temp (init_ades2mpc w) o (zs "alpha|beta|gamma|delta") = Abort.
Proof. exact C40_unknown_column_refuted_proof. Qed.
Print Assumptions C40_unknown_column_refuted.

(** C40, a claim that fails: every line is read in finitely many steps.  Inside ADES data a control
    character on its own is never got past. *)
Theorem C40_control_character_refuted :
  exists c, xlate_ades2mpc idle 50 true [] (init_ades2mpc tt) (zs "<ades version='1'>") (zs "<ades version='1'>") = Ret (0, [], c) /\
    forall fuel, xlate_ades2mpc idle fuel true [] c [1] [1] = Fuel.
Proof. exact C40_control_character_refuted_proof. Qed.
Print Assumptions C40_control_character_refuted.

(** C40, a claim that fails: every line is put out once.  A name whose closing tag is on the next
    line is read again and again, longer every time, until the program ends; the rest of the
    file is never read. *)
Theorem C40_name_without_end_refuted :
  let lines := [zs "<name>J. Doe"; zs "</name>"] in
  exists c, xlate_ades2mpc idle 50 true [] (init_ades2mpc tt) (zs "<ades version='1'><observers>") (zs "<ades version='1'><observers>") = Ret (0, [], c) /\
    (forall k, (k < 53)%nat -> exists c', reads idle 50 (S k) c [] lines = Ret (List.concat (repeat (zs "OBS ") (S k)) ++ zs "J. Doe", c', [zs "</name>"])) /\
    reads idle 50 54 c [] lines = Abort.
Proof. exact C40_name_without_end_refuted_proof. Qed.
Print Assumptions C40_name_without_end_refuted.

(** C40, a claim that fails: the text of a tag may have any length.  A code of 40 bytes or more is
    taken from a buffer that was never written. *)
Theorem C40_long_code_refuted :
  let line := zs "<mpcCode>" ++ repeat 65 40 ++ zs "</mpcCode>" in
  exists c, xlate_ades2mpc idle 50 true [] (init_ades2mpc tt) (zs "<ades version='1'>") (zs "<ades version='1'>") = Ret (0, [], c) /\
    xlate_ades2mpc idle 50 true [] c line line = UB.
Proof. exact C40_long_code_refuted_proof. Qed.
Print Assumptions C40_long_code_refuted.

(** C40, a claim that fails: how a document is divided into lines does not matter.  Of two values on
    one line that should give two lines, only the last is put out. *)
Theorem C40_two_values_refuted :
  let line := zs "<observatory><mpcCode>703</mpcCode><name>Catalina</name></observatory>" in
  exists c c1 c2, xlate_ades2mpc idle 50 true [] (init_ades2mpc tt) (zs "<ades version='1'>") (zs "<ades version='1'>") = Ret (0, [], c) /\
    fgets_with_ades_xlation idle 50 [] c [] [line] = Ret (1, zs "COM Observatory name Catalina", c1, []) /\
    fgets_with_ades_xlation idle 50 [] c1 (zs "COM Observatory name Catalina") [] = Ret (0, [], c2, []).
Proof. exact C40_two_values_refuted_proof. Qed.
Print Assumptions C40_two_values_refuted.
