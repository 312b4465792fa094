(** Property C52: lines that describe an observatory.

    How such lines are laid out and what they mean is said in [CodeSpec], latitude and height above an ellipse
    in [EllSpec]; the function is that of [CodeModel]. *)
From Coq Require Import Lia QArith Qround Qreals Lqa.
From Coq Require Import String.
From Verif Require Import CBase CStr TstrSpec TrigBase EllSpec CodeModel CodeSpec CodeThms.
Local Open Scope string_scope.
Local Open Scope list_scope.
Local Open Scope Z_scope.

(** A line of the list of observatories gives the code, the name, the longitude, the parallax constants and the number of decimals that are in it, and the latitude and altitude they mean; with both constants zero, the centre of the Earth. *)
Theorem C52_standard :
forall buff code lon rho_cos rho_sin k1 k2 name, observatory buff code lon rho_cos rho_sin k1 k2 name ->
  exists c, get_mpc_code_info buff = Ret (3, c) /\ c_code c = code /\ c_name c = Some name /\ c_planet c = 3 /\ c_format c = 1 /\
    c_lon c = radians lon /\ c_rho_cos c = Q2R rho_cos /\ c_rho_sin c = Q2R rho_sin /\ c_prec1 c = Z.of_nat k1 /\ c_prec2 c = Z.of_nat k2 /\
    (~ (rho_cos == 0)%Q -> place (major 3) (minor 3) (c_lat c) (c_alt c) (major 3 * Q2R rho_cos, major 3 * Q2R rho_sin)%R) /\
    ((rho_cos == 0)%Q /\ (rho_sin == 0)%Q -> c_lat c = 0%R /\ c_alt c = 0%R).
Proof. exact C52_standard_proof. Qed.
Print Assumptions C52_standard.

Example C52_standard_example : exists lon rc rs, observatory (zs "001   0.1542 0.62411 +0.77873 Crowborough") (zs "001") lon rc rs 4 5 (zs "Crowborough") /\
  (lon == 1542 # 10000)%Q /\ (rc == 62411 # 100000)%Q /\ (rs == 77873 # 100000)%Q.
Proof.
  eexists _, _, _. split; [apply (observatory_line 48 48 49 (zs "  0") 0 (zs "1542 ") 4 1542 48 (zs "62411 ") 5 62411 43 48 (zs "77873 ") 5 77873)|]; [unfold printable; lia|unfold printable; lia|unfold printable; lia| | |reflexivity| |cbn [In]; tauto|reflexivity| |].
  - exists 2%nat, [48]. split; [reflexivity|]. split; [reflexivity|]. split; [discriminate|]. split; [intros x [<-|[]]; reflexivity|reflexivity].
  - exists (zs "1542"), 1%nat. split; [reflexivity|]. split; [reflexivity|]. split; [reflexivity|]. split; [|reflexivity]. intros x Hx. cbn in Hx. repeat (destruct Hx as [<-|Hx]; [reflexivity|]). destruct Hx.
  - exists (zs "62411"), 1%nat. split; [reflexivity|]. split; [reflexivity|]. split; [reflexivity|]. split; [|reflexivity]. intros x Hx. cbn in Hx. repeat (destruct Hx as [<-|Hx]; [reflexivity|]). destruct Hx.
  - exists (zs "77873"), 1%nat. split; [reflexivity|]. split; [reflexivity|]. split; [reflexivity|]. split; [|reflexivity]. intros x Hx. cbn in Hx. repeat (destruct Hx as [<-|Hx]; [reflexivity|]). destruct Hx.
  - split; [reflexivity|]. split; reflexivity.
Qed.

(** A line of rovers.txt, with coordinates in degrees or with degrees, minutes and seconds run together, on the Earth or on the planet given behind an at sign, gives the longitude from 0 to 360 degrees, the latitude and altitude in the line, the parallax constants of that place on that planet, and the name in column 48 -- if neither coordinate is zero. *)
Theorem C52_rover :
forall buff code q1 q2 alt rest n lon lat, rover buff code q1 q2 alt rest -> (30 <= List.length buff)%nat -> world rest n -> 0 <= n <= 14 ->
  coordinates q1 q2 lon lat -> ~ (lon == 0)%Q -> ~ (lat == 0)%Q ->
  exists c, get_mpc_code_info buff = Ret (n, c) /\ c_code c = code /\ c_planet c = n /\ c_format c = 2 /\
    east lon (c_lon c) /\ c_lat c = radians lat /\ c_alt c = Q2R alt /\
    place (major n) (minor n) (c_lat c) (c_alt c) (major n * c_rho_cos c, major n * c_rho_sin c)%R /\
    ((47 <= List.length buff)%nat -> c_name c = Some (skipn 47 buff)).
Proof. exact C52_rover_proof. Qed.
Print Assumptions C52_rover.

Example C52_rover_line_example : forall rest, (match rest with c :: _ => c = 32 | [] => True end) ->
  rover (zs "Mars! -70.25  18.5  1234.5" ++ rest) (zs "Mars") (- (7025 # 100))%Q (185 # 10) (12345 # 10) rest.
Proof.
  assert (K : forall a b, forallb isdigit (a ++ b) = true -> forall c, In c (a ++ b) -> isdigit c = true) by (intros a b H; now apply forallb_forall).
  intros rest HR. apply (rover_line 77 97 114 115 1 (zs "-70.25") _ 2 (zs "18.5") _ 2 (zs "1234.5") _ rest); try (unfold printable; lia); try (left; unfold printable; lia); try lia.
  - apply (signed_minus (zs "70.25") (7025 # 100)). right. exists (zs "70"), (zs "25"), 7025. split; [now apply K|]. split; [discriminate|]. repeat split; reflexivity.
  - apply signed_bare. right. exists (zs "18"), (zs "5"), 185. split; [now apply K|]. split; [discriminate|]. repeat split; reflexivity.
  - apply signed_bare. right. exists (zs "1234"), (zs "5"), 12345. split; [now apply K|]. split; [discriminate|]. repeat split; reflexivity.
  - exact HR.
Qed.
Example C52_rover_degrees_example : coordinates (- (7025 # 100))%Q (185 # 10) (- (7025 # 100))%Q (185 # 10).
Proof. apply coordinates_degrees. unfold small, Qle. cbn. lia. Qed.
Example C52_rover_example : exists c, get_mpc_code_info (zs "Mars! -70.25  18.5  1234.5" ++ zs "          @4         Endurance") = Ret (4, c) /\
  c_name c = Some (zs "Endurance").
Proof.
  destruct (C52_rover _ _ _ _ _ _ 4 (- (7025 # 100)) (185 # 10) (C52_rover_line_example (zs "          @4         Endurance") eq_refl)) as (c & E & _ & _ & _ & _ & _ & _ & _ & N);
    [cbn; lia| |lia|exact C52_rover_degrees_example|discriminate|discriminate|].
  - apply (world_number (zs "          ") [52] 4 (zs "         Endurance")); [cbn; intuition discriminate| |reflexivity]. split; [discriminate|]. split; [intros x [<-|[]]; reflexivity|reflexivity].
  - exists c. split; [exact E|]. apply N. cbn. lia.
Qed.
Example C52_rover_together_example : coordinates 1913331 (- (4507302 # 10)) ((191 + 33 / 60 + 31 / 3600))%Q (- (45 + 7 / 60 + (302 # 10) / 3600))%Q.
Proof.
  apply coordinates_together.
  - unfold small, Qle. cbn. lia.
  - exists false, 191, 33, 31, 0%Q. repeat split; try lia; try reflexivity; discriminate.
  - exists true, 45, 7, 30, (2 # 10). repeat split; try lia; try reflexivity; discriminate.
Qed.

(** A number above 9000 behind the at sign stands for a point of no planet: every coordinate is zero. *)
Theorem C52_dynamical :
forall buff code q1 q2 alt rest n lon lat, rover buff code q1 q2 alt rest -> (30 <= List.length buff)%nat -> world rest n -> 9000 < n <= IMAX ->
  coordinates q1 q2 lon lat -> exists c, get_mpc_code_info buff = Ret (n, c) /\ c_code c = code /\ c_planet c = n /\
    c_lon c = 0%R /\ c_lat c = 0%R /\ c_alt c = 0%R /\ c_rho_cos c = 0%R /\ c_rho_sin c = 0%R.
Proof. exact C52_dynamical_proof. Qed.
Print Assumptions C52_dynamical.

Example C52_dynamical_example : exists c, get_mpc_code_info (zs "Mars! -70.25  18.5  1234.5" ++ zs "     @9003") = Ret (9003, c) /\ c_rho_cos c = 0%R.
Proof.
  destruct (C52_dynamical _ _ _ _ _ _ 9003 (- (7025 # 100)) (185 # 10) (C52_rover_line_example (zs "     @9003") eq_refl)) as (c & E & _ & _ & _ & _ & _ & Z & _);
    [cbn; lia| |unfold IMAX; lia|exact C52_rover_degrees_example|exists c; split; assumption].
  apply (world_number (zs "     ") (zs "9003") 9003 []); [cbn; intuition discriminate| |exact I]. split; [discriminate|]. split; [now apply forallb_forall|reflexivity].
Qed.

(** A code and a name in column 31 with nothing between them is a spacecraft. *)
Theorem C52_satellite :
forall code name, (List.length code = 3 \/ List.length code = 4)%nat -> (forall c, In c code -> printable c) -> (match name with c :: _ => c <> 32 | [] => True end) ->
  exists c, get_mpc_code_info (code ++ blanks (30 - List.length code) ++ name) = Ret (-2, c) /\ c_code c = code /\ c_name c = Some name /\ c_format c = 3 /\
    c_lon c = 0%R /\ c_lat c = 0%R /\ c_alt c = 0%R /\ c_rho_cos c = 0%R /\ c_rho_sin c = 0%R.
Proof. exact C52_satellite_proof. Qed.
Print Assumptions C52_satellite.

Example C52_satellite_example : exists c, get_mpc_code_info (zs "250" ++ blanks 27 ++ zs "Hubble Space Telescope") = Ret (-2, c) /\ c_name c = Some (zs "Hubble Space Telescope").
Proof.
  destruct (C52_satellite (zs "250") (zs "Hubble Space Telescope")) as (c & E & _ & N & _); [now left|intros x Hx; vm_compute in Hx; unfold printable; destruct Hx as [<-|[<-|[<-|[]]]]; lia|discriminate|]. exists c. split; [exact E|exact N].
Qed.

(** Lines shorter than 30 bytes are refused: the value is -1, the name "Unkn", and the place the centre of the Earth. *)
Theorem C52_short :
forall buff, (3 <= List.length buff < 30)%nat -> exists c, get_mpc_code_info buff = Ret (-1, c) /\ c_name c = Some (zs "Unkn") /\ c_planet c = 3 /\
    c_lon c = 0%R /\ c_lat c = 0%R /\ c_alt c = 0%R /\ c_rho_cos c = 0%R /\ c_rho_sin c = 0%R.
Proof. exact C52_short_proof. Qed.
Print Assumptions C52_short.

Example C52_short_example : exists c, get_mpc_code_info (zs "500") = Ret (-1, c) /\ c_name c = Some (zs "Unkn").
Proof. destruct (C52_short (zs "500")) as (c & E & N & _); [cbn; lia|]. now exists c. Qed.

(** Except in the format of rovers.txt, no line of three or more bytes, whatever they are, makes the reader go wrong. *)
Theorem C52_total :
forall buff, (3 <= List.length buff)%nat -> nth 4 buff 0 <> 33 -> exists r, get_mpc_code_info buff = Ret r.
Proof. exact C52_total_proof. Qed.
Print Assumptions C52_total.

Example C52_total_example : exists r, get_mpc_code_info (zs "xyz 99x.99999xxx-.-.-.x.x+.-.x-.-9. name") = Ret r.
Proof. apply C52_total; [cbn; lia|discriminate]. Qed.

(** Finding (mpc_code.cpp:378-379): of a text of fewer than three bytes, bytes behind its terminator are read. *)
Theorem C52_tiny_refuted :
forall buff, (List.length buff < 3)%nat -> get_mpc_code_info buff = UB.
Proof. exact C52_tiny_refuted_proof. Qed.
Print Assumptions C52_tiny_refuted.

(** Finding (mpc_code.cpp:345): a place of rovers.txt on the equator or on the meridian of Greenwich gets no parallax constants: they are left zero, the centre of the planet. *)
Theorem C52_zero_refuted :
forall buff code q1 q2 alt rest n lon lat, rover buff code q1 q2 alt rest -> (30 <= List.length buff)%nat -> world rest n -> n <= 9000 ->
  coordinates q1 q2 lon lat -> ((lon == 0)%Q \/ (lat == 0)%Q) ->
  exists c, get_mpc_code_info buff = Ret (n, c) /\ c_planet c = n /\ east lon (c_lon c) /\ c_lat c = radians lat /\ c_alt c = Q2R alt /\ c_rho_cos c = 0%R /\ c_rho_sin c = 0%R.
Proof. exact C52_zero_refuted_proof. Qed.
Print Assumptions C52_zero_refuted.

Example C52_zero_refuted_example : exists rest, rover (zs "Gre ! 0.0 51.4769 46 Greenwich") (zs "Gre") (0 # 10) (514769 # 10000) 46 rest /\ world rest 3 /\ coordinates (0 # 10) (514769 # 10000) (0 # 10) (514769 # 10000).
Proof.
  assert (K : forall a, forallb isdigit a = true -> forall c, In c a -> isdigit c = true) by (intros a H; now apply forallb_forall).
  exists (zs " Greenwich"). split; [|split].
  - apply (rover_line 71 114 101 32 1 (zs "0.0") _ 1 (zs "51.4769") _ 1 (zs "46") _ (zs " Greenwich")); try (unfold printable; lia); try (now right); try lia.
    + apply signed_bare. right. exists (zs "0"), (zs "0"), 0. split; [now apply K|]. split; [discriminate|]. repeat split; reflexivity.
    + apply signed_bare. right. exists (zs "51"), (zs "4769"), 514769. split; [now apply K|]. split; [discriminate|]. repeat split; reflexivity.
    + apply signed_bare. left. exists 46. split; [|reflexivity]. split; [discriminate|]. split; [now apply K|reflexivity].
    + reflexivity.
  - apply world_earth. cbn. intuition discriminate.
  - apply coordinates_degrees. unfold small, Qle. cbn. lia.
Qed.

(** Finding (mpc_code.cpp:336): in a line of rovers.txt of 30 to 46 bytes, which is accepted, the name is a pointer beyond the end of the line. *)
Theorem C52_name_refuted :
forall buff code q1 q2 alt rest n lon lat, rover buff code q1 q2 alt rest -> (30 <= List.length buff < 47)%nat -> world rest n -> 0 <= n <= 14 ->
  coordinates q1 q2 lon lat -> exists c, get_mpc_code_info buff = Ret (n, c) /\ c_name c = None.
Proof. exact C52_name_refuted_proof. Qed.
Print Assumptions C52_name_refuted.

Example C52_name_refuted_example : exists c, get_mpc_code_info (zs "Mars! -70.25  18.5  1234.5" ++ zs "     @4") = Ret (4, c) /\ c_name c = None.
Proof.
  apply (C52_name_refuted _ _ _ _ _ _ 4 (- (7025 # 100)) (185 # 10) (C52_rover_line_example (zs "     @4") eq_refl)); [cbn; lia| |lia|exact C52_rover_degrees_example].
  apply (world_number (zs "     ") (zs "4") 4 []); [cbn; intuition discriminate| |exact I]. split; [discriminate|]. split; [now apply forallb_forall|reflexivity].
Qed.

(** Finding (mpc_code.cpp:97): a negative number behind the at sign is used as an index into the table of polar radii. *)
Theorem C52_negative_planet_refuted :
forall buff code q1 q2 alt t d n t' lon lat, rover buff code q1 q2 alt (t ++ 64 :: 45 :: d ++ t') -> (30 <= List.length buff)%nat -> ~ In 64 t ->
  digits_of d n -> (match t' with c :: _ => isdigit c = false | [] => True end) -> 1 <= n <= IMAX -> coordinates q1 q2 lon lat -> ~ (lon == 0)%Q -> ~ (lat == 0)%Q ->
  get_mpc_code_info buff = UB.
Proof. exact C52_negative_planet_refuted_proof. Qed.
Print Assumptions C52_negative_planet_refuted.

Example C52_negative_planet_refuted_example : get_mpc_code_info (zs "Mars! -70.25  18.5  1234.5" ++ zs "     " ++ 64 :: 45 :: zs "4" ++ []) = UB.
Proof.
  apply (C52_negative_planet_refuted _ _ _ _ _ (zs "     ") (zs "4") 4 [] (- (7025 # 100)) (185 # 10) (C52_rover_line_example (zs "     " ++ 64 :: 45 :: zs "4" ++ []) eq_refl)); [cbn; lia|cbn; intuition discriminate| |exact I|unfold IMAX; lia|exact C52_rover_degrees_example|discriminate|discriminate].
  split; [discriminate|]. split; [now apply forallb_forall|reflexivity].
Qed.

(** Finding: with a planet number from 15 to 9000 the parallax constants are computed with axes of length zero: zero divided by zero. *)
Theorem C52_no_such_planet_refuted :
forall buff code q1 q2 alt rest n lon lat, rover buff code q1 q2 alt rest -> (30 <= List.length buff)%nat -> world rest n -> 15 <= n <= 9000 ->
  coordinates q1 q2 lon lat -> ~ (lon == 0)%Q -> ~ (lat == 0)%Q -> get_mpc_code_info buff = Abort.
Proof. exact C52_no_such_planet_refuted_proof. Qed.
Print Assumptions C52_no_such_planet_refuted.

Example C52_no_such_planet_refuted_example : get_mpc_code_info (zs "Mars! -70.25  18.5  1234.5" ++ zs "     @15") = Abort.
Proof.
  apply (C52_no_such_planet_refuted _ _ _ _ _ _ 15 (- (7025 # 100)) (185 # 10) (C52_rover_line_example (zs "     @15") eq_refl)); [cbn; lia| |lia|exact C52_rover_degrees_example|discriminate|discriminate].
  apply (world_number (zs "     ") (zs "15") 15 []); [cbn; intuition discriminate| |exact I]. split; [discriminate|]. split; [now apply forallb_forall|reflexivity].
Qed.

(** Finding (mpc_code.cpp:327-340): any at sign in the line, also in the name, is taken for a planet number.  If a letter follows, the place is put on the Sun. *)
Theorem C52_at_sign_refuted :
forall buff code q1 q2 alt t x t' lon lat, rover buff code q1 q2 alt (t ++ 64 :: x :: t') -> (30 <= List.length buff)%nat -> ~ In 64 t ->
  isalpha x = true -> coordinates q1 q2 lon lat -> exists c, get_mpc_code_info buff = Ret (0, c) /\ c_planet c = 0.
Proof. exact C52_at_sign_refuted_proof. Qed.
Print Assumptions C52_at_sign_refuted.

Example C52_at_sign_refuted_example : exists c, get_mpc_code_info (zs "Mars! -70.25  18.5  1234.5" ++ zs "     Stars" ++ 64 :: 72 :: zs "ome") = Ret (0, c) /\ c_planet c = 0.
Proof.
  apply (C52_at_sign_refuted _ _ _ _ _ (zs "     Stars") 72 (zs "ome") (- (7025 # 100)) (185 # 10) (C52_rover_line_example (zs "     Stars" ++ 64 :: 72 :: zs "ome") eq_refl)); [cbn; lia|cbn; intuition discriminate|reflexivity|exact C52_rover_degrees_example].
Qed.
