(** Property C64 (the region a place is in; mpc_code.cpp: extract_region_data_for_lat_lon).

    [file_of] says what a file of rectangles is, [inside] what it is for a place to be in one, [answer] what is to be
    returned.  See [GeoSpec].  [tbuff] is whatever was in an array of the function's before. *)
From Coq Require Import QArith Qabs String Lia.
From Verif Require Import CBase CStr TstrSpec GeoModel GeoSpec GeoThms.
Import ListNotations.
Local Open Scope string_scope.
Local Open Scope list_scope.
Local Open Scope Z_scope.

(** The function returns 0 and the name of the first rectangle of the file which the place is in, whichever corners are given and however many whole turns are between the longitudes, and -2 and an empty text if it is in none; comments do not matter, nor what the array held before. *)
Theorem C64_region :
forall rs file lat lon, file_of rs file -> (forall r, In r rs -> ~ half r) ->
  exists v text, answer rs lat lon v text /\
  exists N, forall n fuel tbuff, (N <= n)%nat -> (N <= fuel)%nat -> List.length tbuff = 90%nat -> extract_region_data_for_lat_lon n fuel tbuff file lat lon = Ret (v, text).
Proof. exact C64_region_proof. Qed.
Print Assumptions C64_region.

Example C64_region_case : line_of texas_rectangle texas /\ ~ half texas_rectangle /\ inside 30 260 texas_rectangle /\ extract_region_data_for_lat_lon 5 5 (repeat 7 90) ((35 :: zs " regions" ++ [10]) ++ texas) 30 260 = Ret (0, zs "Texas").
Proof.
  split; [exact texas_ok|]. split; [exact texas_not_half|]. split; [|vm_compute; reflexivity].
  split; [left; split; reflexivity|]. exists (2535 # 10), (2665 # 10). split; [exists 1; reflexivity|]. split; [exists 1; reflexivity|]. split; [reflexivity|]. left. split; reflexivity.
Qed.

(** Whole turns added to the longitude of the place change nothing. *)
Theorem C64_whole_turns :
forall rs file lat lon lon', file_of rs file -> (forall r, In r rs -> ~ half r) -> same_lon lon' lon ->
  exists N result, forall n fuel tbuff, (N <= n)%nat -> (N <= fuel)%nat -> List.length tbuff = 90%nat ->
    extract_region_data_for_lat_lon n fuel tbuff file lat lon = Ret result /\ extract_region_data_for_lat_lon n fuel tbuff file lat lon' = Ret result.
Proof. exact C64_whole_turns_proof. Qed.
Print Assumptions C64_whole_turns.

Example C64_whole_turns_case : extract_region_data_for_lat_lon 5 5 (repeat 7 90) texas 30 (-100) = Ret (0, zs "Texas") /\ extract_region_data_for_lat_lon 5 9 (repeat 7 90) texas 30 (-100 + 360 * 4) = Ret (0, zs "Texas").
Proof. split; vm_compute; reflexivity. Qed.

(** Finding: no place between the two longitudes of a rectangle is found in it if it is more than 180 degrees wide. *)
Theorem C64_wide_refuted :
forall r file lat lon, line_of r file -> (180 < lon2 r - lon1 r)%Q -> (lon2 r - lon1 r < 360)%Q -> (lon1 r < lon)%Q -> (lon < lon2 r)%Q -> between lat (lat1 r) (lat2 r) ->
  exists N, forall n fuel tbuff, (N <= n)%nat -> (N <= fuel)%nat -> List.length tbuff = 90%nat -> extract_region_data_for_lat_lon n fuel tbuff file lat lon = Ret (-2, []).
Proof. exact C64_wide_refuted_proof. Qed.
Print Assumptions C64_wide_refuted.

Example C64_wide_refuted_case : extract_region_data_for_lat_lon 5 5 (repeat 7 90) (zs "-100.     -60.      100.      60.       Middle" ++ [10]) 10 20 = Ret (-2, []) /\
  extract_region_data_for_lat_lon 5 5 (repeat 7 90) (zs "-100.     -60.      100.      60.       Middle" ++ [10]) 10 170 = Ret (0, zs "Middle").
Proof. split; vm_compute; reflexivity. Qed.

(** Finding: a place on the edge between two rectangles is found in neither. *)
Theorem C64_edge_refuted :
forall r s l1 l2 lat lon, line_of r l1 -> line_of s l2 -> ~ half r -> ~ half s -> (lat1 s == lat2 r)%Q -> (lat == lat2 r)%Q ->
  exists N, forall n fuel tbuff, (N <= n)%nat -> (N <= fuel)%nat -> List.length tbuff = 90%nat -> extract_region_data_for_lat_lon n fuel tbuff (l1 ++ l2) lat lon = Ret (-2, []).
Proof. exact C64_edge_refuted_proof. Qed.
Print Assumptions C64_edge_refuted.

Example C64_edge_refuted_case : extract_region_data_for_lat_lon 5 5 (repeat 7 90) (zs "0.        0.        10.       10.       A" ++ [10] ++ zs "0.        10.       10.       20.       B" ++ [10]) 10 5 = Ret (-2, []).
Proof. vm_compute; reflexivity. Qed.

(** Finding: with a rectangle 180 degrees wide, a place is found, and not found any more with a whole turn added to its longitude. *)
Theorem C64_half_refuted :
exists r file, line_of r file /\ half r /\ forall tbuff, List.length tbuff = 90%nat ->
  extract_region_data_for_lat_lon 5 5 tbuff file 10 90 = Ret (0, name r) /\ extract_region_data_for_lat_lon 5 5 tbuff file 10 (90 + 360) = Ret (-2, []).
Proof. exact C64_half_refuted_proof. Qed.
Print Assumptions C64_half_refuted.

(** Finding: an empty line is not passed over.  With one behind the line of a rectangle, a place which is in no rectangle is said to be in that one: what is left of its line in the array is read again. *)
Theorem C64_blank_line_refuted :
exists r line, line_of r line /\ ~ half r /\ ~ inside 30 5 r /\ forall tbuff, List.length tbuff = 90%nat ->
  extract_region_data_for_lat_lon 5 5 tbuff line 30 5 = Ret (-2, []) /\ extract_region_data_for_lat_lon 5 5 tbuff (line ++ [10]) 30 5 = Ret (0, name r).
Proof. exact C64_blank_line_refuted_proof. Qed.
Print Assumptions C64_blank_line_refuted.
