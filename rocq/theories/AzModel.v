(** Model of alt_az.cpp and of green_sidereal_time( ) (miscell.cpp), over the reals. *)
From Verif Require Import TrigBase EllModel RotModel PrecModel.
From Verif Require OrbModel.
Open Scope list_scope.

(** miscell.cpp:506-520 [green_sidereal_time]. *)
Definition green_sidereal_time (jd_ut : R) : R :=
  let jd_ut := jd_ut - 2451545 in
  let t_cen := jd_ut / 36525 in
  let base_t := IZR (Int_part jd_ut) in
  let jd_ut := jd_ut - base_t in
  let rval := 28046061837 / 10 ^ 8 + 36098564736629 / 10 ^ 11 * jd_ut + 98564736629 / 10 ^ 11 * base_t
              + t_cen * t_cen * (387933 / 10 ^ 9 - t_cen / 38710000) in
  rval * PI / 180.

(** alt_az.cpp:29. *)
Definition J2000 : R := 2451545.

(** alt_az.cpp:31-45 [ra_dec_to_alt_az]; the result is ( *alt, *az). *)
Definition ra_dec_to_alt_az (hr_ang dec lat : R) : outcome (R * R) :=
  let cos_lat := cos lat in
  do alt <- asine (sin lat * sin dec + cos_lat * cos dec * cos hr_ang);
  if Rltb cos_lat (1 / 100000) then Ret (alt, hr_ang)
  else
    do temp <- c_div (sin dec - sin alt * sin lat) (cos alt * cos_lat);
    do a <- acose temp;
    let temp := PI - a in
    Ret (alt, if Rltb (sin hr_ang) 0 then temp else - temp).

(** alt_az.cpp:83-113 [alt_az_to_ra_dec]; the result is ( *hr_ang, *dec). *)
Definition alt_az_to_ra_dec (alt az lat : R) : outcome (R * R) :=
  let cos_lat := cos lat in
  let '(alt, az) := if Rltb (PI / 2) alt then (PI - alt, az + PI) else (alt, az) in
  let '(alt, az) := if Rltb alt (- PI / 2) then (- PI - alt, az - PI) else (alt, az) in
  let sin_dec := sin lat * sin alt + cos_lat * cos alt * cos az in
  do dec <- asine sin_dec;
  if Rltb cos_lat (1 / 100000) then Ret (az + PI, dec)
  else
    let temp := cos_lat * cos dec in
    do temp <- c_div (sin alt - sin lat * sin_dec) temp;
    do temp <- acose (- temp);
    Ret (if Rltb 0 (sin az) then PI - temp else PI + temp, dec).

(** alt_az.cpp:201-225 [precess_pt]; a DPT is the pair of its x and y.  [junk] is what the
    local array precess holds before, [fuel] is for the loops of precess_ra_dec( ), [s] the
    static variables of setup_precession( ). *)
Definition precess_pt (fuel : nat) (s : statics) (ipt : R * R) (from_time to_time : R) : outcome (R * R * statics) :=
  if Reqb from_time to_time then Ret (ipt, s)
  else
    let '(from_time, to_time, dir) := if Reqb from_time 2000 then (to_time, 2000, true) else (from_time, to_time, false) in
    do '(precess, s) <- setup_precession s junk from_time to_time;
    let temp_ipt := (- fst ipt, snd ipt) in
    do temp_opt <- precess_ra_dec fuel precess temp_ipt dir;
    Ret (- fst temp_opt, snd temp_opt, s).

(** alt_az.cpp:56-81 [full_ra_dec_to_alt_az].  [ra_dec] is None for a null pointer, and
    then [loc_epoch] is what *loc_epoch holds before.  nutation( ) (nutation.cpp) is not
    modelled: it is an argument here, giving *d_lon in arcseconds.  The result is *alt_az,
    *loc_epoch and *hr_ang. *)
Definition full_ra_dec_to_alt_az (nutation : R -> R) (fuel : nat) (s : statics) (ra_dec : option (R * R))
    (loc_epoch latlon : R * R) (jd_utc : R) : outcome (R * R * (R * R) * R * statics) :=
  let t_centuries := (jd_utc - J2000) / 36525 in
  do '(loc_at_epoch, s) <- (match ra_dec with
                            | Some p => precess_pt fuel s p 2000 (2000 + t_centuries * 100)
                            | None => Ret (loc_epoch, s)
                            end);
  let ha := - fst loc_at_epoch - (green_sidereal_time jd_utc + fst latlon) in
  let nutation_lon := nutation t_centuries in
  let ha := ha - cos_obliq_2000 * nutation_lon * (PI / 180) / 3600 in
  let ha := OrbModel.c_fmod ha (2 * PI) in
  let ha := if Rltb PI ha then ha - 2 * PI else ha in
  let ha := if Rltb ha (- PI) then ha + 2 * PI else ha in
  do '(alt, az) <- ra_dec_to_alt_az ha (snd loc_at_epoch) (snd latlon);
  Ret (az, alt, loc_at_epoch, ha, s).

(** alt_az.cpp:115-127 [full_alt_az_to_ra_dec]; the result is *ra_dec. *)
Definition full_alt_az_to_ra_dec (fuel : nat) (s : statics) (alt_az : R * R) (jd_utc : R) (latlon : R * R) : outcome (R * R * statics) :=
  do '(hr_ang, dec) <- alt_az_to_ra_dec (snd alt_az) (fst alt_az) (snd latlon);
  let ra := hr_ang + green_sidereal_time jd_utc + fst latlon in
  let tmp := (OrbModel.c_fmod (- ra) (2 * PI), dec) in
  precess_pt fuel s tmp (2000 + (jd_utc - J2000) / (36525 / 100)) 2000.

(** alt_az.cpp:131-139 [j2000_to_supergalactic_matrix] *)
Definition j2000_to_supergalactic_matrix : list R :=
  [37501548 / 10 ^ 8; 34135896 / 10 ^ 8; 86188018 / 10 ^ 8;
   - (89832046 / 10 ^ 8); - (9572714 / 10 ^ 8); 42878511 / 10 ^ 8;
   22887497 / 10 ^ 8; - (93504565 / 10 ^ 8); 27075058 / 10 ^ 8].

(** alt_az.cpp:141-151 [ra_dec_to_supergalactic]; the result is ( *glat, *glon) *)
Definition ra_dec_to_supergalactic (fuel : nat) (ra dec : R) : outcome (R * R) :=
  do opt <- precess_ra_dec fuel j2000_to_supergalactic_matrix (ra, dec) false;
  Ret (snd opt, fst opt).
(** alt_az.cpp:153-163 [supergalactic_to_ra_dec]; the result is ( *ra, *dec) *)
Definition supergalactic_to_ra_dec (fuel : nat) (glat glon : R) : outcome (R * R) :=
  do opt <- precess_ra_dec fuel j2000_to_supergalactic_matrix (glon, glat) true;
  Ret (fst opt, snd opt).

(** alt_az.cpp:165-175 [j2000_to_galactic_matrix] *)
Definition j2000_to_galactic_matrix : list R :=
  [- (548755604 / 10 ^ 10); - (8734370902 / 10 ^ 10); - (4838350155 / 10 ^ 10);
   4941094279 / 10 ^ 10; - (4448296300 / 10 ^ 10); 7469822445 / 10 ^ 10;
   - (8676661490 / 10 ^ 10); - (1980763734 / 10 ^ 10); 4559837762 / 10 ^ 10].

(** alt_az.cpp:177-187 [ra_dec_to_galactic]; the result is ( *glat, *glon) *)
Definition ra_dec_to_galactic (fuel : nat) (ra dec : R) : outcome (R * R) :=
  do opt <- precess_ra_dec fuel j2000_to_galactic_matrix (ra, dec) false;
  Ret (snd opt, fst opt).
(** alt_az.cpp:189-199 [galactic_to_ra_dec]; the result is ( *ra, *dec) *)
Definition galactic_to_ra_dec (fuel : nat) (glat glon : R) : outcome (R * R) :=
  do opt <- precess_ra_dec fuel j2000_to_galactic_matrix (glon, glat) true;
  Ret (fst opt, snd opt).
