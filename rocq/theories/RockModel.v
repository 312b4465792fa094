(** Positions of small moons (rocks.cpp: evaluate_rock).  Doubles are exact real numbers, and so are the
    sines, cosines, square roots and arc tangents. *)
From Coq Require Export QArith Qreals.
From Coq Require Export Reals List ZArith.
From Verif Require Export TrigBase.
Export ListNotations.
Local Open Scope R_scope.

(** struct rock, rocks.cpp 80-85.  Angles and rates of angles are in degrees here, and are multiplied by
    PI / 180 ([rad]) where they are used; the source multiplies them in the table. *)
Record rock := mkrock { jpl_id : Z; epoch_jd : Q; semi_a : Q; el_h : Q; el_k : Q; mean_lon0 : Q; el_p : Q; el_q : Q;
  apsis_rate : Q; mean_motion : Q; node_rate : Q; pole_ra : Q; pole_dec : Q }.
Definition rad (x : Q) : R := Q2R x * PI / 180.

(** The table, rocks.cpp 90-600, number by number. *)
Definition rocks : list rock := ([
  (* Phobos, rocks.cpp 91-103 *)
  mkrock 401 2433282.50 9.376164153345777e+03 (-5.689907327111091e-04) 1.508976478046249e-02 8.889912565234037e+01 (-4.374861644190954e-03) (-8.303312581096576e-03) 5.037011787882128e-06 1.306533283449532e-02 (-5.043841563630776e-06) 3.176707407767539e+02 5.289299367003886e+01;
  (* Deimos, rocks.cpp 105-117 *)
  mkrock 402 2433282.50 2.345766038183417e+04 (-2.390285567613731e-04) 6.518182753851608e-05 2.505824379527014e+02 6.477849519349295e-03 1.419810985499536e-02 2.076162603566793e-07 3.300484710930912e-03 (-2.091750616728367e-07) 3.166569791010836e+02 5.352937471037383e+01;
  (* Amalthea, rocks.cpp 119-131 *)
  mkrock 505 2450000.500000000 1.813655512465877e+05 3.524243705442326e-04 (-3.060388597797567e-03) 3.088979995508090e+02 (-8.524633361449484e-04) (-3.277584681172060e-03) 2.908651473226303e-05 8.363792987058621e-03 (-2.898772964219916e-05) 2.680573067077756e+02 6.449433514883954e+01;
  (* Thebe, rocks.cpp 133-145 *)
  mkrock 514 2450000.500000000 2.218882574500956e+05 (-1.707742712451856e-02) (-4.631931271882844e-03) 2.889925861272768e+02 9.336528660574965e-03 7.503268096368817e-05 1.433399183927280e-05 6.177086242379696e-03 (-1.430832006152276e-05) 2.680573566856980e+02 6.449436369487705e+01;
  (* Adrastea, rocks.cpp 147-159 *)
  mkrock 515 2450000.500000000 1.289847619277409e+05 7.733436951055491e-05 (-7.119915620542968e-04) 8.469076821476101e+01 7.291459020134167e-04 2.676849686756846e-04 9.721724518582802e-05 1.396989430143032e-02 (-9.865593193437598e-05) 2.680565964128937e+02 6.449530295172036e+01;
  (* Metis, rocks.cpp 161-173 *)
  mkrock 516 2450000.500000000 1.279996083074168e+05 4.232619343306958e-04 (-6.389823783865655e-04) 3.380483431923231e+02 2.332741944310790e-04 5.651570478951611e-04 9.905391637419158e-05 1.413489189624821e-02 (-9.817915317723091e-05) 2.680565964128937e+02 6.449530295172036e+01;
  (* Janus, rocks.cpp 175-187 *)
  mkrock 610 2444786.5 1.514471646942220e+05 (-3.356112346396347e-03) 5.663424289609894e-03 1.993639755564592e+02 (-1.210639146126198e-03) 8.350119519512047e-04 2.378317712273239e-05 5.998806000756397e-03 (-2.367392401124433e-05) 4.057999864473820e+01 8.353999955183330e+01;
  (* Epimetheus, rocks.cpp 189-201 *)
  mkrock 611 2444786.5 1.513991905498270e+05 1.244955044467311e-02 1.689723618147796e-03 1.438890791888553e+02 (-1.212371038828309e-03) 2.571443713031926e-03 2.379040740977320e-05 6.001665785000491e-03 (-2.367577385695356e-05) 4.057999864473820e+01 8.353999955183330e+01;
  (* Helene, rocks.cpp 203-215 *)
  mkrock 612 2444786.5 3.774166381879790e+05 (-9.353516152747377e-05) 1.583034918343283e-03 1.006212707258068e+02 3.230333151378729e-04 1.710869900001995e-03 (-6.777890900303528e-07) 1.522394989535369e-03 (-9.680289928992843e-07) 4.057615013244320e+01 8.354534172579820e+01;
  (* Telesto, rocks.cpp 217-229 *)
  mkrock 613 2444786.5 2.946735826892260e+05 (-5.228888695475952e-04) (-6.853986134369704e-04) 2.150026475454563e+02 8.124186851739944e-03 (-5.785202572889351e-03) 2.297061650453675e-06 2.207149546064677e-03 (-2.290176906415847e-06) 4.057999864473820e+01 8.353999955183330e+01;
  (* Calypso, rocks.cpp 231-243 *)
  mkrock 614 2444786.5 2.946734418892560e+05 2.900726601141678e-05 (-1.805642558770706e-04) 9.486345898172432e+01 (-6.373255324934580e-03) (-1.114711641632123e-02) 2.297022164277979e-06 2.207149553889344e-03 (-2.289705897532556e-06) 4.057999864473820e+01 8.353999955183330e+01;
  (* Atlas, rocks.cpp 245-257 *)
  mkrock 615 2444786.50 1.376664620000000e+05 0.000000000000000e+00 0.000000000000000e+00 1.865410967364615e+02 0.000000000000000e+00 0.000000000000000e+00 3.334584985561025e-05 6.924845572071244e-03 (-3.318681015315788e-05) 4.058861887893110e+01 8.352533375484340e+01;
  (* Prometheus, rocks.cpp 259-271 *)
  mkrock 616 2444940.0 1.393776240e+5 (-1.870790e-3) (-4.319060e-4) 339.155 0.0 0.0 3.191398148e-05 6.797308681e-03 (-3.191398148e-05) 40.5955 83.53812;
  (* Pandora, rocks.cpp 273-285 *)
  mkrock 617 2444940.0 1.417131075e+05 (-7.853582898e-05) 4.499314628e-03 96.023 0.000000000e+00 0.000000000e+00 3.008501157e-05 6.629462963e-03 (-3.008501157e-05) 40.5955 83.53812;
  (* Pan SAT363eq_b, rocks.cpp 287-299 *)
  mkrock 618 2451545.000000000 1.335844767617734e+05 6.573230396213189e-07 (-3.834742374741285e-06) 1.465930214018767e+02 2.874273755616854e-06 1.786179828249530e-06 3.711667877073790e-05 7.245737665179854e-03 (-3.692848989739440e-05) 4.058266021370071e+01 8.353762557532015e+01;
  (* Daphnis SAT363eq_b, rocks.cpp 301-313 *)
  mkrock 635 2451545.0 1.365074939615504e+05 (-1.315672990237585e-05) 9.642045594783008e-06 1.715596048001493e+02 7.531461278368427e-06 1.795515998708297e-07 3.436668768688540e-05 7.013639183255008e-03 (-3.419991514627601e-05) 4.058266021370071e+01 8.353762557532015e+01;
  (* Cordelia URA091, rocks.cpp 315-327 *)
  mkrock 706 2446450.0 4.975278376008903e+04 3.397026389377096e-05 (-2.515254211787496e-04) 7.000215607027029e+01 3.704615503525648e-04 5.853261080355042e-04 1.738799696981362e-05 1.243656183299048e-02 (-1.736377492435019e-05) 7.731359116506646e+01 1.517445781731228e+01;
  (* Ophelia URA091, rocks.cpp 329-341 *)
  mkrock 707 2446450.0 5.377236269476546e+04 (-2.150301507347647e-04) (-9.999740581692736e-03) 2.980775969867487e+02 (-2.020628913672490e-05) (-3.602825478615738e-04) 1.324712040631912e-05 1.106966008118268e-02 (-1.323133607399601e-05) 7.731359116506646e+01 1.517445781731228e+01;
  (* Bianca URA091, rocks.cpp 343-355 *)
  mkrock 708 2446450.0 5.916601845295852e+04 8.477231065799786e-04 (-1.956287335001066e-04) 2.399994222705358e+02 1.589300498661261e-03 6.379647873951716e-05 9.467105548594393e-06 9.587823207439880e-03 (-9.457950543934906e-06) 7.731359116506646e+01 1.517445781731228e+01;
  (* Cressida URA091, rocks.cpp 357-369 *)
  mkrock 709 2446450.0 6.176701274125071e+04 1.280325717493410e-04 (-3.492016953899938e-04) 1.744231642592986e+01 (-8.721221306573636e-05) (-5.691312570236423e-05) 8.142357893631056e-06 8.988222143978887e-03 (-8.135007925901379e-06) 7.731359116506646e+01 1.517445781731228e+01;
  (* Desdemona URA091, rocks.cpp 371-383 *)
  mkrock 710 2446450.0 6.265802480732047e+04 6.122707189532604e-05 (-7.493551564088767e-05) 3.140089739140928e+02 (-8.205209935503686e-04) 2.858562925749050e-04 7.743633229159851e-06 8.796938545302438e-03 (-7.736867825787147e-06) 7.731359116506646e+01 1.517445781731228e+01;
  (* Juliet URA091, rocks.cpp 385-397 *)
  mkrock 711 2446450.0 6.435798256249492e+04 5.727123336968831e-04 2.769692434848892e-04 3.086610831200759e+02 1.979873455981514e-06 (-3.519679830363237e-04) 7.050789555402506e-06 8.450533525589351e-03 (-7.044928085318312e-06) 7.731359116506646e+01 1.517445781731228e+01;
  (* Portia URA091, rocks.cpp 399-411 *)
  mkrock 712 2446450.0 6.609699016546280e+04 (-1.561120967532852e-05) (-1.037014963876101e-05) 3.408196917514196e+02 (-6.171045740059509e-04) (-3.299300587868204e-05) 6.422466432321616e-06 8.119056168010097e-03 (-6.417420983992342e-06) 7.731359116506646e+01 1.517445781731228e+01;
  (* Rosalind URA091, rocks.cpp 413-425 *)
  mkrock 713 2446450.0 6.992700696485957e+04 (-1.403276497951949e-06) (-2.648962937429079e-04) 2.895216219202660e+02 1.425386769737830e-04 1.380714624815777e-03 5.273919837749587e-06 7.460999947254308e-03 (-5.270264644406115e-06) 7.731359116506646e+01 1.517445781731228e+01;
  (* Belinda URA091, rocks.cpp 427-439 *)
  mkrock 714 2446450.0 7.525599298568144e+04 (-1.133077752423965e-04) 9.095450345916166e-05 3.189638319876507e+02 (-2.319689561589446e-04) 1.836879475556537e-04 4.080592112111099e-06 6.682410769071078e-03 (-4.078118716334471e-06) 7.731359116506646e+01 1.517445781731228e+01;
  (* Puck URA091, rocks.cpp 441-453 *)
  mkrock 715 2446450.0 8.600500570186481e+04 2.408105269975341e-05 4.402601703153761e-05 3.316332080099892e+02 (-2.920341971029460e-03) (-1.546045006884095e-04) 2.563927692592904e-06 5.469265726829639e-03 (-2.562898939602568e-06) 7.731359116506646e+01 1.517445781731228e+01;
  (* Perdita URA091, rocks.cpp 455-467 *)
  mkrock 725 2453243.0 7.724773127464541e+04 1.390656943538988e-02 3.764212415028709e-03 3.595150462692501e+01 (-3.980139862871680e-03) 2.570818282326076e-03 7.254635422562736e-06 6.530622640638519e-03 (-1.264570087799819e-06) 7.731359116506646e+01 1.517445781731228e+01;
  (* Mab URA091, rocks.cpp 469-481 *)
  mkrock 726 2453243.0 9.775566743468499e+04 (-4.588659276539662e-03) 1.692530123450800e-04 1.541172205352909e+02 (-6.759365158371933e-04) 1.062018029025279e-03 2.045092348282713e-06 4.514456799305884e-03 (-1.920887916143170e-06) 7.731359116506646e+01 1.517445781731228e+01;
  (* Cupid URA091, rocks.cpp 483-495 *)
  mkrock 727 2453243.0 7.450315104822017e+04 1.837706282342717e-03 1.041837588715111e-03 2.341997642137053e+02 (-2.742799982489807e-04) (-1.085742482179855e-03) 4.009533113969465e-06 6.799110491893427e-03 (-3.448340803322791e-06) 7.731359116506646e+01 1.517445781731228e+01;
  (* Triton, aka Neptune I, rocks.cpp 503-515 *)
  mkrock 801 2447763.5 3.547591460000000e+05 2.183485420000000e-06 (-1.543648510000000e-05) (-7.672436890000000e+01) (-2.818138250000000e-02) 2.030103396000000e-01 1.211953824000000e-08 (-7.089961076000000e-04) 1.657793254000000e-08 2.989472940000000e+02 4.331890600000000e+01;
  (* Naiad, a.k.a. 1989N6, rocks.cpp 517-529 *)
  mkrock 803 2447757.0 4.822701435905355e+04 3.620224770838396e-04 1.156185304588290e-05 6.810339767839658e+01 3.452822063733985e-02 2.290770169216655e-02 1.964161049323076e-05 1.415326558087714e-02 (-1.985180471594082e-05) 2.993634890000000e+02 4.344909600000000e+01;
  (* Thalassa, a.k.a. 1989N5, rocks.cpp 531-543 *)
  mkrock 804 2447757.0 5.007495130640859e+04 1.881434320556790e-04 1.033517936279606e-04 2.475810361721285e+02 1.808988491806543e-03 (-2.572520444193769e-04) 1.745544005794959e-05 1.337678870805562e-02 (-1.746377282651943e-05) 2.993634890000000e+02 4.344909600000000e+01;
  (* Despina,  a.k.a. 1989N3, rocks.cpp 545-557 *)
  mkrock 805 2447757.0 5.252607405757254e+04 2.232930551031250e-04 (-1.115774312255063e-05) 9.311343295481528e+01 1.944862825322830e-04 (-5.200679669272585e-04) 1.475565828888696e-05 1.245059755574818e-02 (-1.476785707594837e-05) 2.993634890000000e+02 4.344909600000000e+01;
  (* Galatea, a.k.a. 1989N4, rocks.cpp 559-571 *)
  mkrock 806 2447757.0 6.195297903638693e+04 1.674342888688514e-05 (-3.311081056771463e-05) 5.448813192644227e+01 4.358773699437865e-04 (-3.132950150251619e-04) 8.264989830842901e-06 9.718285365249440e-03 (-8.284262531923991e-06) 2.993634890000000e+02 4.344909600000000e+01;
  (* Larissa, a.k.a. 1989N2, rocks.cpp 573-585 *)
  mkrock 807 2447757.0 7.354791709303492e+04 5.742600597431634e-04 (-1.269545891017604e-03) 1.926654222778896e+02 5.395612235869184e-04 1.702120710409934e-03 4.526939181068548e-06 7.512183377052987e-03 (-4.555573945715664e-06) 2.993634890000000e+02 4.344909600000000e+01;
  (* Proteus,  a.k.a. 1989N1, rocks.cpp 587-599 *)
  mkrock 808 2447757.0 1.176468148802116e+05 5.138756385126203e-04 (-1.319038194876358e-04) 2.214459710358717e+02 6.691721009767980e-05 (-2.147144625701844e-04) 8.764111065373391e-07 3.712548540365151e-03 (-9.086814828264133e-07) 2.993634890000000e+02 4.344909600000000e+01
])%Q.

(** A vector of three doubles. *)
Definition vect : Type := (R * R * R)%type.

(** The body of the loop for the moon that was found, rocks.cpp 633-703. *)
Definition position (rk : rock) (jde : R) : vect :=
  let seconds_per_day := 86400 in
  let dt_seconds := (jde - Q2R (epoch_jd rk)) * seconds_per_day in
  let mean_lon := rad (mean_lon0 rk) + dt_seconds * rad (mean_motion rk) in
  let a0 := - sin (rad (pole_ra rk)) in
  let a1 := cos (rad (pole_ra rk)) in
  let a2 := 0 in
  let tsin := sin (rad (pole_dec rk)) in
  let tcos := cos (rad (pole_dec rk)) in
  let b0 := - a1 * tsin in
  let b1 := a0 * tsin in
  let b2 := tcos in
  let c0 := a1 * tcos in
  let c1 := - a0 * tcos in
  let c2 := tsin in
  let tsin := sin (dt_seconds * rad (apsis_rate rk)) in
  let tcos := cos (dt_seconds * rad (apsis_rate rk)) in
  let h := Q2R (el_k rk) * tsin + Q2R (el_h rk) * tcos in
  let k := Q2R (el_k rk) * tcos - Q2R (el_h rk) * tsin in
  let e := sqrt (h * h + k * k) in
  let omega := atan2 h k in
  let true_lon := mean_lon + 2 * e * sin (mean_lon - omega) + 1.25 * e * e * sin (2 * (mean_lon - omega)) in
  let r := Q2R (semi_a rk) * (1 - e * e) / (1 + e * cos (true_lon - omega)) in
  let tsin := sin (dt_seconds * rad (node_rate rk)) in
  let tcos := cos (dt_seconds * rad (node_rate rk)) in
  let p := Q2R (el_q rk) * tsin + Q2R (el_p rk) * tcos in
  let q := Q2R (el_q rk) * tcos - Q2R (el_p rk) * tsin in
  let tsin := sin true_lon in
  let tcos := cos true_lon in
  let dot_prod := 2 * (q * tsin - p * tcos) / (1 + p * p + q * q) in
  let a_fraction := tcos + p * dot_prod in
  let b_fraction := tsin - q * dot_prod in
  let c_fraction := dot_prod in
  (r * (a_fraction * a0 + b_fraction * b0 + c_fraction * c0),
   r * (a_fraction * a1 + b_fraction * b1 + c_fraction * c1),
   r * (a_fraction * a2 + b_fraction * b2 + c_fraction * c2)).

(** The loop over the table, rocks.cpp 628-706: the result and what output_vect holds afterwards. *)
Fixpoint search (l : list rock) (jde : R) (id : Z) (output_vect : vect) : Z * vect :=
  match l with
  | [] => ((-1)%Z, output_vect)
  | rk :: l' => if Z.eqb (jpl_id rk) id then (0%Z, position rk jde) else search l' jde id output_vect
  end.

(** evaluate_rock( ), rocks.cpp 624-707. *)
Definition evaluate_rock (jde : R) (id : Z) (output_vect : vect) : Z * vect := search rocks jde id output_vect.
