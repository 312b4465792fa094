(** Model of conbound.c: the constellation of a point.  The arguments are real
    numbers (the doubles' values; the products and sums with 240, 90 and 60 are
    exact). *)
From Coq Require Import String.
From Verif Require Import RBase CStr.
Open Scope list_scope.
Open Scope Z_scope.

(** conbound.c:26-30, the abbreviations. *)
Definition constell_names : list Z :=
  (zs "AndAntApsAqlAqrAraAriAurBooCaeCamCapCarCasCenCepCetChaCirCMaCMiCnc"%string
   ++ zs "ColComCrACrBCrtCruCrvCVnCygDelDorDraEquEriForGemGruHerHorHyaHyiInd"%string
   ++ zs "LacLeoLepLibLMiLupLynLyrMenMicMonMusNorOctOphOriPavPegPerPhePicPsA"%string
   ++ zs "PscPupPyxRetSclScoSctSerSexSgeSgrTauTelTrATriTucUMaUMiVelVirVolVul"%string).

(** conbound.c:32-359, the table [bounds]: ra_spd, d_ra, constell_idx. *)
Definition bounds : list (Z * Z * Z) :=
  [(1399931760, 32400, 15); (1388081280, 23400, 10); (1385506640, 39600, 15); (1384185120, 10800, 33); (1376274000, 34200, 10);
   (1352696040, 5400, 33); (1337007000, 26430, 15); (1336997400, 9600, 33); (1336983300, 14100, 83); (1336967400, 8400, 33);
   (1336947030, 20370, 10); (1313388240, 16200, 83); (1313374440, 13800, 33); (1313353740, 20700, 10); (1313342640, 11100, 13);
   (1297672320, 14880, 33); (1285845000, 12120, 82); (1258347600, 18000, 33); (1258332000, 9600, 33); (1242573720, 17520, 10);
   (1234771740, 14100, 15); (1230794760, 14520, 82); (1226918820, 12660, 13); (1226877120, 30300, 33); (1211133960, 19920, 82);
   (1203324360, 14160, 13); (1203269640, 23220, 82); (1195398600, 3240, 50); (1191516480, 11400, 15); (1186930892, 228, 30);
   (1179669960, 8340, 50); (1175787000, 3000, 30); (1172521360, 15240, 13); (1167858390, 1890, 62); (1163989260, 4260, 30);
   (1159993320, 2640, 62); (1156061160, 5280, 62); (1150237140, 1980, 44); (1148208720, 3960, 7); (1144327260, 5460, 30);
   (1144309080, 4380, 8); (1140406080, 2640, 44); (1140332520, 5880, 62); (1139084380, 10380, 30); (1132480080, 5400, 7);
   (1132467000, 7080, 62); (1124648280, 6180, 8); (1124641260, 5100, 29); (1122710760, 3240, 44); (1120747920, 1680, 0);
   (1120682490, 6510, 7); (1120670520, 11970, 62); (1112857980, 4500, 39); (1104993660, 8940, 39); (1104944310, 1710, 0);
   (1101087120, 2580, 0); (1101021690, 7590, 7); (1101008820, 1980, 0); (1089251820, 7020, 29); (1085358480, 4680, 0);
   (1085279280, 2880, 0); (1081409430, 3570, 51); (1077436320, 8520, 50); (1077414960, 5940, 0); (1069629840, 13140, 0);
   (1061726400, 7320, 29); (1057767930, 9630, 7); (1053897750, 3450, 44); (1051931550, 3570, 44); (1049952150, 4410, 51);
   (1038124740, 2100, 48); (1038116760, 7980, 50); (1022417160, 3240, 25); (1022396100, 4320, 48); (1020428820, 5520, 48);
   (996809760, 2040, 80); (994906170, 9060, 30); (990982560, 960, 61); (990920520, 10320, 7); (986995680, 4380, 37);
   (983118240, 3900, 61); (983045070, 4170, 80); (979186080, 6360, 61); (975218880, 1200, 23); (975208980, 6300, 48);
   (975180750, 4710, 80); (971276820, 2280, 45); (971272320, 4500, 21); (971267040, 5280, 37); (967366020, 4140, 25);
   (967313940, 2490, 66); (960180640, 7260, 61); (959490240, 4500, 23); (954282400, 8160, 61); (949666890, 4410, 8);
   (948973400, 4080, 77); (948969980, 3420, 6); (943787730, 8910, 30); (943777200, 7320, 39); (943730520, 4980, 77);
   (935924880, 4500, 87); (935896800, 4980, 23); (935893680, 3120, 45); (931970520, 6060, 8); (931964640, 5880, 23);
   (931955220, 4500, 45); (931934040, 9060, 77); (928066860, 9540, 61); (928060560, 6300, 87); (928018140, 4920, 21);
   (928010940, 7200, 37); (927992340, 3420, 66); (924126930, 7770, 87); (922098420, 5220, 6); (920183640, 7920, 39);
   (912318840, 10200, 39); (912315420, 3420, 73); (908396880, 9180, 87); (908367660, 4020, 45); (904402800, 6120, 6);
   (894566640, 2820, 0); (892676820, 10140, 61); (892633620, 9420, 45); (887377960, 660, 59); (880880340, 10410, 61);
   (880861140, 10620, 39); (876892200, 1860, 59); (874977000, 1500, 75); (873662800, 1380, 75); (872940030, 5490, 66);
   (869080260, 1140, 31); (865103310, 5190, 21); (861218820, 11130, 61); (861215940, 2880, 31); (858589520, 4980, 75);
   (857222700, 8700, 77); (853346640, 480, 3); (849358380, 8940, 77); (845435160, 1950, 59); (834996560, 3480, 3);
   (833672220, 3600, 73); (833635800, 1320, 59); (831724350, 3270, 31); (831719760, 4590, 3); (829702380, 3540, 59);
   (825799800, 2400, 85); (820572820, 3600, 58); (817932000, 5880, 85); (813984120, 1110, 20); (808774540, 5400, 58);
   (806168820, 780, 34); (806118000, 2910, 20); (806109420, 6090, 59); (806092800, 6000, 66); (802227824, 5326, 3);
   (802220940, 6884, 58); (802183350, 2250, 54); (800925070, 1650, 34); (794337780, 7140, 85); (786517800, 6600, 66);
   (786457200, 3330, 20); (786454470, 2730, 54); (785862440, 7800, 66); (785783840, 4620, 16); (774702704, 5896, 3);
   (770744820, 12840, 85); (766853100, 11700, 66); (762873540, 4200, 74); (762868140, 5400, 41); (762864240, 3900, 20);
   (757006500, 2220, 73); (755049720, 1800, 34); (751065030, 2790, 54); (743238540, 6030, 58); (739304640, 7770, 58);
   (739300380, 4260, 73); (731447460, 2220, 73); (729492960, 720, 4); (723596640, 2700, 4); (723591360, 4080, 4);
   (723584340, 7020, 3); (723518640, 10620, 16); (721625280, 7980, 4); (719607750, 3450, 54); (707853000, 2700, 73);
   (707843100, 4260, 73); (707841600, 1500, 47); (707811270, 6630, 54); (707801700, 3900, 35); (694035780, 7260, 35);
   (682287060, 6900, 58); (682282560, 4500, 47); (676405440, 11880, 4); (676397220, 2220, 72); (676388820, 7380, 58);
   (676352520, 8100, 54); (676341060, 8760, 35); (660641580, 3900, 26); (652824360, 10140, 16); (644931540, 1260, 71);
   (644925540, 6000, 47); (637086720, 1920, 11); (637081920, 1920, 11); (629209200, 2100, 73); (629207400, 1500, 73);
   (621323880, 3600, 28); (621311400, 8580, 41); (621307800, 3600, 67); (621303300, 4500, 19); (621298980, 4320, 46);
   (616100200, 3900, 73); (613222736, 4080, 76); (593773560, 4620, 46); (589896000, 6720, 11); (582023040, 8640, 76);
   (582018240, 4800, 58); (574125480, 780, 68); (564322260, 1650, 71); (558399420, 6300, 41); (558396840, 2580, 68);
   (556459200, 4800, 58); (550558800, 2160, 71); (534819060, 6000, 41); (519078840, 1380, 1); (519075240, 3600, 68);
   (516036464, 7500, 36); (515148060, 18600, 41); (514514000, 3900, 71); (507331440, 9600, 70); (507325440, 6000, 65);
   (499418040, 3180, 1); (493504080, 4020, 22); (493503000, 1080, 9); (487661040, 3600, 53); (487651200, 9840, 76);
   (478446520, 4380, 1); (475845060, 3900, 49); (475836660, 8400, 14); (471916800, 6600, 71); (471875700, 1500, 9);
   (462717880, 5280, 1); (448310340, 9600, 14); (448289940, 6420, 67); (448284240, 5700, 22); (432577200, 14100, 14);
   (432571320, 5880, 1); (424685880, 3900, 35); (418805160, 3600, 84); (416885760, 7200, 38); (416873160, 4800, 24);
   (416824320, 2640, 9); (396503600, 4560, 35); (395212200, 9480, 84); (393300000, 10800, 63); (393229920, 1440, 40);
   (393224400, 5520, 35); (377543760, 2715, 56); (377538360, 5400, 49); (369651840, 10800, 84); (369644640, 7200, 67);
   (369640440, 4200, 64); (361771020, 3060, 40); (350035440, 3600, 43); (350027040, 8400, 78); (350021355, 5685, 5);
   (346040880, 4560, 40); (342114120, 5400, 64); (330356640, 3915, 56); (328997320, 4200, 35); (322451820, 1500, 32);
   (322446720, 5100, 40); (314646000, 6000, 43); (308696160, 7800, 12); (306722280, 2400, 32); (306717180, 5100, 40);
   (302782020, 3000, 35); (294928200, 6000, 64); (291002040, 8220, 12); (289681720, 1800, 69); (287052480, 3900, 35);
   (283169700, 4935, 56); (283129920, 3600, 32); (283123320, 4800, 40); (279205560, 9600, 12); (275303520, 2880, 18);
   (275297400, 6120, 14); (275293800, 3600, 27); (275269200, 5400, 64); (263478120, 17100, 12); (263467320, 3000, 69);
   (259601760, 4800, 81); (259585560, 10200, 60); (255606000, 4200, 32); (255601920, 4080, 69); (251678040, 4800, 64);
   (247805280, 12000, 81); (247730880, 3000, 42); (243805440, 4980, 69); (235992600, 13800, 60); (235984800, 3915, 79);
   (228119880, 5100, 79); (228081780, 5100, 32); (207802820, 6600, 79); (204520920, 5100, 18); (204512820, 8100, 55);
   (204496020, 8820, 86); (204488820, 7200, 32); (196661700, 6900, 79); (196648500, 8700, 55); (177024000, 7200, 43);
   (177008400, 3600, 2); (177000300, 8100, 79); (176952000, 11700, 42); (157335600, 15600, 2); (157302900, 7200, 52);
   (118029600, 21600, 57); (117992400, 21600, 17); (117977400, 15000, 52); (117964800, 2700, 42); (110100480, 12600, 42);
   (59045700, 35700, 57); (59010000, 35700, 57); (39364800, 43200, 57); (39321600, 43200, 57)].

(** conbound.c:368-369, SPD( i) and RA( i). *)
Definition SPD (i : Z) : outcome Z := do e <- nth_ub bounds i; let '(ra_spd, _, _) := e in Ret (Z.shiftr ra_spd 17).
Definition RA (i : Z) : outcome Z := do e <- nth_ub bounds i; let '(ra_spd, _, _) := e in Ret (Z.land ra_spd 131071).

(** Conversion of a double to an integer type whose largest value is [L]: towards
    zero; a value that does not fit is undefined behaviour. *)
Definition trunc (x : R) : Z := if Rltb x 0 then - Int_part (- x) else Int_part x.
Definition cvt (L : Z) (x : R) : outcome Z := chk L (trunc x).

(** conbound.c:384. *)
Definition n_bounds : Z := 324.

(** conbound.c:386-388, the binary search; [steps] are the values of step. *)
Fixpoint search (steps : list Z) (spd idx : Z) : outcome Z :=
  match steps with
  | [] => Ret idx
  | step :: rest =>
      do idx <- (if idx + step <? n_bounds then
                   do s <- SPD (idx + step); Ret (if spd <? s then idx + step else idx)
                 else Ret idx);
      search rest spd idx
  end.

(** conbound.c:391-404, the search northwards; [fuel] bounds the rounds. *)
Fixpoint northwards (fuel : nat) (ra idx rval : Z) : outcome Z :=
  match fuel with
  | O => Fuel
  | S f =>
      if (0 <=? idx) && (rval =? -1) then
        do min_ra <- RA idx;
        do e <- nth_ub bounds idx;
        let '(_, d_ra, constell_idx) := e in
        let max_ra := min_ra + d_ra in
        northwards f ra (idx - 1)
          (if ((min_ra <=? ra) && (ra <? max_ra)) || ((min_ra <=? ra + 86400) && (ra + 86400 <? max_ra))
           then constell_idx else rval)
      else Ret rval
  end.

(** conbound.c:380-406, from the integers ra and spd to the constellation. *)
Definition constell_index (ra spd : Z) : outcome Z :=
  do idx <- search [256; 128; 64; 32; 16; 8; 4; 2; 1] spd (-1);
  do rval <- northwards 400 ra idx (-1);
  Ret (if rval =? -1 then 83 else rval).

(** memcpy( dst, src + from, n). *)
Fixpoint copy (n : nat) (dst : buf) (i : Z) (src : list Z) (from : Z) : outcome buf :=
  match n with
  | O => Ret dst
  | S m => do c <- at_ src from; do dst <- wr dst i c; copy m dst (i + 1) src (from + 1)
  end.

(** conbound.c:376-413 [constell_from_ra_dec]; [name] is NULL or a buffer. *)
Definition constell_from_ra_dec (ra_degrees_1875 dec_degrees_1875 : R) (name : option buf) : outcome (Z * option buf) :=
  do r <- cvt 2147483647 (ra_degrees_1875 * 240)%R;
  do ra <- ev IMAX ((r + 864000) mod 86400)%cx;
  do spd <- cvt 32767 ((dec_degrees_1875 + 90) * 60)%R;
  do rval <- constell_index ra spd;
  match name with
  | None => Ret (rval, None)
  | Some b => do b <- copy 3 b 0 constell_names (3 * rval);
              do b <- wr b 3 0;
              Ret (rval, Some b)
  end.
