(* The table of examples/datums.py: geodetic datums to pass to the geodesy functions of the
   package, as examples/utilities.py:74-106 does.  Generated from the source text: a and f are the
   decimal literals mantissa and exponent; dx, dy and dz are ints.
   SIMPLIFICATION: the semi-major axes written as ints are given as the floats they are converted to
   in every expression they enter (exact, below 2^53). *)
From Coq Require Import NArith ZArith List.
From Verif Require Import PyBase PyFloat FGeo.
Import ListNotations.
Local Open Scope Z_scope.

(* examples/datums.py:1-16: the keys of an entry, except the name of its ellipsoid *)
Record datum := mkdatum { d_a : fl; d_f : fl; d_dx : Z; d_dy : Z; d_dz : Z }.
(* a float literal *)
(* examples/datums.py:21-22 *)
Definition lit (m : N) (e : Z) : fl := f_of_dec false m e.

(* examples/datums.py:19-1012, in the order of the file *)
Definition DATUMS : list datum := [
  (* Adindan, Clarke_1880, line 20 *) mkdatum (lit 6378024855 (-3)) (lit 293464999995854 (-12)) (-166) (-15) (204);
  (* Afgooye, Krassovsky, line 28 *) mkdatum (lit 6378029 (0)) (lit 298299999956546 (-12)) (-43) (-163) (45);
  (* Ain_El_Abd_1970, International, line 36 *) mkdatum (lit 6377886 (0)) (lit 297000000022571 (-12)) (-150) (-251) (-2);
  (* Alaska__NAD-27_, Clarke_1866, line 44 *) mkdatum (lit 63780676 (-1)) (lit 294978698229674 (-12)) (-5) (135) (172);
  (* Alaska_Canada_NAD-27, Clarke_1866, line 52 *) mkdatum (lit 63780676 (-1)) (lit 294978698229674 (-12)) (-9) (151) (185);
  (* Anna_1_Astro_1965, Australian_National, line 60 *) mkdatum (lit 6378114 (0)) (lit 298250000043564 (-12)) (-491) (-22) (435);
  (* ARC-1950_mean, Clarke_1880, line 68 *) mkdatum (lit 6378024855 (-3)) (lit 293464999995854 (-12)) (-143) (-90) (-294);
  (* ARC-1960_mean, Clarke_1880, line 76 *) mkdatum (lit 6378024855 (-3)) (lit 293464999995854 (-12)) (-160) (-8) (-300);
  (* Ascension_Island_58, International, line 84 *) mkdatum (lit 6377886 (0)) (lit 297000000022571 (-12)) (-207) (107) (52);
  (* Astro_B4_Sor_Atoll, International, line 92 *) mkdatum (lit 6377886 (0)) (lit 297000000022571 (-12)) (114) (-116) (-333);
  (* Astro_Beacon__E_, International, line 100 *) mkdatum (lit 6377886 (0)) (lit 297000000022571 (-12)) (145) (75) (-272);
  (* Astro_Pos_71_4, International, line 108 *) mkdatum (lit 6377886 (0)) (lit 297000000022571 (-12)) (-320) (550) (-494);
  (* Astronomic_Stn__52, International, line 116 *) mkdatum (lit 6377886 (0)) (lit 297000000022571 (-12)) (124) (-234) (-25);
  (* Australian_Geodetic_1984, Australian_National, line 124 *) mkdatum (lit 6378114 (0)) (lit 298250000043564 (-12)) (-134) (-48) (149);
  (* Bahamas__NAD-27_, Clarke_1866, line 132 *) mkdatum (lit 63780676 (-1)) (lit 294978698229674 (-12)) (-4) (154) (178);
  (* Bellevue__IGN_, International, line 140 *) mkdatum (lit 6377886 (0)) (lit 297000000022571 (-12)) (-127) (-769) (472);
  (* Bermuda_1957, Clarke_1866, line 148 *) mkdatum (lit 63780676 (-1)) (lit 294978698229674 (-12)) (-73) (213) (296);
  (* Bogota_Observatory, International, line 156 *) mkdatum (lit 6377886 (0)) (lit 297000000022571 (-12)) (307) (304) (-318);
  (* Bukit_Rimpah, Bessel_1841, line 164 *) mkdatum (lit 6378876845 (-3)) (lit 299152812838242 (-12)) (-384) (664) (-48);
  (* Camp_Area_Astro, International, line 172 *) mkdatum (lit 6377886 (0)) (lit 297000000022571 (-12)) (-104) (-129) (239);
  (* Campo_Inchauspe, International, line 180 *) mkdatum (lit 6377886 (0)) (lit 297000000022571 (-12)) (-148) (136) (90);
  (* Canada_Mean__NAD27_, Clarke_1866, line 188 *) mkdatum (lit 63780676 (-1)) (lit 294978698229674 (-12)) (-10) (158) (187);
  (* Canal_Zone__NAD27_, Clarke_1866, line 196 *) mkdatum (lit 63780676 (-1)) (lit 294978698229674 (-12)) (0) (125) (201);
  (* Canton_Island_1966, International, line 204 *) mkdatum (lit 6377886 (0)) (lit 297000000022571 (-12)) (298) (-304) (-375);
  (* Cape, Clarke_1880, line 212 *) mkdatum (lit 6378024855 (-3)) (lit 293464999995854 (-12)) (-136) (-108) (-292);
  (* Cape_Canaveral_mean, Clarke_1866, line 220 *) mkdatum (lit 63780676 (-1)) (lit 294978698229674 (-12)) (-2) (150) (181);
  (* Carribean__NAD27_, Clarke_1866, line 228 *) mkdatum (lit 63780676 (-1)) (lit 294978698229674 (-12)) (-7) (152) (178);
  (* Carthage, Clarke_1880, line 236 *) mkdatum (lit 6378024855 (-3)) (lit 293464999995854 (-12)) (-263) (6) (431);
  (* Central_America__NAD27_, Clarke_1866, line 244 *) mkdatum (lit 63780676 (-1)) (lit 294978698229674 (-12)) (0) (125) (194);
  (* Chatham_1971, International, line 252 *) mkdatum (lit 6377886 (0)) (lit 297000000022571 (-12)) (175) (-38) (113);
  (* Chua_Astro, International, line 260 *) mkdatum (lit 6377886 (0)) (lit 297000000022571 (-12)) (-134) (229) (-29);
  (* Corrego_Alegre, International, line 268 *) mkdatum (lit 6377886 (0)) (lit 297000000022571 (-12)) (-206) (172) (-6);
  (* Corrego_Alegre__Provisional_, International, line 276 *) mkdatum (lit 6377886 (0)) (lit 297000000022571 (-12)) (-206) (172) (-6);
  (* Cuba__NAD27_, Clarke_1866, line 284 *) mkdatum (lit 63780676 (-1)) (lit 294978698229674 (-12)) (-9) (152) (178);
  (* Cyprus, International, line 292 *) mkdatum (lit 6377886 (0)) (lit 297000000022571 (-12)) (-104) (-101) (-140);
  (* Djakarta_Batavia_, Bessel_1841, line 300 *) mkdatum (lit 6378876845 (-3)) (lit 299152812838242 (-12)) (-377) (681) (-50);
  (* DOS_1968, International, line 308 *) mkdatum (lit 6377886 (0)) (lit 297000000022571 (-12)) (230) (-199) (-752);
  (* Easter_lsland_1967, International, line 316 *) mkdatum (lit 6377886 (0)) (lit 297000000022571 (-12)) (211) (147) (111);
  (* Egypt, International, line 324 *) mkdatum (lit 6377886 (0)) (lit 297000000022571 (-12)) (-130) (-117) (-151);
  (* European_1950, International, line 332 *) mkdatum (lit 6377886 (0)) (lit 297000000022571 (-12)) (-87) (-96) (-120);
  (* European_1950_mean, International, line 340 *) mkdatum (lit 6377886 (0)) (lit 297000000022571 (-12)) (-87) (-98) (-121);
  (* European_1979_mean, International, line 348 *) mkdatum (lit 6377886 (0)) (lit 297000000022571 (-12)) (-86) (-98) (-119);
  (* Finnish_Nautical_Chart, International, line 356 *) mkdatum (lit 6377886 (0)) (lit 297000000022571 (-12)) (-78) (-231) (-97);
  (* Gandajika_Base, International, line 364 *) mkdatum (lit 6377886 (0)) (lit 297000000022571 (-12)) (-133) (-321) (50);
  (* Geodetic_Datum_49, International, line 372 *) mkdatum (lit 6377886 (0)) (lit 297000000022571 (-12)) (84) (-22) (209);
  (* Ghana, WGS-84, line 380 *) mkdatum (lit 6378137 (0)) (lit 298257223563 (-9)) (0) (0) (0);
  (* Greenland__NAD27_, Clarke_1866, line 388 *) mkdatum (lit 63780676 (-1)) (lit 294978698229674 (-12)) (11) (114) (195);
  (* Guam_1963, Clarke_1866, line 396 *) mkdatum (lit 63780676 (-1)) (lit 294978698229674 (-12)) (-100) (-248) (259);
  (* Gunung_Segara, Bessel_1841, line 404 *) mkdatum (lit 6378876845 (-3)) (lit 299152812838242 (-12)) (-403) (684) (41);
  (* Gunung_Serindung_1962, WGS-84, line 412 *) mkdatum (lit 6378137 (0)) (lit 298257223563 (-9)) (0) (0) (0);
  (* GUX_1_Astro, International, line 420 *) mkdatum (lit 6377886 (0)) (lit 297000000022571 (-12)) (252) (-209) (-751);
  (* Herat_North, International, line 428 *) mkdatum (lit 6377886 (0)) (lit 297000000022571 (-12)) (-333) (-222) (114);
  (* Hjorsey_1955, International, line 436 *) mkdatum (lit 6377886 (0)) (lit 297000000022571 (-12)) (-73) (46) (-86);
  (* Hong_Kong_1963, International, line 444 *) mkdatum (lit 6377886 (0)) (lit 297000000022571 (-12)) (-156) (-271) (-189);
  (* Hu-Tzu-Shan, International, line 452 *) mkdatum (lit 6377886 (0)) (lit 297000000022571 (-12)) (-634) (-549) (-201);
  (* Indian, Everest, line 460 *) mkdatum (lit 6378997655 (-3)) (lit 300801699992346 (-12)) (289) (734) (257);
  (* Iran, International, line 468 *) mkdatum (lit 6377886 (0)) (lit 297000000022571 (-12)) (-117) (-132) (-164);
  (* Ireland_1965, Modified_Airy, line 476 *) mkdatum (lit 6378933811 (-3)) (lit 299324964577565 (-12)) (506) (-122) (611);
  (* ISTS_073_Astro_69, International, line 484 *) mkdatum (lit 6377886 (0)) (lit 297000000022571 (-12)) (208) (-435) (-229);
  (* Johnston_Island_61, International, line 492 *) mkdatum (lit 6377886 (0)) (lit 297000000022571 (-12)) (191) (-77) (-204);
  (* Kandawala, Everest, line 500 *) mkdatum (lit 6378997655 (-3)) (lit 300801699992346 (-12)) (-97) (787) (86);
  (* Kerguelen_Island, International, line 508 *) mkdatum (lit 6377886 (0)) (lit 297000000022571 (-12)) (145) (-187) (103);
  (* Kertau_48, Modified_Everest, line 516 *) mkdatum (lit 6378969937 (-3)) (lit 300801699992346 (-12)) (-11) (851) (5);
  (* L_C__5_Astro, Clarke_1866, line 524 *) mkdatum (lit 63780676 (-1)) (lit 294978698229674 (-12)) (42) (124) (147);
  (* La_Reunion, International, line 532 *) mkdatum (lit 6377886 (0)) (lit 297000000022571 (-12)) (94) (-948) (-1262);
  (* Liberia_1964, Clarke_1880, line 540 *) mkdatum (lit 6378024855 (-3)) (lit 293464999995854 (-12)) (-90) (40) (88);
  (* Luzon, Clarke_1866, line 548 *) mkdatum (lit 63780676 (-1)) (lit 294978698229674 (-12)) (-133) (-77) (-51);
  (* Mahe_1971, Clarke_1880, line 556 *) mkdatum (lit 6378024855 (-3)) (lit 293464999995854 (-12)) (41) (-220) (-134);
  (* Marco_Astro, International, line 564 *) mkdatum (lit 6377886 (0)) (lit 297000000022571 (-12)) (-289) (-124) (60);
  (* Masirah_Is___Nahrwan_, Clarke_1880, line 572 *) mkdatum (lit 6378024855 (-3)) (lit 293464999995854 (-12)) (-247) (-148) (369);
  (* Massawa, Bessel_1841, line 580 *) mkdatum (lit 6378876845 (-3)) (lit 299152812838242 (-12)) (639) (405) (60);
  (* Merchich, Clarke_1880, line 588 *) mkdatum (lit 6378024855 (-3)) (lit 293464999995854 (-12)) (31) (146) (47);
  (* Mexico__NAD27_, Clarke_1866, line 596 *) mkdatum (lit 63780676 (-1)) (lit 294978698229674 (-12)) (-12) (130) (190);
  (* Midway_Astro_61, International, line 604 *) mkdatum (lit 6377886 (0)) (lit 297000000022571 (-12)) (912) (-58) (1227);
  (* Mindanao, Clarke_1866, line 612 *) mkdatum (lit 63780676 (-1)) (lit 294978698229674 (-12)) (-133) (-79) (-72);
  (* Minna, Clarke_1880, line 620 *) mkdatum (lit 6378024855 (-3)) (lit 293464999995854 (-12)) (-92) (-93) (122);
  (* Montjong_Lowe, WGS-84, line 628 *) mkdatum (lit 6378137 (0)) (lit 298257223563 (-9)) (0) (0) (0);
  (* Nahrwan, Clarke_1880, line 636 *) mkdatum (lit 6378024855 (-3)) (lit 293464999995854 (-12)) (-231) (-196) (482);
  (* Naparima_BWI, International, line 644 *) mkdatum (lit 6377886 (0)) (lit 297000000022571 (-12)) (-2) (374) (172);
  (* North_America_83, GRS_80, line 652 *) mkdatum (lit 6378137 (0)) (lit 298257222139682 (-12)) (0) (0) (0);
  (* North_America_1927_mean, Clarke_1866, line 660 *) mkdatum (lit 63780676 (-1)) (lit 294978698229674 (-12)) (-8) (160) (176);
  (* Observatorio_1966, International, line 668 *) mkdatum (lit 6377886 (0)) (lit 297000000022571 (-12)) (-425) (-169) (81);
  (* Old_Egyptian, Helmert_1906, line 676 *) mkdatum (lit 6378074 (0)) (lit 298299999956546 (-12)) (-130) (110) (-13);
  (* Old_Hawaiian_mean, Clarke_1866, line 684 *) mkdatum (lit 63780676 (-1)) (lit 294978698229674 (-12)) (89) (-279) (-183);
  (* Old_Hawaiian_Kauai, Clarke_1866, line 692 *) mkdatum (lit 63780676 (-1)) (lit 294978698229674 (-12)) (45) (-290) (-172);
  (* Old_Hawaiian_Maui, Clarke_1866, line 700 *) mkdatum (lit 63780676 (-1)) (lit 294978698229674 (-12)) (65) (-290) (-190);
  (* Old_Hawaiian_Oahu, Clarke_1866, line 708 *) mkdatum (lit 63780676 (-1)) (lit 294978698229674 (-12)) (56) (-284) (-181);
  (* Oman, Clarke_1880, line 716 *) mkdatum (lit 6378024855 (-3)) (lit 293464999995854 (-12)) (-346) (-1) (224);
  (* Ordnance_Survey_of_Great_Britain_36, Airy, line 724 *) mkdatum (lit 6378710604 (-3)) (lit 299324964577565 (-12)) (375) (-111) (431);
  (* Pico_De_Las_Nieves, International, line 732 *) mkdatum (lit 6377886 (0)) (lit 297000000022571 (-12)) (-307) (-92) (127);
  (* Pitcairn_Astro_67, International, line 740 *) mkdatum (lit 6377886 (0)) (lit 297000000022571 (-12)) (185) (165) (42);
  (* Potsdam_Rauenberg_DHDN, Bessel_1841, line 748 *) mkdatum (lit 6378876845 (-3)) (lit 299152812838242 (-12)) (606) (23) (413);
  (* Provisional_South_American_1956_mean, International, line 756 *) mkdatum (lit 6377886 (0)) (lit 297000000022571 (-12)) (-288) (175) (-376);
  (* Provisional_South_Chilean_1963, International, line 764 *) mkdatum (lit 6377886 (0)) (lit 297000000022571 (-12)) (16) (196) (93);
  (* Puerto_Rico, Clarke_1866, line 772 *) mkdatum (lit 63780676 (-1)) (lit 294978698229674 (-12)) (11) (72) (-101);
  (* Pulkovo_1942, Krassovsky, line 780 *) mkdatum (lit 6378029 (0)) (lit 298299999956546 (-12)) (28) (-130) (-95);
  (* Qornoq, International, line 788 *) mkdatum (lit 6377886 (0)) (lit 297000000022571 (-12)) (164) (138) (-189);
  (* Quatar_National, International, line 796 *) mkdatum (lit 6377886 (0)) (lit 297000000022571 (-12)) (-128) (-283) (22);
  (* Rome_1940, International, line 804 *) mkdatum (lit 6377886 (0)) (lit 297000000022571 (-12)) (-225) (-65) (9);
  (* S_42, Krassovsky, line 812 *) mkdatum (lit 6378029 (0)) (lit 298299999956546 (-12)) (28) (-121) (-77);
  (* S_E_Asia__Indian_, Everest, line 820 *) mkdatum (lit 6378997655 (-3)) (lit 300801699992346 (-12)) (173) (750) (264);
  (* SAD-69_Brazil, South_American_1969, line 828 *) mkdatum (lit 6378114 (0)) (lit 298250000043564 (-12)) (-60) (-2) (-41);
  (* Santa_Braz, International, line 836 *) mkdatum (lit 6377886 (0)) (lit 297000000022571 (-12)) (-203) (141) (53);
  (* Santo__DOS_, International, line 844 *) mkdatum (lit 6377886 (0)) (lit 297000000022571 (-12)) (170) (42) (84);
  (* Sapper_Hill_43, International, line 852 *) mkdatum (lit 6377886 (0)) (lit 297000000022571 (-12)) (-355) (16) (74);
  (* Schwarzeck, Bessel_1841__Namibia_, line 860 *) mkdatum (lit 6378790135 (-3)) (lit 299152812838242 (-12)) (616) (97) (-251);
  (* Sicily, International, line 868 *) mkdatum (lit 6377886 (0)) (lit 297000000022571 (-12)) (-97) (-88) (-135);
  (* Sierra_Leone_1960, WGS-84, line 876 *) mkdatum (lit 6378137 (0)) (lit 298257223563 (-9)) (0) (0) (0);
  (* South_American_1969_mean, South_American_1969, line 884 *) mkdatum (lit 6378114 (0)) (lit 298250000043564 (-12)) (-57) (1) (-41);
  (* South_Asia, Modified_Fischer_1960, line 892 *) mkdatum (lit 6378119 (0)) (lit 298299999956546 (-12)) (7) (-10) (-26);
  (* Southeast_Base, International, line 900 *) mkdatum (lit 6377886 (0)) (lit 297000000022571 (-12)) (-499) (-249) (314);
  (* Southwest_Base, International, line 908 *) mkdatum (lit 6377886 (0)) (lit 297000000022571 (-12)) (-104) (167) (-38);
  (* Tananarive_Observatory_25, International, line 916 *) mkdatum (lit 6377886 (0)) (lit 297000000022571 (-12)) (-189) (-242) (-91);
  (* Thai_Viet__Indian_, Everest, line 924 *) mkdatum (lit 6378997655 (-3)) (lit 300801699992346 (-12)) (214) (836) (303);
  (* Timbalai_1948, Everest, line 932 *) mkdatum (lit 6378997655 (-3)) (lit 300801699992346 (-12)) (-689) (691) (-45);
  (* Tokyo_mean, Bessel_1841, line 940 *) mkdatum (lit 6378876845 (-3)) (lit 299152812838242 (-12)) (-128) (481) (664);
  (* Tristan_Astro_1968, International, line 948 *) mkdatum (lit 6377886 (0)) (lit 297000000022571 (-12)) (-632) (438) (-609);
  (* Unites_Arab_Emirates__Nahrwan_, Clarke_1880, line 956 *) mkdatum (lit 6378024855 (-3)) (lit 293464999995854 (-12)) (-249) (-156) (381);
  (* Viti_Levu_1916, Clarke_1880, line 964 *) mkdatum (lit 6378024855 (-3)) (lit 293464999995854 (-12)) (51) (391) (-36);
  (* Wake-Eniwetok_60, Hough, line 972 *) mkdatum (lit 6378004 (0)) (lit 297000000022571 (-12)) (101) (52) (-39);
  (* WGS-72, WGS-72, line 980 *) mkdatum (lit 6378139 (0)) (lit 298259999999113 (-12)) (0) (0) (5);
  (* WGS-84, WGS-84, line 988 *) mkdatum (lit 6378137 (0)) (lit 298257223563 (-9)) (0) (0) (0);
  (* Yacare, International, line 996 *) mkdatum (lit 6377886 (0)) (lit 297000000022571 (-12)) (-155) (171) (37);
  (* Zanderij, International, line 1004 *) mkdatum (lit 6377886 (0)) (lit 297000000022571 (-12)) (-265) (120) (-358)
].

Section Conversion.
Variable L : FGeo.libm.
(* a position in a datum from its WGS84 coordinates (examples/utilities.py:96-101) *)
Definition to_datum (d : datum) (x y z : fl) : PyBase.result (fl * fl * fl) :=
  FGeo.fecef2llh L (fsub x (f_norm (d_dx d) 0)) (fsub y (f_norm (d_dy d) 0)) (fsub z (f_norm (d_dz d) 0)) (d_a d) (d_f d).
(* and back (examples/utilities.py:103-105) *)
Definition from_datum (d : datum) (lat lon h : fl) : PyBase.result (fl * fl * fl) :=
  match FGeo.fllh2ecef L lat lon h (d_a d) (d_f d) with
  | PyBase.Ok (x, y, z) => PyBase.Ok (fadd x (f_norm (d_dx d) 0), fadd y (f_norm (d_dy d) 0), fadd z (f_norm (d_dz d) 0))
  | PyBase.Raise e => PyBase.Raise e
  end.
End Conversion.
