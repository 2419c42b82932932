(** Generated from /repo/src/ecoengine/data/preformanceMaps/maps.json: every entry, in file order.  The
    pickled files a "pkl_prefix" names are not read; the function [pk] stands for their contents. *)
From Verif Require Import Prelude M_Heater M_Engine.
Open Scope Q_scope.

Section Shipped.
Variable pk : string -> pk_files.

Definition table_0 : list hp_entry :=
  [mkHpEntry 50 [(216 # 25); (-109 # 2500); 0] [(3341 # 50); (249 # 100); 0];
   mkHpEntry (135 # 2) [(541 # 50); (-551 # 10000); 0] [(851 # 10); (119 # 50); 0];
   mkHpEntry 95 [(313 # 25); (-267 # 5000); 0] [89; (131 # 50); 0]].
Definition table_1 : list hp_entry :=
  [mkHpEntry 50 [(593 # 100); (-27 # 1000); 0] [170; (101 # 50); 0];
   mkHpEntry 70 [(767 # 100); (-37 # 1000); 0] [(289 # 2); (121 # 50); 0];
   mkHpEntry 95 [(111 # 10); (-7 # 125); 0] [(941 # 10); (63 # 20); 0]].
Definition table_2 : list hp_entry :=
  [mkHpEntry 47 [(3494629 # 500000); (-479 # 12500); 0] [(713 # 5); (269 # 125); 0];
   mkHpEntry 67 [(2047 # 250); (-27 # 625); 0] [(6007 # 50); (2513 # 1000); 0]].
Definition table_3 : list hp_entry :=
  [mkHpEntry 50 [(591 # 100); (-26299 # 1000000); 0] [(100524983 # 50000); (-210483 # 50000); (17079 # 200000)];
   mkHpEntry (135 # 2) [(22696 # 3125); (-6827 # 200000); 0] [(542753 # 250); (-6936571 # 1000000); (547481 # 5000000)];
   mkHpEntry 95 [(4410631 # 500000); (-42059 # 1000000); 0] [(36417 # 16); (-444163 # 62500); (119911 # 1000000)]].
Definition table_4 : list hp_entry :=
  [mkHpEntry 50 [(13744443 # 2500000); (-3797 # 156250); 0] [(46766031 # 250000); (1939747 # 1000000); 0];
   mkHpEntry 70 [(7207307 # 1000000); (-67053 # 2000000); 0] [(740209 # 5000); (2553291 # 1000000); 0]].
Definition table_5 : list hp_entry :=
  [mkHpEntry 100 [(1909496121 # 500000000); (569412237 # 10000000000); (-160050981 # 5000000000); (-3214759 # 2500000000); (576439 # 10000000000); (1101241 # 10000000000); (-22023 # 625000000); (-2630301 # 10000000000); (-101873 # 2000000000); (73931 # 2000000000); (-303 # 5000000000)] [(49621645063 # 10000000000); (-6005259 # 625000000); (-95647009 # 10000000000); (-2897799 # 250000000); (-788517 # 10000000000); (27693 # 312500000); (557071 # 5000000000); (1832377 # 10000000000); (-112827 # 2500000000); (16479 # 400000000); (707 # 2000000000)]].
Definition table_6 : list hp_entry :=
  [mkHpEntry 100 [(18064281543 # 5000000000); (263532249 # 5000000000); (-55639789 # 2000000000); (-17632437 # 2500000000); (186941 # 2000000000); (781711 # 10000000000); (-71843 # 2000000000); (-1111603 # 5000000000); (359239 # 10000000000); (727189 # 10000000000); (-5037 # 10000000000)] [(59786974243 # 10000000000); (38889023 # 2000000000); (-38901139 # 5000000000); (53809029 # 10000000000); (-20927 # 625000000); (186431 # 1000000000); (59527 # 500000000); (8081 # 2000000000); (-2538279 # 10000000000); (-119413 # 2500000000); (14101 # 10000000000)]].
Definition table_7 : list hp_entry :=
  [mkHpEntry 100 [(3328624081 # 2000000000); (515623393 # 10000000000); (-11023993 # 1000000000); (4151443 # 1000000000); (60193 # 1250000000); (30839 # 625000000); (-262721 # 10000000000); (-1178109 # 5000000000); (-7917 # 80000000); (-17643 # 2500000000); (1027 # 2500000000)] [(31173969311 # 2000000000); (-44503761 # 10000000000); (-288970601 # 5000000000); (-57382237 # 2000000000); (-32133 # 400000000); (3399817 # 10000000000); (251197 # 1250000000); (2494761 # 10000000000); (-595773 # 10000000000); (7009 # 50000000); (539 # 1250000000)]].
Definition table_8 : list hp_entry :=
  [mkHpEntry 100 [(442316503 # 250000000); (525134783 # 10000000000); (-2027551 # 250000000); (-1743081 # 2000000000); (318739 # 2500000000); (369489 # 10000000000); (-11751 # 400000000); (-1389043 # 5000000000); (-95067 # 10000000000); (190593 # 5000000000); (-627 # 2000000000)] [(230746692231 # 10000000000); (7768269 # 312500000); (-708963641 # 5000000000); (-253733303 # 10000000000); (-2441377 # 5000000000); (6508079 # 10000000000); (1069967 # 5000000000); (347047 # 625000000); (-506693 # 2500000000); (303669 # 5000000000); (21571 # 10000000000)]].
Definition table_9 : list hp_entry :=
  [mkHpEntry 100 [(4471421927 # 5000000000); (677641611 # 10000000000); (-1582927 # 10000000000); (24041999 # 5000000000); (1196407 # 10000000000); (334921 # 10000000000); (-18937 # 500000000); (-4146401 # 10000000000); (-1213363 # 10000000000); (-1991 # 625000000); (3153 # 5000000000)] [(204185336541 # 10000000000); (-47384123 # 2000000000); (-736219119 # 10000000000); (-130192541 # 5000000000); (-2524037 # 5000000000); (494051 # 1000000000); (131633 # 500000000); (196401 # 200000000); (-223587 # 10000000000); (885101 # 10000000000); (5649 # 10000000000)]].
Definition table_10 : list hp_entry :=
  [mkHpEntry 100 [(22085054271 # 5000000000); (596384263 # 10000000000); (-416104579 # 10000000000); (-17199887 # 10000000000); (96833 # 1250000000); (760967 # 5000000000); (-50333 # 2000000000); (-3289731 # 10000000000); (-801823 # 10000000000); (81493 # 2500000000); (541 # 2000000000)] [(28421871443 # 2500000000); (-103646181 # 5000000000); (496254077 # 10000000000); (-38394967 # 10000000000); (-5991041 # 10000000000); (652159 # 5000000000); (1549887 # 5000000000); (12092717 # 10000000000); (-1455509 # 10000000000); (-893889 # 10000000000); (18221 # 10000000000)]].
Definition table_11 : list hp_entry :=
  [mkHpEntry 100 [(6679056901 # 10000000000); (249888923 # 5000000000); (62957073 # 2500000000); (174941 # 2500000000); (-1552229 # 10000000000); (-2911167 # 10000000000)] [(58438525529 # 10000000000); (3288231 # 10000000000); (-3089099 # 62500000); (-193321 # 5000000000); (2192681 # 5000000000); (161817 # 2500000000)]].
Definition table_12 : list hp_entry :=
  [mkHpEntry 100 [(6944181117 # 10000000000); (222963333 # 5000000000); (53297201 # 2500000000); (1172913 # 10000000000); (-693847 # 5000000000); (-473177 # 2000000000)] [(17383764881 # 2000000000); (136666667 # 10000000000); (-274174107 # 5000000000); (-208333 # 10000000000); (5301339 # 10000000000); (-1 # 40000)]].
Definition table_13 : list hp_entry :=
  [mkHpEntry 100 [(160579369 # 125000000); (334658309 # 10000000000); (9560953 # 5000000000); (284097 # 1000000000); (31071 # 625000000); (-4401737 # 10000000000)] [(62454361979 # 5000000000); (14797619 # 2000000000); (-411417411 # 10000000000); 0; (5789621 # 10000000000); (696429 # 10000000000)]].
Definition table_14 : list hp_entry :=
  [mkHpEntry 100 [(12421582831 # 10000000000); (450256569 # 10000000000); (10246951 # 2000000000); (2483 # 19531250); (-299981 # 10000000000); (-1455303 # 5000000000)] [(9055834089 # 625000000); (355357143 # 10000000000); (-59574149 # 1250000000); (-2916667 # 10000000000); (3060477 # 5000000000); (3607143 # 10000000000)]].
Definition table_15 : list hp_entry :=
  [mkHpEntry 100 [(20013175767 # 10000000000); (72077179 # 1250000000); (-13048087 # 1000000000); (428409 # 5000000000); (15269 # 250000000); (-1842053 # 5000000000)] [(72902904111 # 5000000000); (20483631 # 2500000000); (-43233817 # 2000000000); (-1979167 # 10000000000); (1475307 # 2000000000); (4955357 # 10000000000)]].
Definition table_16 : list hp_entry :=
  [mkHpEntry 100 [(26996807527 # 10000000000); (617507969 # 10000000000); (-11048321 # 500000000); (336149 # 10000000000); (890989 # 10000000000); (-3682431 # 10000000000)] [(36456227911 # 2500000000); (72083333 # 10000000000); (-139027623 # 5000000000); (-2916667 # 10000000000); (4420689 # 5000000000); (13 # 16000)]].
Definition table_17 : list hp_entry :=
  [mkHpEntry 90 [(462979529 # 1000000000); (1641421 # 25000000); (1077377 # 1000000000); (3428059 # 1000000000); (60923 # 250000000); (10761 # 500000000); (5143 # 1000000000); (-192389 # 500000000); (-50593 # 125000000); (-36277 # 1000000000); (19 # 10000000)] [(1015030091 # 250000000); (-20584279 # 1000000000); (-12100527 # 500000000); (-1404789 # 200000000); (17461 # 1000000000); (55183 # 500000000); (30169 # 500000000); (24003 # 200000000); (27767 # 250000000); (138907 # 1000000000); (-1569 # 1000000000)]].
Definition table_18 : list hp_entry :=
  [mkHpEntry 90 [(34102521709 # 5000000000); (172077037 # 2000000000); (-748330699 # 10000000000); (-34489591 # 2000000000); (255421 # 5000000000); (2187441 # 10000000000); (-80259 # 2500000000); (-3311463 # 10000000000); (-215427 # 1000000000); (653961 # 5000000000); (87 # 156250000)] [(-1180905709 # 10000000000); (22677153 # 5000000000); (314990479 # 10000000000); (-406839757 # 10000000000); (1177647 # 5000000000); (204671 # 2500000000); (971917 # 5000000000); (-2160871 # 10000000000); (3053633 # 10000000000); (3612413 # 10000000000); (-4489 # 1250000000)]].
Definition table_19 : list hp_entry :=
  [mkHpEntry 90 [(149112327987 # 100000000000); (6616282153 # 100000000000); (178826813 # 25000000000); (-253891637 # 20000000000); (31448571 # 100000000000); (1765313 # 100000000000); (3001249 # 50000000000); (-45661397 # 100000000000); (-4250487 # 12500000000); (-2163883 # 50000000000); (35203 # 20000000000)] [(1327612215047 # 100000000000); (-1014009337 # 100000000000); (-13401028549 # 100000000000); (-290713247 # 12500000000); (-16257823 # 50000000000); (64433 # 160000000); (1988733 # 100000000000); (6945167 # 10000000000); (6906789 # 10000000000); (17772843 # 25000000000); (-53397 # 6250000000)]].
Definition table_20 : list hp_entry :=
  [mkHpEntry 90 [(4889555031 # 1000000000); (117102769 # 1000000000); (-12001159 # 200000000); (-5935617 # 500000000); (-89963 # 5000000000); (207293 # 1000000000); (-3613 # 250000000); (-246243 # 500000000); (-188407 # 500000000); (785911 # 10000000000); (36971 # 25000000000)] [(-3558277209 # 1000000000); (-4823871 # 125000000); (136307181 # 1000000000); (-16945699 # 1000000000); (983753 # 1000000000); (-518201 # 10000000000); (59613 # 125000000); (-514211 # 1000000000); (-89793 # 250000000); (266509 # 1000000000); (-79323 # 500000000000)]].
Definition table_21 : list hp_entry :=
  [mkHpEntry 90 [(-157358087 # 250000000); (181466663 # 1000000000); (44047 # 100000000); (12104957 # 1000000000); (-132303 # 2000000000); (37199 # 400000000); (489021 # 5000000000); (-218177 # 250000000); (-202789 # 200000000); (-5463 # 25000000); (138861 # 25000000000)] [(1858007733 # 100000000); (-215324777 # 1000000000); (-89782421 # 1000000000); (1503161 # 100000000); (332503 # 1000000000); (34277 # 125000000); (135249 # 5000000000); (693957 # 500000000); (449199 # 1000000000); (414789 # 500000000); (-528641 # 100000000000)]].
Definition table_22 : list hp_entry :=
  [mkHpEntry 90 [(7443904067 # 1000000000); (37195751 # 200000000); (-19696327 # 200000000); (-2500073 # 1000000000); (63829 # 500000000); (444321 # 1000000000); (139547 # 1000000000); (-200039 # 200000000); (-1140199 # 1000000000); (-877557 # 10000000000); (97481 # 20000000000)] [(-173632207 # 12500000); (25902417 # 1000000000); (304250541 # 1000000000); (61695153 # 1000000000); (-1474249 # 1000000000); (-225369 # 200000000); (-6881 # 31250000); (620513 # 500000000); (571009 # 1000000000); (-239641 # 500000000); (904063 # 100000000000)]].
Definition table_23 : list hp_entry :=
  [mkHpEntry 47 [(5634009 # 1000000); (-5897 # 200000); 0] [280; (248671 # 50000); 0];
   mkHpEntry 67 [(63 # 10); (-3 # 100); 0] [280; (66999 # 12500); 0]].
Definition table_24 : list hp_entry :=
  [mkHpEntry 110 [(921001159 # 250000000); (995685071 # 10000000000); (-398107723 # 10000000000); (-47579 # 250000000); (980361 # 10000000000); (-1734907 # 5000000000)] [(18558438453 # 10000000000); (24159231 # 2000000000); (-135443327 # 10000000000); (59621 # 10000000000); (1505253 # 5000000000); (-18541 # 400000000)]].
Definition table_25 : list hp_entry :=
  [mkHpEntry 110 [(50207181209 # 10000000000); (44252579 # 1000000000); (-209142441 # 5000000000); (793531 # 10000000000); (1132421 # 10000000000); (-2491563 # 10000000000)] [(3239887571 # 625000000); (123656481 # 5000000000); (-3019161 # 250000000); (246931 # 5000000000); (5422089 # 10000000000); (-692539 # 5000000000)]].
Definition table_26 : list hp_entry :=
  [mkHpEntry 50 [(43943 # 10000); (-12443 # 1000000); 0] [(52891 # 100); (12247 # 2500); 0];
   mkHpEntry 95 [(548189 # 100000); (-401 # 25000); 0] [(49403 # 100); (38633 # 5000); 0]].
Definition table_27 : list hp_entry :=
  [mkHpEntry 50 [(67 # 10); (-87 # 10000); (-1 # 5000)] [250; (-10883 # 10000); (11 # 625)];
   mkHpEntry 67 [7; (-21 # 1250); (-1 # 10000)] [275; (-6631 # 10000); (1571 # 100000)]].
Definition table_28 : list hp_entry :=
  [mkHpEntry 50 [(24877 # 3125); (-28 # 625); 0] [220; (8743 # 10000); (227 # 50000)];
   mkHpEntry 67 [(52871 # 6250); (-4539 # 100000); 0] [275; (-6631 # 10000); (1571 # 100000)]].
Definition table_29 : list hp_entry :=
  [mkHpEntry 17 [(16 # 5); (-3 # 200); 0] [1650; (11 # 2); 0];
   mkHpEntry 35 [(37 # 10); (-3 # 200); 0] [1100; 4; 0];
   mkHpEntry 50 [(21 # 4); (-1 # 40); 0] [880; (31 # 10); 0];
   mkHpEntry 67 [(31 # 5); (-3 # 100); 0] [740; 4; 0];
   mkHpEntry 95 [(143 # 20); (-1 # 25); 0] [790; 2; 0]].
Definition table_30 : list hp_entry :=
  [mkHpEntry 50 [(2872059 # 500000); (-12973 # 500000); 0] [(29555337 # 100000); (114259 # 50000); 0];
   mkHpEntry 67 [(500757 # 62500); (-19697 # 500000); 0] [(1411063 # 5000); (282001 # 100000); 0]].
Definition table_31 : list hp_entry :=
  [mkHpEntry 47 [(243 # 50); (-111 # 5000); (-1 # 100000)] [467; (281 # 100); (9 # 1250)];
   mkHpEntry 67 [(329 # 50); (-49 # 1250); (407 # 10000000)] [541; (147 # 100); (11 # 625)]].

Definition shipped : registry :=
  [("MODELS_AOSmithHPTS50_R_MP", mkEntry (Some "AOSmith HPTS 50 gallon") true false 0 None (Some table_0));
   ("MODELS_AOSmithHPTS66_R_MP", mkEntry (Some "AOSmith HPTS 66 gallon") true false 0 None (Some table_0));
   ("MODELS_AOSmithHPTS80_R_MP", mkEntry (Some "AOSmith HPTS 80 gallon") true false 0 None (Some table_0));
   ("MODELS_AOSmithHPTU50_R_MP", mkEntry (Some "AOSmith HPTU 50 gallon") true false 0 None (Some table_1));
   ("MODELS_AOSmithHPTU66_R_MP", mkEntry (Some "AOSmith HPTU 66 gallon") true false 0 None (Some table_1));
   ("MODELS_AOSmithHPTU80_R_MP", mkEntry (Some "AOSmith HPTU 80 gallon") true false 0 None (Some table_1));
   ("MODELS_AOSmithHPTU80_DR_R_MP", mkEntry (Some "AOSmith HPTU 80 gallon DR") true false 0 None (Some table_2));
   ("MODELS_AOSmithCAHP120_C_MP", mkEntry (Some "AOSmith CAHP 120 gallon Commercial Grade") true false 0 None (Some table_3));
   ("MODELS_BWC2020_65_R_MP", mkEntry (Some "Bradford White 2020 65 gallon unit") true false 0 None (Some table_4));
   ("MODELS_ColmacCxV_5_C_SP", mkEntry (Some "Colmac CxV_5 external heat pump in Single Pass Mode") true false 0 (Some (pk "Colmac_CxV5_Single_Pass")) (Some table_5));
   ("MODELS_ColmacCxA_10_C_SP", mkEntry (Some "Colmac CxA_10 external heat pump in Single Pass Mode") true false 0 (Some (pk "Colmac_CxA10_Single_Pass")) (Some table_6));
   ("MODELS_ColmacCxA_10_Oversized_C_SP", mkEntry (Some "Colmac CxA_10 external heat pump in Single Pass Mode (Oversized Condenser)") false false 0 (Some (pk "Colmac_CxA10_Oversized_Condenser_Single_Pass")) None);
   ("MODELS_ColmacCxA_10_VFD_45_Hz_C_SP", mkEntry (Some "Colmac CxA_10 external heat pump in Single Pass Mode (VFD 45 Hz)") false false 0 (Some (pk "Colmac_CxA10_VFD_45_Hz_Single_Pass")) None);
   ("MODELS_ColmacCxA_10_VFD_60_Hz_C_SP", mkEntry (Some "Colmac CxA_10 external heat pump in Single Pass Mode (VFD 60 Hz)") false false 0 (Some (pk "Colmac_CxA10_VFD_60_Hz_Single_Pass")) None);
   ("MODELS_ColmacCxA_15_C_SP", mkEntry (Some "Colmac CxA_15 external heat pump in Single Pass Mode") true false 0 (Some (pk "Colmac_CxA15_Single_Pass")) (Some table_7));
   ("MODELS_ColmacCxA_15_VFD_45_Hz_C_SP", mkEntry (Some "Colmac CxA_15 external heat pump in Single Pass Mode (VDF 45 Hz)") false false 0 (Some (pk "Colmac_CxA15_VFD_45_Hz_Single_Pass")) None);
   ("MODELS_ColmacCxA_15_R513a_C_SP", mkEntry (Some "Colmac CxA_15 R513a external heat pump in Single Pass Mode") false false 0 (Some (pk "Colmac_CxA15_R513a_Single_Pass")) None);
   ("MODELS_ColmacCxA_15_R513a_VFD_45_Hz_C_SP", mkEntry (Some "Colmac CxA_15 R513a external heat pump in Single Pass Mode (VFD 45 Hz)") false false 0 (Some (pk "Colmac_CxA15_R513a_VFD_45_Hz_Single_Pass")) None);
   ("MODELS_ColmacCxV_15_VFD_45_Hz_C_SP", mkEntry (Some "Colmac CxV_15 external heat pump in Single Pass Mode (VFD 45 Hz)") false false 0 (Some (pk "Colmac_CxV15_VFD_45_Hz_Single_Pass")) None);
   ("MODELS_ColmacCxV_15_VFD_60_Hz_C_SP", mkEntry (Some "Colmac CxV_15 external heat pump in Single Pass Mode (VFD 60 Hz)") false false 0 (Some (pk "Colmac_CxV15_VFD_60_Hz_Single_Pass")) None);
   ("MODELS_ColmacCxA_20_C_SP", mkEntry (Some "Colmac CxA_20 external heat pump in Single Pass Mode") true false 0 (Some (pk "Colmac_CxA20_Single_Pass")) (Some table_8));
   ("MODELS_ColmacCxA_20_Oversized_C_SP", mkEntry (Some "Colmac CxA_20 external heat pump in Single Pass Mode (Oversized Condenser)") false false 0 (Some (pk "Colmac_CxA20_Oversized_Condenser_Single_Pass")) None);
   ("MODELS_ColmacCxA_20_VFD_35_Hz_C_SP", mkEntry (Some "Colmac CxA_20 external heat pump in Single Pass Mode (VFD 35 Hz)") false false 0 (Some (pk "Colmac_CxA20_VFD_35_Hz_Single_Pass")) None);
   ("MODELS_ColmacCxA_25_C_SP", mkEntry (Some "Colmac CxA_25 external heat pump in Single Pass Mode") true false 0 (Some (pk "Colmac_CxA25_Single_Pass")) (Some table_9));
   ("MODELS_ColmacCxA_25_Oversized_C_SP", mkEntry (Some "Colmac CxA_25 external heat pump in Single Pass Mode (Oversized Condenser)") false false 0 (Some (pk "Colmac_CxA25_Oversized_Condenser_Single_Pass")) None);
   ("MODELS_ColmacCxA_25_VFD_35_Hz_C_SP", mkEntry (Some "Colmac CxA_25 external heat pump in Single Pass Mode (VFD 35 Hz)") false false 0 (Some (pk "Colmac_CxA25_VFD_35_Hz_Single_Pass")) None);
   ("MODELS_ColmacCxA_30_C_SP", mkEntry (Some "Colmac CxA_30 external heat pump in Single Pass Mode") true false 0 (Some (pk "Colmac_CxA30_Single_Pass")) (Some table_10));
   ("MODELS_ColmacCxA_30_Oversized_C_SP", mkEntry (Some "Colmac CxA_30 external heat pump in Single Pass Mode (Oversized Condenser)") false false 0 (Some (pk "Colmac_CxA30_Oversized_Condenser_Single_Pass")) None);
   ("MODELS_ColmacCxA_30_VFD_35_Hz_C_SP", mkEntry (Some "Colmac CxA_30 external heat pump in Single Pass Mode (VFD 35 Hz)") false false 0 (Some (pk "Colmac_CxA30_VFD_35_Hz_Single_Pass")) None);
   ("MODELS_ColmacCxA_30_R513a_C_SP", mkEntry (Some "Colmac CxA_30 R513a external heat pump in Single Pass Mode") false false 0 (Some (pk "Colmac_CxA30_R513a_Single_Pass")) None);
   ("MODELS_ColmacCxA_30_R513a_VFD_35_Hz_C_SP", mkEntry (Some "Colmac CxA_30 R513a external heat pump in Single Pass Mode (VFD 35 Hz)") false false 0 (Some (pk "Colmac_CxA30_R513a_VFD_35_Hz_Single_Pass")) None);
   ("MODELS_Colmac_HPA4_C_SP", mkEntry (Some "Colmac HPA4 in Single Pass Mode") false false 0 (Some (pk "Colmac_HPA4_Single_Pass")) None);
   ("MODELS_Colmac_HPA4_R513a_C_SP", mkEntry (Some "Colmac HPA4 R513a in Single Pass Mode") false false 0 (Some (pk "Colmac_HPA4_R513a_Single_Pass")) None);
   ("MODELS_ColmacCxV_5_C_MP", mkEntry (Some "Colmac CxV_5 external heat pump in Multi Pass Mode") true false 0 (Some (pk "Colmac_CxV5_Multi_Pass")) (Some table_11));
   ("MODELS_ColmacCxA_10_C_MP", mkEntry (Some "Colmac CxA_10 external heat pump in Multi Pass Mode") true false 0 (Some (pk "Colmac_CxA10_Multi_Pass")) (Some table_12));
   ("MODELS_ColmacCxA_10_Oversized_C_MP", mkEntry (Some "Colmac CxA_10 external heat pump in Multi Pass Mode (Oversized Condenser)") false false 0 (Some (pk "Colmac_CxA10_Oversized_Condenser_Multi_Pass")) None);
   ("MODELS_ColmacCxA_10_VFD_45_Hz_C_MP", mkEntry (Some "Colmac CxA_10 external heat pump in Multi Pass Mode (VFD 45 Hz)") false false 0 (Some (pk "Colmac_CxA10_VFD_45_Hz_Multi_Pass")) None);
   ("MODELS_ColmacCxA_15_C_MP", mkEntry (Some "Colmac CxA_15 external heat pump in Multi Pass Mode") true false 0 (Some (pk "Colmac_CxA15_Multi_Pass")) (Some table_13));
   ("MODELS_ColmacCxA_15_Oversized_C_MP", mkEntry (Some "Colmac CxA_15 external heat pump in Multi Pass Mode (Oversized Condenser)") false false 0 (Some (pk "Colmac_CxA15_Oversized_Condenser_Multi_Pass")) None);
   ("MODELS_ColmacCxA_15_VFD_45_Hz_C_MP", mkEntry (Some "Colmac CxA_15 external heat pump in Multi Pass Mode (VFD 45 Hz)") false false 0 (Some (pk "Colmac_CxA15_VFD_45_Hz_Multi_Pass")) None);
   ("MODELS_ColmacCxA_15_R513a_C_MP", mkEntry (Some "Colmac CxA_15 R513a external heat pump in Multi Pass Mode") false false 0 (Some (pk "Colmac_CxA15_R513a_Multi_Pass")) None);
   ("MODELS_ColmacCxA_15_R513a_VFD_45_Hz_C_MP", mkEntry (Some "Colmac CxA_15 R513a external heat pump in Multi Pass Mode (VFD 45 Hz)") false false 0 (Some (pk "Colmac_CxA15_R513a_VFD_45_Hz_Multi_Pass")) None);
   ("MODELS_ColmacCxV_15_VFD_45_Hz_C_MP", mkEntry (Some "Colmac CxV_15 external heat pump in Multi Pass Mode (VFD 45 Hz)") false false 0 (Some (pk "Colmac_CxV15_VFD_45_Hz_Multi_Pass")) None);
   ("MODELS_ColmacCxV_15_VFD_60_Hz_C_MP", mkEntry (Some "Colmac CxV_15 external heat pump in Multi Pass Mode (VFD 60 Hz)") false false 0 (Some (pk "Colmac_CxV15_VFD_60_Hz_Multi_Pass")) None);
   ("MODELS_ColmacCxA_20_C_MP", mkEntry (Some "Colmac CxA_20 external heat pump in Multi Pass Mode") true false 0 (Some (pk "Colmac_CxA20_Multi_Pass")) (Some table_14));
   ("MODELS_ColmacCxA_20_Oversized_C_MP", mkEntry (Some "Colmac CxA_20 external heat pump in Multi Pass Mode (Oversized Condenser)") false false 0 (Some (pk "Colmac_CxA20_Oversized_Condenser_Multi_Pass")) None);
   ("MODELS_ColmacCxA_20_VFD_35_Hz_C_MP", mkEntry (Some "Colmac CxA_20 external heat pump in Multi Pass Mode (VFD 35 Hz)") false false 0 (Some (pk "Colmac_CxA20_VFD_35_Hz_Multi_Pass")) None);
   ("MODELS_ColmacCxA_25_C_MP", mkEntry (Some "Colmac CxA_25 external heat pump in Multi Pass Mode") true false 0 (Some (pk "Colmac_CxA25_Multi_Pass")) (Some table_15));
   ("MODELS_ColmacCxA_25_Oversized_C_MP", mkEntry (Some "Colmac CxA_25 external heat pump in Multi Pass Mode (Oversized Condenser)") false false 0 (Some (pk "Colmac_CxA25_Oversized_Condenser_Multi_Pass")) None);
   ("MODELS_ColmacCxA_25_VFD_35_Hz_C_MP", mkEntry (Some "Colmac CxA_25 external heat pump in Multi Pass Mode (VFD 35 Hz)") false false 0 (Some (pk "Colmac_CxA25_VFD_35_Hz_Multi_Pass")) None);
   ("MODELS_ColmacCxA_30_C_MP", mkEntry (Some "Colmac CxA_30 external heat pump in Multi Pass Mode") true false 0 (Some (pk "Colmac_CxA30_Multi_Pass")) (Some table_16));
   ("MODELS_ColmacCxA_30_Oversized_C_MP", mkEntry (Some "Colmac CxA_30 external heat pump in Multi Pass Mode (Oversized Condenser)") false false 0 (Some (pk "Colmac_CxA30_Oversized_Condenser_Multi_Pass")) None);
   ("MODELS_ColmacCxA_30_VFD_35_Hz_C_MP", mkEntry (Some "Colmac CxA_30 external heat pump in Multi Pass Mode (VFD 35 Hz)") false false 0 (Some (pk "Colmac_CxA30_VFD_35_Hz_Multi_Pass")) None);
   ("MODELS_ColmacCxA_30_R513a_C_MP", mkEntry (Some "Colmac CxA_30 R513a external heat pump in Multi Pass Mode") false false 0 (Some (pk "Colmac_CxA30_R513a_Multi_Pass")) None);
   ("MODELS_ColmacCxA_30_R513a_VFD_35_Hz_C_MP", mkEntry (Some "Colmac CxA_30 R513a external heat pump in Multi Pass Mode (VFD 35 Hz)") false false 0 (Some (pk "Colmac_CxA30_R513a_VFD_35_Hz_Multi_Pass")) None);
   ("MODELS_Colmac_HPA4_C_MP", mkEntry (Some "Colmac HPA4 in Multi Pass Mode") false false 0 (Some (pk "Colmac_HPA4_Multi_Pass")) None);
   ("MODELS_Colmac_HPA4_R513a_C_MP", mkEntry (Some "Colmac HPA4 R513a in Multi Pass Mode") false false 0 (Some (pk "Colmac_HPA4_R513a_Multi_Pass")) None);
   ("MODELS_COLMAC_R454B_C_SP", mkEntry (Some "Colmac R454B") false false 0 (Some (pk "COLMAC_R454B_Single_Pass")) None);
   ("MODELS_Droplet_C_SP", mkEntry (Some "Droplet") false false 0 (Some (pk "Droplet_Single_Pass")) None);
   ("MODELS_Galletti_460_C_MP", mkEntry (Some "Galletti HTH-30-460-HS") true false 0 (Some (pk "Galletti_460_Multi_Pass")) None);
   ("MODELS_Galletti_778_C_MP", mkEntry (Some "Galletti HTH-54-778-HS") true false 0 (Some (pk "Galletti_778_Multi_Pass")) None);
   ("MODELS_GE2014_R_MP", mkEntry (Some "GE 2014 model run in efficiency mode") true false 0 None (Some table_4));
   ("MODELS_GE2014_80_R_MP", mkEntry (Some "GE 2014 model run in efficiency mode, 80 gallon unit") false false 0 None (Some table_4));
   ("MODELS_GE2014STDMode_R_MP", mkEntry (Some "GE 2014 model run in standard mode") true false 0 None (Some table_4));
   ("MODELS_GE2014STDMode_80_R_MP", mkEntry (Some "GE 2014 model run in standard mode, 80 gallon unit") false false 0 None (Some table_4));
   ("MODELS_Laars_eTherm_C_SP", mkEntry (Some "Laars eTherm") true false 0 (Some (pk "Laars_eTherm")) None);
   ("MODELS_Lochinvar_AHP60_C_SP", mkEntry (Some "Lochinvar Veritus AHP60") true false 0 (Some (pk "lochinvar_AHP60_Single_Pass")) None);
   ("MODELS_Lochinvar_AHP60_C_MP", mkEntry (Some "Lochinvar Veritus AHP60") true false 0 (Some (pk "lochinvar_AHP60_Multi_Pass")) None);
   ("MODELS_Lochinvar_AHP140_C_SP", mkEntry (Some "Lochinvar Veritus AHP140") true false 0 (Some (pk "lochinvar_AHP140_Single_Pass")) None);
   ("MODELS_Lochinvar_AHP140_C_MP", mkEntry (Some "Lochinvar Veritus AHP140") true false 0 (Some (pk "lochinvar_AHP140_Multi_Pass")) None);
   ("MODELS_Lochinvar_AHP200_C_SP", mkEntry (Some "Lochinvar Veritus AHP200") true false 0 (Some (pk "lochinvar_AHP200_Single_Pass")) None);
   ("MODELS_Lochinvar_AHP200_C_MP", mkEntry (Some "Lochinvar Veritus AHP200") true false 0 (Some (pk "lochinvar_AHP200_Multi_Pass")) None);
   ("MODELS_Lochinvar_AHP280_C_SP", mkEntry (Some "Lochinvar Veritus AHP280") true false 0 (Some (pk "lochinvar_AHP280_Single_Pass")) None);
   ("MODELS_Lochinvar_AHP280_C_MP", mkEntry (Some "Lochinvar Veritus AHP280") true false 0 (Some (pk "lochinvar_AHP280_Multi_Pass")) None);
   ("MODELS_Lochinvar_AHP350_C_SP", mkEntry (Some "Lochinvar Veritus AHP350") true false 0 (Some (pk "lochinvar_AHP350_Single_Pass")) None);
   ("MODELS_Lochinvar_AHP350_C_MP", mkEntry (Some "Lochinvar Veritus AHP350") true false 0 (Some (pk "lochinvar_AHP350_Multi_Pass")) None);
   ("MODELS_LYNC_AEGIS_250_SIMULATED_C_SP", mkEntry (Some "Lync Aegis 250 Single Pass") true true 10 (Some (pk "lync_a250_simulated")) None);
   ("MODELS_LYNC_AEGIS_350_SIMULATED_C_SP", mkEntry (Some "Lync Aegis 350 Single Pass") true true 10 (Some (pk "lync_a350_simulated")) None);
   ("MODELS_LYNC_AEGIS_500_SIMULATED_C_SP", mkEntry (Some "Lync Aegis 500 Single Pass") true true 10 (Some (pk "lync_a500_simulated")) None);
   ("MODELS_LYNC_AEGIS_500_TEST_C_SP", mkEntry (Some "Lync Aegis 500 Single Pass (Lab Tested)") false true 10 (Some (pk "Lync_Aegis_500_Single_Pass")) None);
   ("MODELS_Mitsubishi_QAHV_C_SP", mkEntry (Some "Mitsubishi QAHV") true true 10 (Some (pk "Mitsubishi_QAHV")) None);
   ("MODELS_NyleC25A_C_SP", mkEntry (Some "Nyle C25A external heat pump in Single Pass Mode") true false 0 (Some (pk "Nyle_C25A")) (Some table_17));
   ("MODELS_NyleC60A_C_SP", mkEntry (Some "Nyle C60A external heat pump in Single Pass Mode") true false 0 (Some (pk "Nyle_C60A")) (Some table_18));
   ("MODELS_NyleC60A_CW_C_SP", mkEntry (Some "Nyle C60A (Cold Weather Package) in Single Pass Mode") false false 0 (Some (pk "Nyle_C60A")) (Some table_18));
   ("MODELS_NyleC90A_C_SP", mkEntry (Some "Nyle C90A external heat pump in Single Pass Mode") true false 0 (Some (pk "Nyle_C90A")) (Some table_19));
   ("MODELS_NyleC90A_CW_C_SP", mkEntry (Some "Nyle C90A (Cold Weather Package) in Single Pass Mode") false false 0 (Some (pk "Nyle_C90A")) (Some table_19));
   ("MODELS_NyleC125A_C_SP", mkEntry (Some "Nyle C125A external heat pump in Single Pass Mode") true false 0 (Some (pk "Nyle_C125A")) (Some table_20));
   ("MODELS_NyleC125A_CW_C_SP", mkEntry (Some "Nyle C125A (Cold Weather Package) in Single Pass Mode") false false 0 (Some (pk "Nyle_C125A")) (Some table_20));
   ("MODELS_NyleC185A_C_SP", mkEntry (Some "Nyle C185A external heat pump in Single Pass Mode") true false 0 (Some (pk "Nyle_C185A")) (Some table_21));
   ("MODELS_NyleC185A_CW_C_SP", mkEntry (Some "Nyle C185A (Cold Weather Package) in Single Pass Mode") false false 0 (Some (pk "Nyle_C185A")) (Some table_21));
   ("MODELS_NyleC250A_C_SP", mkEntry (Some "Nyle C250A external heat pump in Single Pass Mode") true false 0 (Some (pk "Nyle_C250A")) (Some table_22));
   ("MODELS_NyleC250A_CW_C_SP", mkEntry (Some "Nyle C250A (Cold Weather Package) in Single Pass Mode") false false 0 (Some (pk "Nyle_C250A")) (Some table_21));
   ("MODELS_NyleE360_HT_C_SP", mkEntry (Some "Nyle E360") true false 0 (Some (pk "Nyle_e360_HT_Single_Pass")) None);
   ("MODELS_NyleE360_LT_C_SP", mkEntry (Some "Nyle E360 LT") false false 0 (Some (pk "Nyle_e360_LT_Single_Pass")) None);
   ("MODELS_RheemHB50_R_MP", mkEntry (Some "Rheem 2014 Model") true false 0 None (Some table_23));
   ("MODELS_RheemHBDR2250_R_MP", mkEntry (Some "Rheem HB Duct Ready 50 gallon, 2250 W resistance") true false 0 None (Some table_1));
   ("MODELS_RheemHBDR4550_R_MP", mkEntry (Some "Rheem HB Duct Ready 50 gallon, 4500 W resistance") true false 0 None (Some table_1));
   ("MODELS_RheemHBDR2265_R_MP", mkEntry (Some "Rheem HB Duct Ready 65 gallon, 2250 W resistance") true false 0 None (Some table_1));
   ("MODELS_RheemHBDR4565_R_MP", mkEntry (Some "Rheem HB Duct Ready 65 gallon, 4500 W resistance") true false 0 None (Some table_1));
   ("MODELS_RheemHBDR2280_R_MP", mkEntry (Some "Rheem HB Duct Ready 80 gallon, 2250 W resistance") true false 0 None (Some table_1));
   ("MODELS_RheemHBDR4580_R_MP", mkEntry (Some "Rheem HB Duct Ready 80 gallon, 4500 W resistance") true false 0 None (Some table_1));
   ("MODELS_RHEEM_HPHD60HNU_201_C_MP", mkEntry (Some "Rheem MP 60 kBtu HNU") true false 0 (Some (pk "Rheem_HPHD_60HNU_201")) (Some table_24));
   ("MODELS_RHEEM_HPHD60VNU_201_C_MP", mkEntry (Some "Rheem MP 60 kBtu VNU") true false 0 (Some (pk "Rheem_HPHD_60VNU_201")) (Some table_24));
   ("MODELS_RHEEM_HPHD135HNU_483_C_MP", mkEntry (Some "Rheem MP 135 kBtu HNU") true false 0 (Some (pk "Rheem_HPHD_135HNU_483")) (Some table_25));
   ("MODELS_RHEEM_HPHD135VNU_483_C_MP", mkEntry (Some "Rheem MP 135 kBtu VNU") true false 0 (Some (pk "Rheem_HPHD_135VNU_483")) (Some table_25));
   ("MODELS_RheemPlugInDedicated40_R_MP", mkEntry (Some "Rheem 120V Dedicated-Circuit, 40 gallon") true false 0 None (Some table_26));
   ("MODELS_RheemPlugInDedicated50_R_MP", mkEntry (Some "Rheem 120V Dedicated-Circuit, 50 gallon") true false 0 None (Some table_26));
   ("MODELS_RheemPlugInShared40_R_MP", mkEntry (Some "Rheem 120V Shared-Circuit, 40 gallon") true false 0 None (Some table_27));
   ("MODELS_RheemPlugInShared50_R_MP", mkEntry (Some "Rheem 120V Shared-Circuit, 50 gallon") true false 0 None (Some table_27));
   ("MODELS_RheemPlugInShared65_R_MP", mkEntry (Some "Rheem 120V Shared-Circuit, 65 gallon") true false 0 None (Some table_27));
   ("MODELS_RheemPlugInShared80_R_MP", mkEntry (Some "Rheem 120V Shared-Circuit, 80 gallon") true false 0 None (Some table_27));
   ("MODELS_Rheem2020Build40_R_MP", mkEntry (Some "Rheem 2020 Builder, 40 gallon") true false 0 None (Some table_28));
   ("MODELS_Rheem2020Build50_R_MP", mkEntry (Some "Rheem 2020 Builder, 50 gallon") true false 0 None (Some table_28));
   ("MODELS_Rheem2020Build65_R_MP", mkEntry (Some "Rheem 2020 Builder, 65 gallon") true false 0 None (Some table_28));
   ("MODELS_Rheem2020Build80_R_MP", mkEntry (Some "Rheem 2020 Builder, 80 gallon") true false 0 None (Some table_28));
   ("MODELS_Rheem2020Prem40_R_MP", mkEntry (Some "Rheem 2020 Premium, 40 gallon") true false 0 None (Some table_27));
   ("MODELS_Rheem2020Prem50_R_MP", mkEntry (Some "Rheem 2020 Premium, 50 gallon") true false 0 None (Some table_27));
   ("MODELS_Rheem2020Prem65_R_MP", mkEntry (Some "Rheem 2020 Premium, 65 gallon") true false 0 None (Some table_27));
   ("MODELS_Rheem2020Prem80_R_MP", mkEntry (Some "Rheem 2020 Premium, 80 gallon") true false 0 None (Some table_27));
   ("MODELS_SANCO2_43_R_SP", mkEntry (Some "SANCO2 43 gallon CO2 external heat pump") false false 0 None (Some table_29));
   ("MODELS_SANCO2_C_SP", mkEntry (Some "SANCO2 GS4") true false 0 (Some (pk "SANCO2_GS4")) (Some table_29));
   ("MODELS_SANCO2_83_R_SP", mkEntry (Some "SANCO2 83 gallon CO2 external heat pump") false false 0 None (Some table_29));
   ("MODELS_SANCO2_119_C_SP", mkEntry (Some "SANCO2 120 gallon CO2 external heat pump") false false 0 None (Some table_29));
   ("MODELS_Stiebel220E_R_MP", mkEntry (Some "Stiebel Eltron") true false 0 None (Some table_30));
   ("MODELS_VOLTEX60_R_MP", mkEntry (Some "Voltex 60 gallon HPWH") true false 0 None (Some table_31));
   ("MODELS_VOLTEX80_R_MP", mkEntry (Some "Voltex 80 gallon HPWH") true false 0 None (Some table_31))]%string.
End Shipped.
