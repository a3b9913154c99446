(** Tables of the Hamilton Standard propeller method, /repo/aviary/subsystems/propulsion/propeller/hamilton_standard.py
    L245-456.  Written by tools/hamdata.py; numbers are in units of 1/10000 (exact). *)
From Coq Require Import ZArith List.
Import ListNotations.
Local Open Scope Z_scope.

(** L245 *)
Definition CP_Angle_table_z : list (list (list Z)) :=
  [[[158; 165; 188; 230; 369; 588; 914; 1340; 1816; 2273]; [215; 459; 829; 1305; 1906; 2554; 0; 0; 0; 0]; [(-149);
  (-88); 173; 744; 1414; 2177; 3011; 3803; 0; 0]; [(-670); (-385); 285; 1304; 2376; 3536; 4674; 5535; 0; 0];
  [(-1150); (-281); 1086; 2646; 4213; 5860; 7091; 0; 0; 0]; [(-1151); 70; 1436; 2910; 4345; 5744; 7142; 8506;
  9870; 11175]; [(-2427); 782; 4242; 7770; 11164; 14443; 0; 0; 0; 0]]; [[311; 320; 360; 434; 691; 1074; 1560;
  2249; 3108; 4026]; [380; 800; 1494; 2364; 3486; 4760; 0; 0; 0; 0]; [(-228); (-109); 324; 1326; 2578; 3990; 5664;
  7227; 0; 0]; [(-1252); (-661); 535; 2388; 4396; 6554; 8916; 10753; 0; 0]; [(-2113); (-480); 1993; 4901; 7884;
  10990; 13707; 0; 0; 0]; [(-2077); 153; 2657; 5387; 8107; 10750; 13418; 15989; 18697; 21238]; [(-4508); 1426;
  7858; 14480; 20899; 27130; 0; 0; 0; 0]]; [[450; 461; 511; 602; 943; 1475; 2138; 2969; 4015; 5237]; [520; 1063;
  2019; 3230; 4774; 6607; 0; 0; 0; 0]; [(-168); (-85); 457; 1774; 3520; 5506; 7833; 10236; 0; 0]; [(-1678);
  (-840); 752; 3262; 6085; 9127; 12449; 15430; 0; 0]; [(-2903); (-603); 2746; 6803; 10989; 15353; 19747; 0; 0; 0];
  [(-2783); 259; 3665; 7413; 11215; 14923; 18655; 22375; 26058; 29831]; [(-6181); 1946; 10758; 19951; 28977;
  37748; 0; 0; 0; 0]]; [[577; 591; 648; 751; 1141; 1783; 2599; 3551; 4682; 5952]; [650; 1277; 2441; 3947; 5803;
  8063; 0; 0; 0; 0]; [(-79); (-25); 595; 2134; 4266; 6708; 9519; 12706; 0; 0]; [(-1894); (-908); 956; 3942; 7416;
  11207; 15308; 19459; 0; 0]; [(-3390); (-632); 3350; 8315; 13494; 18900; 24565; 0; 0; 0]; [(-3267); 404; 4520;
  9088; 13783; 18424; 23060; 27782; 32292; 37058]; [(-7508); 2395; 13150; 24469; 35711; 46638; 0; 0; 0; 0]]].

(** L283 *)
Definition CT_Angle_table_z : list (list (list Z)) :=
  [[[303; 444; 586; 743; 1065; 1369; 1608; 1767; 1848; 1858]; [205; 691; 1141; 1529; 1785; 1860; 0; 0; 0; 0];
  [(-976); (-566); 55; 645; 1156; 1589; 1864; 1905; 0; 0]; [(-1133); (-624); 111; 772; 1329; 1776; 2020; 2045; 0;
  0]; [(-1132); (-356); 479; 1161; 1711; 2111; 2150; 0; 0; 0]; [(-776); (-159); 391; 868; 1279; 1646; 1964; 2213;
  2414; 2505]; [(-1228); (-221); 633; 1309; 1858; 2314; 0; 0; 0; 0]]; [[426; 633; 853; 1101; 1649; 2204; 2678;
  3071; 3318; 3416]; [318; 1116; 1909; 2650; 3241; 3423; 0; 0; 0; 0]; [(-1761); (-960); 83; 1114; 2032; 2834;
  3487; 3596; 0; 0]; [(-2155); (-1129); 188; 1420; 2401; 3231; 3850; 3900; 0; 0]; [(-2137); (-657); 859; 2108;
  3141; 3894; 4095; 0; 0; 0]; [(-1447); (-314); 698; 1577; 2342; 3013; 3611; 4067; 4457; 4681]; [(-2338); (-471);
  1108; 2357; 3357; 4174; 0; 0; 0; 0]]; [[488; 732; 999; 1301; 2005; 2731; 3398; 3982; 4427; 4648]; [375; 1393;
  2448; 3457; 4356; 4931; 0; 0; 0; 0]; [(-2295); (-1240); 87; 1443; 2687; 3808; 4739; 5256; 0; 0]; [(-2999);
  (-1527); 235; 1853; 3246; 4410; 5290; 5467; 0; 0]; [(-3019); (-907); 1154; 2871; 4290; 5338; 5954; 0; 0; 0];
  [(-2012); (-461); 922; 2125; 3174; 4083; 4891; 5549; 6043; 6415]; [(-3307); (-749); 1411; 3118; 4466; 5548; 0;
  0; 0; 0]]; [[534; 795; 1084; 1421; 2221; 3054; 3831; 4508; 5035; 5392]; [423; 1588; 2841; 4056; 5157; 6042; 0;
  0; 0; 0]; [(-2606); (-1416); 97; 1685; 3172; 4526; 5655; 6536; 0; 0]; [(-3615); (-1804); 267; 2193; 3870; 5312;
  6410; 7032; 0; 0]; [(-3674); (-1096); 1369; 3447; 5165; 6454; 7308; 0; 0; 0]; [(-2473); (-594); 1086; 2552;
  3830; 4933; 5899; 6722; 7302; 7761]; [(-4165); (-1040); 1597; 3671; 5289; 6556; 0; 0; 0; 0]]].

(** L321 *)
Definition AFCPC_z : list (list Z) :=
  [[16700; 13700; 11650; 10000; 8810; 8100]; [15500; 13300; 11490; 10000; 8900; 8200]].

(** L325 *)
Definition AFCTC_z : list (list Z) :=
  [[13900; 12700; 11230; 10000; 9150; 8650]; [14900; 13000; 11430; 10000; 9150; 8650]].

(** L329 *)
Definition Act_Factor_arr_z : list Z :=
  [800000; 1000000; 1250000; 1500000; 1750000; 2000000].

(** L330 *)
Definition Blade_angle_table_z : list (list Z) :=
  [[0; 20000; 40000; 60000; 100000; 140000; 180000; 220000; 260000; 300000]; [100000; 150000; 200000; 250000;
  300000; 350000; 0; 0; 0; 0]; [100000; 150000; 200000; 250000; 300000; 350000; 400000; 450000; 0; 0]; [200000;
  250000; 300000; 350000; 400000; 450000; 500000; 550000; 0; 0]; [300000; 350000; 400000; 450000; 500000; 550000;
  600000; 0; 0; 0]; [450000; 475000; 500000; 525000; 550000; 575000; 600000; 625000; 650000; 675000]; [575000;
  600000; 625000; 650000; 675000; 700000; 0; 0; 0; 0]].

(** L339 *)
Definition BL_P_corr_table_z : list (list Z) :=
  [[18400; 17750; 17500; 17400; 17600; 17800; 18000; 18100; 18350; 18500; 18650; 18750; 18800; 18800]; [10000;
  10000; 10000; 10000; 10000; 10000; 10000; 10000; 10000; 10000; 10000; 10000; 10000; 10000]; [5850; 6350; 6750;
  7100; 7380; 7450; 7580; 7550; 7050; 7350; 7100; 7250; 7250; 7250]; [4150; 4600; 5050; 5350; 5600; 5750; 6000;
  6100; 6300; 6300; 6100; 6050; 6000; 6000]].

(** L349 *)
Definition BL_T_corr_table_z : list (list Z) :=
  [[15800; 16850; 17300; 17580; 17770; 18020; 18280; 18390; 18480; 18500; 18500; 18500; 18500; 18500]; [10000;
  10000; 10000; 10000; 10000; 10000; 10000; 10000; 10000; 10000; 10000; 10000; 10000; 10000]; [9180; 8740; 8440;
  8210; 8020; 7810; 7640; 7520; 7500; 7500; 7500; 7500; 7500; 7500]; [8640; 7970; 7580; 7280; 7010; 6770; 6520;
  6400; 6300; 6220; 6200; 6200; 6200; 6200]].

(** L359 *)
Definition CL_arr_z : list Z :=
  [3000; 4000; 5000; 6000; 7000; 8000].

(** L360 *)
Definition CP_CLi_table_z : list (list Z) :=
  [[114; 294; 491; 698; 913; 1486; 2110; 2802; 3589; 4443; 5368; 6255; 0; 0; 0]; [160; 200; 294; 478; 678; 893;
  1118; 1702; 2335; 3018; 3775; 4610; 5505; 6331; 0]; [0; 324; 486; 671; 875; 1094; 1326; 1935; 2576; 3259; 3990;
  4805; 5664; 6438; 0]; [0; 290; 430; 480; 490; 524; 684; 868; 1074; 1298; 1537; 2169; 3512; 5025; 6605]; [0; 510;
  743; 891; 1074; 1281; 1509; 1753; 2407; 3083; 3775; 4496; 5265; 6065; 6826]; [0; 670; 973; 1114; 1290; 1494;
  1723; 1972; 2646; 3345; 4047; 4772; 5532; 6307; 7092]].

(** L374 *)
Definition CPEC_z : list Z :=
  [100; 200; 300; 400; 500; 600; 800; 1000; 1500; 2000; 2500; 3000; 3500; 4000].

(** L376 *)
Definition CT_CLi_table_z : list (list Z) :=
  [[13; 211; 407; 600; 789; 1251; 1702; 2117; 2501; 2840; 3148; 3316; 0; 0]; [50; 100; 158; 362; 563; 761; 954;
  1419; 1868; 2278; 2669; 3013; 3317; 3460]; [0; 83; 297; 507; 713; 916; 1114; 1585; 2032; 2456; 2834; 3191; 3487;
  3626]; [130; 208; 428; 645; 857; 1064; 1267; 1748; 2195; 2619; 2995; 3350; 3647; 3802]; [260; 331; 552; 776;
  994; 1207; 1415; 1907; 2357; 2778; 3156; 3505; 3808; 3990]; [365; 449; 672; 899; 1125; 1344; 1556; 2061; 2517;
  2937; 3315; 3656; 3963; 4186]].

(** L390 *)
Definition CTEC_z : list Z :=
  [100; 300; 500; 700; 900; 1200; 1600; 2000; 2400; 2800; 3200; 3600; 4000; 4400].

(** L393, counts *)
Definition ang_arr_len : list nat := [10; 6; 8; 8; 7; 10; 6]%nat.

(** L395, counts *)
Definition cli_arr_len : list nat := [12; 14; 14; 15; 15; 15]%nat.

(** L397 *)
Definition PF_CLI_arr_z : list Z :=
  [16800; 14050; 10000; 6550; 4420; 2550; 1020].

(** L399 *)
Definition TF_CLI_arr_z : list Z :=
  [12200; 11050; 10000; 8820; 7920; 6650; 5400].

(** L400 *)
Definition num_blades_arr_z : list Z :=
  [20000; 40000; 60000; 80000].

(** L401 *)
Definition XPCLI_z : list (list Z) :=
  [[42600; 22850; 17800; 15680; 14520; 13000; 12200; 11600; 11100; 10850; 10540; 10480; 0; 0; 0]; [20000; 18800;
  16520; 14080; 12920; 12280; 11880; 11320; 11050; 10800; 10580; 10420; 10290; 10220; 0]; [10000; 10000; 10000;
  10000; 10000; 10000; 10000; 10000; 10000; 10000; 10000; 10000; 10000; 10000; 0]; [0; 650; 4000; 5200; 5510;
  6190; 7120; 7750; 8150; 8450; 8650; 8910; 9280; 9580; 9750]; [0; 2500; 4360; 5450; 6250; 6820; 7260; 7550; 8040;
  8350; 8640; 8890; 9140; 9350; 9440]; [0; 1100; 3330; 4360; 5200; 5850; 6350; 6700; 7300; 7700; 8070; 8350; 8710;
  8970; 9090]].

(** L415 *)
Definition XTCLI_z : list (list Z) :=
  [[228500; 24000; 17500; 15290; 14120; 12680; 11910; 11580; 11300; 11220; 11080; 11080; 0; 0]; [55000; 22700;
  18800; 14000; 12680; 12080; 11700; 11100; 10890; 10710; 10600; 10540; 10510; 10480]; [10000; 10000; 10000;
  10000; 10000; 10000; 10000; 10000; 10000; 10000; 10000; 10000; 10000; 10000]; [2950; 3990; 6940; 7870; 8310;
  8600; 8810; 9080; 9260; 9400; 9450; 9510; 9580; 9580]; [1660; 2510; 5390; 6540; 7190; 7600; 7880; 8310; 8650;
  8850; 9000; 9100; 9160; 9160]; [420; 1852; 4420; 5650; 6350; 6810; 7160; 7690; 8090; 8380; 8550; 8740; 8810;
  8810]].

(** L429 *)
Definition advance_ratio_array2_z : list Z :=
  [0; 5000; 10000; 15000; 20000; 25000; 30000; 35000; 40000; 45000; 50000].

(** L430 *)
Definition advance_ratio_array_z : list Z :=
  [0; 5000; 10000; 15000; 20000; 30000; 50000].

(** L431 *)
Definition mach_tip_corr_arr_z : list Z :=
  [9280; 9160; 9010; 8840; 8650; 8450].

(** L432 *)
Definition mach_corr_table_z : list (list Z) :=
  [[0; 1510; 2990; 4150; 5050; 5780; 6200; 6300; 6300; 6300; 6300]; [0; 1460; 2870; 4000; 4870; 5560; 5950; 6050;
  6050; 6050; 6050]; [0; 1400; 2760; 3870; 4690; 5340; 5710; 5790; 5790; 5790; 5790]; [0; 1350; 2650; 3720; 4520;
  5120; 5470; 5540; 5540; 5540; 5540]; [0; 1300; 2520; 3570; 4340; 4900; 5220; 5260; 5260; 5260; 5260]; [0; 1250;
  2400; 3390; 4160; 4690; 4980; 5000; 5000; 5000; 5000]].

(** L440 *)
Definition comp_mach_CT_arr_z : list Z :=
  [10000; 90000; 120000; 0; 200; 400; 600; 800; 1000; 1500; 2000; 3000; 100; 200; 400; 800; 1200; 1600; 2000;
  2400; 2800; 3200; 3600; 4000; 10000; 10000; 10000; 10000; 10000; 10000; 10000; 10000; 10000; 10000; 10000;
  10000; 9790; 9810; 9840; 9870; 9900; 9930; 9960; 10000; 10000; 10000; 10000; 10000; 9440; 9450; 9500; 9580;
  9660; 9750; 9840; 9900; 9960; 9990; 10000; 10000; 9010; 9050; 9120; 9270; 9420; 9540; 9640; 9740; 9840; 9900;
  9000; 9000; 8620; 8660; 8750; 8920; 9090; 9260; 9420; 9570; 9700; 9800; 9840; 9840; 8060; 8130; 8250; 8510;
  8770; 9040; 9240; 9390; 9520; 9610; 9710; 9760; 6750; 6850; 7000; 7350; 7770; 8100; 8450; 8700; 8900; 9050;
  9200; 9300; 5250; 5400; 5650; 6150; 6700; 7100; 7450; 7900; 8250; 8600; 8800; 8950; 2250; 2600; 3200; 3750;
  4300; 4950; 5500; 6100; 6600; 7100; 7400; 7750].

