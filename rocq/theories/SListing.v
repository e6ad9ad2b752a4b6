(** The contents of /repo/h800/opcodes.txt, and what a listing of command codes
    has to contain. *)
From Coq Require Export Sorted.
From Verif Require Import Py MInstruction MInstructions SInstruction.

(** h800/opcodes.txt:1-1890 *)
Definition opcodes_txt : string := "0o0000 PR
0o0001 FBAE
0o0003 DM
0o0005 BD
0o0006 SS
0o0007 S
0o0011 FBSE
0o0013 BM
0o0015 FFN
0o0016 EX
0o0020 MT
0o0025 DD
0o0030 FLN
0o0035 FCON
0o0041 DA
0o0042 RW
0o0044 TS
0o0045 SM
0o0046 PRD
0o0050 NN
0o0051 BA
0o0052 RB
0o0054 NA
0o0055 WA
0o0056 WF
0o0060 TX
0o0061 DS
0o0064 CP
0o0065 HA
0o0070 LN
0o0071 BS
0o0072 RF
0o0074 LA
0o0075 WD
0o0100 PR
0o0101 FBAE
0o0103 DM
0o0105 BD
0o0106 SS
0o0111 FBSE
0o0113 BM
0o0115 FFN
0o0116 EX
0o0120 MT
0o0125 DD
0o0130 FLN
0o0135 FCON
0o0141 DA
0o0142 RW
0o0144 TS
0o0145 SM
0o0146 PRD
0o0150 NN
0o0151 BA
0o0152 RB
0o0154 NA
0o0155 WA
0o0156 WF
0o0160 TX
0o0161 DS
0o0164 CP
0o0165 HA
0o0170 LN
0o0171 BS
0o0172 RF
0o0174 LA
0o0175 WD
0o0200 PR
0o0201 FBAE
0o0203 DM
0o0205 BD
0o0206 SS
0o0211 FBSE
0o0213 BM
0o0215 FFN
0o0216 EX
0o0220 MT
0o0225 DD
0o0230 FLN
0o0235 FCON
0o0241 DA
0o0242 RW
0o0244 TS
0o0245 SM
0o0246 PRD
0o0250 NN
0o0251 BA
0o0252 RB
0o0254 NA
0o0255 WA
0o0256 WF
0o0260 TX
0o0261 DS
0o0264 CP
0o0265 HA
0o0270 LN
0o0271 BS
0o0272 RF
0o0274 LA
0o0275 WD
0o0300 PR
0o0301 FBAE
0o0303 DM
0o0305 BD
0o0306 SS
0o0311 FBSE
0o0313 BM
0o0315 FFN
0o0316 EX
0o0320 MT
0o0325 DD
0o0330 FLN
0o0335 FCON
0o0341 DA
0o0342 RW
0o0344 TS
0o0345 SM
0o0346 PRD
0o0350 NN
0o0351 BA
0o0352 RB
0o0354 NA
0o0355 WA
0o0356 WF
0o0360 TX
0o0361 DS
0o0364 CP
0o0365 HA
0o0370 LN
0o0371 BS
0o0372 RF
0o0374 LA
0o0375 WD
0o0400 PR
0o0401 FBAE
0o0403 DM
0o0405 BD
0o0406 SS
0o0411 FBSE
0o0413 BM
0o0415 FFN
0o0416 EX
0o0420 MT
0o0425 DD
0o0430 FLN
0o0435 FCON
0o0441 DA
0o0442 RW
0o0444 TS
0o0445 SM
0o0446 PRD
0o0450 NN
0o0451 BA
0o0452 RB
0o0454 NA
0o0455 WA
0o0456 WF
0o0460 TX
0o0461 DS
0o0464 CP
0o0465 HA
0o0470 LN
0o0471 BS
0o0472 RF
0o0474 LA
0o0475 WD
0o0500 PR
0o0501 FBAE
0o0503 DM
0o0505 BD
0o0506 SS
0o0511 FBSE
0o0513 BM
0o0515 FFN
0o0516 EX
0o0520 MT
0o0525 DD
0o0530 FLN
0o0535 FCON
0o0541 DA
0o0542 RW
0o0544 TS
0o0545 SM
0o0546 PRD
0o0550 NN
0o0551 BA
0o0552 RB
0o0554 NA
0o0555 WA
0o0556 WF
0o0560 TX
0o0561 DS
0o0564 CP
0o0565 HA
0o0570 LN
0o0571 BS
0o0572 RF
0o0574 LA
0o0575 WD
0o0600 PR
0o0601 FBAE
0o0603 DM
0o0605 BD
0o0606 SS
0o0611 FBSE
0o0613 BM
0o0615 FFN
0o0616 EX
0o0620 MT
0o0625 DD
0o0630 FLN
0o0635 FCON
0o0641 DA
0o0642 RW
0o0644 TS
0o0645 SM
0o0646 PRD
0o0650 NN
0o0651 BA
0o0652 RB
0o0654 NA
0o0655 WA
0o0656 WF
0o0660 TX
0o0661 DS
0o0664 CP
0o0665 HA
0o0670 LN
0o0671 BS
0o0672 RF
0o0674 LA
0o0675 WD
0o0700 PR
0o0701 FBAE
0o0703 DM
0o0705 BD
0o0706 SS
0o0711 FBSE
0o0713 BM
0o0715 FFN
0o0716 EX
0o0720 MT
0o0725 DD
0o0730 FLN
0o0735 FCON
0o0741 DA
0o0742 RW
0o0744 TS
0o0745 SM
0o0746 PRD
0o0750 NN
0o0751 BA
0o0752 RB
0o0754 NA
0o0755 WA
0o0756 WF
0o0760 TX
0o0761 DS
0o0764 CP
0o0765 HA
0o0770 LN
0o0771 BS
0o0772 RF
0o0774 LA
0o0775 WD
0o1001 FBA
0o1005 FBD
0o1010 CC
0o1011 FBS
0o1020 TN
0o1021 FDA
0o1025 FDD
0o1030 IT
0o1031 FDS
0o1041 DA
0o1042 RW
0o1044 TS
0o1045 SM
0o1050 NN
0o1051 BA
0o1052 RB
0o1054 NA
0o1055 WA
0o1056 WF
0o1060 TX
0o1061 DS
0o1064 CP
0o1065 HA
0o1070 LN
0o1071 BS
0o1072 RF
0o1074 LA
0o1075 WD
0o1101 FBA
0o1105 FBD
0o1110 CC
0o1111 FBS
0o1120 TN
0o1121 FDA
0o1125 FDD
0o1130 IT
0o1131 FDS
0o1141 DA
0o1142 RW
0o1144 TS
0o1145 SM
0o1150 NN
0o1151 BA
0o1152 RB
0o1154 NA
0o1155 WA
0o1156 WF
0o1160 TX
0o1161 DS
0o1164 CP
0o1165 HA
0o1170 LN
0o1171 BS
0o1172 RF
0o1174 LA
0o1175 WD
0o1201 FBA
0o1205 FBD
0o1210 CC
0o1211 FBS
0o1220 TN
0o1221 FDA
0o1225 FDD
0o1230 IT
0o1231 FDS
0o1241 DA
0o1242 RW
0o1244 TS
0o1245 SM
0o1250 NN
0o1251 BA
0o1252 RB
0o1254 NA
0o1255 WA
0o1256 WF
0o1260 TX
0o1261 DS
0o1264 CP
0o1265 HA
0o1270 LN
0o1271 BS
0o1272 RF
0o1274 LA
0o1275 WD
0o1301 FBA
0o1305 FBD
0o1310 CC
0o1311 FBS
0o1320 TN
0o1321 FDA
0o1325 FDD
0o1330 IT
0o1331 FDS
0o1341 DA
0o1342 RW
0o1344 TS
0o1345 SM
0o1350 NN
0o1351 BA
0o1352 RB
0o1354 NA
0o1355 WA
0o1356 WF
0o1360 TX
0o1361 DS
0o1364 CP
0o1365 HA
0o1370 LN
0o1371 BS
0o1372 RF
0o1374 LA
0o1375 WD
0o1401 FBA
0o1405 FBD
0o1410 CC
0o1411 FBS
0o1420 TN
0o1421 FDA
0o1425 FDD
0o1430 IT
0o1431 FDS
0o1441 DA
0o1442 RW
0o1444 TS
0o1445 SM
0o1450 NN
0o1451 BA
0o1452 RB
0o1454 NA
0o1455 WA
0o1456 WF
0o1460 TX
0o1461 DS
0o1464 CP
0o1465 HA
0o1470 LN
0o1471 BS
0o1472 RF
0o1474 LA
0o1475 WD
0o1501 FBA
0o1505 FBD
0o1510 CC
0o1511 FBS
0o1520 TN
0o1521 FDA
0o1525 FDD
0o1530 IT
0o1531 FDS
0o1541 DA
0o1542 RW
0o1544 TS
0o1545 SM
0o1550 NN
0o1551 BA
0o1552 RB
0o1554 NA
0o1555 WA
0o1556 WF
0o1560 TX
0o1561 DS
0o1564 CP
0o1565 HA
0o1570 LN
0o1571 BS
0o1572 RF
0o1574 LA
0o1575 WD
0o1601 FBA
0o1605 FBD
0o1610 CC
0o1611 FBS
0o1620 TN
0o1621 FDA
0o1625 FDD
0o1630 IT
0o1631 FDS
0o1641 DA
0o1642 RW
0o1644 TS
0o1645 SM
0o1650 NN
0o1651 BA
0o1652 RB
0o1654 NA
0o1655 WA
0o1656 WF
0o1660 TX
0o1661 DS
0o1664 CP
0o1665 HA
0o1670 LN
0o1671 BS
0o1672 RF
0o1674 LA
0o1675 WD
0o1701 FBA
0o1705 FBD
0o1710 CC
0o1711 FBS
0o1720 TN
0o1721 FDA
0o1725 FDD
0o1730 IT
0o1731 FDS
0o1741 DA
0o1742 RW
0o1744 TS
0o1745 SM
0o1750 NN
0o1751 BA
0o1752 RB
0o1754 NA
0o1755 WA
0o1756 WF
0o1760 TX
0o1761 DS
0o1764 CP
0o1765 HA
0o1770 LN
0o1771 BS
0o1772 RF
0o1774 LA
0o1775 WD
0o2000 MPC
0o2002 SPS
0o2003 DT
0o2006 SWS
0o2012 SPE
0o2013 BT
0o2014 FNN
0o2016 SWE
0o2026 SSL
0o2041 DA
0o2042 RW
0o2044 TS
0o2045 SM
0o2050 NN
0o2051 BA
0o2052 RB
0o2054 NA
0o2055 WA
0o2056 WF
0o2060 TX
0o2061 DS
0o2064 CP
0o2065 HA
0o2070 LN
0o2071 BS
0o2072 RF
0o2074 LA
0o2075 WD
0o2100 MPC
0o2102 SPS
0o2103 DT
0o2106 SWS
0o2112 SPE
0o2113 BT
0o2114 FNN
0o2116 SWE
0o2126 SSL
0o2141 DA
0o2142 RW
0o2144 TS
0o2145 SM
0o2150 NN
0o2151 BA
0o2152 RB
0o2154 NA
0o2155 WA
0o2156 WF
0o2160 TX
0o2161 DS
0o2164 CP
0o2165 HA
0o2170 LN
0o2171 BS
0o2172 RF
0o2174 LA
0o2175 WD
0o2200 MPC
0o2202 SPS
0o2203 DT
0o2206 SWS
0o2212 SPE
0o2213 BT
0o2214 FNN
0o2216 SWE
0o2226 SSL
0o2241 DA
0o2242 RW
0o2244 TS
0o2245 SM
0o2250 NN
0o2251 BA
0o2252 RB
0o2254 NA
0o2255 WA
0o2256 WF
0o2260 TX
0o2261 DS
0o2264 CP
0o2265 HA
0o2270 LN
0o2271 BS
0o2272 RF
0o2274 LA
0o2275 WD
0o2300 MPC
0o2302 SPS
0o2303 DT
0o2306 SWS
0o2312 SPE
0o2313 BT
0o2314 FNN
0o2316 SWE
0o2326 SSL
0o2341 DA
0o2342 RW
0o2344 TS
0o2345 SM
0o2350 NN
0o2351 BA
0o2352 RB
0o2354 NA
0o2355 WA
0o2356 WF
0o2360 TX
0o2361 DS
0o2364 CP
0o2365 HA
0o2370 LN
0o2371 BS
0o2372 RF
0o2374 LA
0o2375 WD
0o2400 MPC
0o2402 SPS
0o2403 DT
0o2406 SWS
0o2412 SPE
0o2413 BT
0o2414 FNN
0o2416 SWE
0o2426 SSL
0o2441 DA
0o2442 RW
0o2444 TS
0o2445 SM
0o2450 NN
0o2451 BA
0o2452 RB
0o2454 NA
0o2455 WA
0o2456 WF
0o2460 TX
0o2461 DS
0o2464 CP
0o2465 HA
0o2470 LN
0o2471 BS
0o2472 RF
0o2474 LA
0o2475 WD
0o2500 MPC
0o2502 SPS
0o2503 DT
0o2506 SWS
0o2512 SPE
0o2513 BT
0o2514 FNN
0o2516 SWE
0o2526 SSL
0o2541 DA
0o2542 RW
0o2544 TS
0o2545 SM
0o2550 NN
0o2551 BA
0o2552 RB
0o2554 NA
0o2555 WA
0o2556 WF
0o2560 TX
0o2561 DS
0o2564 CP
0o2565 HA
0o2570 LN
0o2571 BS
0o2572 RF
0o2574 LA
0o2575 WD
0o2600 MPC
0o2602 SPS
0o2603 DT
0o2606 SWS
0o2612 SPE
0o2613 BT
0o2614 FNN
0o2616 SWE
0o2626 SSL
0o2641 DA
0o2642 RW
0o2644 TS
0o2645 SM
0o2650 NN
0o2651 BA
0o2652 RB
0o2654 NA
0o2655 WA
0o2656 WF
0o2660 TX
0o2661 DS
0o2664 CP
0o2665 HA
0o2670 LN
0o2671 BS
0o2672 RF
0o2674 LA
0o2675 WD
0o2700 MPC
0o2702 SPS
0o2703 DT
0o2706 SWS
0o2712 SPE
0o2713 BT
0o2714 FNN
0o2716 SWE
0o2726 SSL
0o2741 DA
0o2742 RW
0o2744 TS
0o2745 SM
0o2750 NN
0o2751 BA
0o2752 RB
0o2754 NA
0o2755 WA
0o2756 WF
0o2760 TX
0o2761 DS
0o2764 CP
0o2765 HA
0o2770 LN
0o2771 BS
0o2772 RF
0o2774 LA
0o2775 WD
0o3001 FBAU
0o3005 FBM
0o3011 FBSU
0o3013 EBA
0o3015 ULD
0o3021 FDAU
0o3025 FDM
0o3030 RT
0o3031 FDSU
0o3033 EBS
0o3041 DA
0o3042 RW
0o3044 TS
0o3045 SM
0o3050 NN
0o3051 BA
0o3052 RB
0o3054 NA
0o3055 WA
0o3056 WF
0o3060 TX
0o3061 DS
0o3064 CP
0o3065 HA
0o3070 LN
0o3071 BS
0o3072 RF
0o3074 LA
0o3075 WD
0o3101 FBAU
0o3105 FBM
0o3111 FBSU
0o3113 EBA
0o3115 ULD
0o3121 FDAU
0o3125 FDM
0o3130 RT
0o3131 FDSU
0o3133 EBS
0o3141 DA
0o3142 RW
0o3144 TS
0o3145 SM
0o3150 NN
0o3151 BA
0o3152 RB
0o3154 NA
0o3155 WA
0o3156 WF
0o3160 TX
0o3161 DS
0o3164 CP
0o3165 HA
0o3170 LN
0o3171 BS
0o3172 RF
0o3174 LA
0o3175 WD
0o3201 FBAU
0o3205 FBM
0o3211 FBSU
0o3213 EBA
0o3215 ULD
0o3221 FDAU
0o3225 FDM
0o3230 RT
0o3231 FDSU
0o3233 EBS
0o3241 DA
0o3242 RW
0o3244 TS
0o3245 SM
0o3250 NN
0o3251 BA
0o3252 RB
0o3254 NA
0o3255 WA
0o3256 WF
0o3260 TX
0o3261 DS
0o3264 CP
0o3265 HA
0o3270 LN
0o3271 BS
0o3272 RF
0o3274 LA
0o3275 WD
0o3301 FBAU
0o3305 FBM
0o3311 FBSU
0o3313 EBA
0o3315 ULD
0o3321 FDAU
0o3325 FDM
0o3330 RT
0o3331 FDSU
0o3333 EBS
0o3341 DA
0o3342 RW
0o3344 TS
0o3345 SM
0o3350 NN
0o3351 BA
0o3352 RB
0o3354 NA
0o3355 WA
0o3356 WF
0o3360 TX
0o3361 DS
0o3364 CP
0o3365 HA
0o3370 LN
0o3371 BS
0o3372 RF
0o3374 LA
0o3375 WD
0o3401 FBAU
0o3405 FBM
0o3411 FBSU
0o3413 EBA
0o3415 ULD
0o3421 FDAU
0o3425 FDM
0o3430 RT
0o3431 FDSU
0o3433 EBS
0o3441 DA
0o3442 RW
0o3444 TS
0o3445 SM
0o3450 NN
0o3451 BA
0o3452 RB
0o3454 NA
0o3455 WA
0o3456 WF
0o3460 TX
0o3461 DS
0o3464 CP
0o3465 HA
0o3470 LN
0o3471 BS
0o3472 RF
0o3474 LA
0o3475 WD
0o3501 FBAU
0o3505 FBM
0o3511 FBSU
0o3513 EBA
0o3515 ULD
0o3521 FDAU
0o3525 FDM
0o3530 RT
0o3531 FDSU
0o3533 EBS
0o3541 DA
0o3542 RW
0o3544 TS
0o3545 SM
0o3550 NN
0o3551 BA
0o3552 RB
0o3554 NA
0o3555 WA
0o3556 WF
0o3560 TX
0o3561 DS
0o3564 CP
0o3565 HA
0o3570 LN
0o3571 BS
0o3572 RF
0o3574 LA
0o3575 WD
0o3601 FBAU
0o3605 FBM
0o3611 FBSU
0o3613 EBA
0o3615 ULD
0o3621 FDAU
0o3625 FDM
0o3630 RT
0o3631 FDSU
0o3633 EBS
0o3641 DA
0o3642 RW
0o3644 TS
0o3645 SM
0o3650 NN
0o3651 BA
0o3652 RB
0o3654 NA
0o3655 WA
0o3656 WF
0o3660 TX
0o3661 DS
0o3664 CP
0o3665 HA
0o3670 LN
0o3671 BS
0o3672 RF
0o3674 LA
0o3675 WD
0o3701 FBAU
0o3705 FBM
0o3711 FBSU
0o3713 EBA
0o3715 ULD
0o3721 FDAU
0o3725 FDM
0o3730 RT
0o3731 FDSU
0o3733 EBS
0o3741 DA
0o3742 RW
0o3744 TS
0o3745 SM
0o3750 NN
0o3751 BA
0o3752 RB
0o3754 NA
0o3755 WA
0o3756 WF
0o3760 TX
0o3761 DS
0o3764 CP
0o3765 HA
0o3770 LN
0o3771 BS
0o3772 RF
0o3774 LA
0o3775 WD
0o4000 PR
0o4001 FBAE
0o4003 DM
0o4005 BD
0o4006 SS
0o4007 S
0o4011 FBSE
0o4013 BM
0o4015 FFN
0o4016 EX
0o4020 MT
0o4025 DD
0o4030 FLN
0o4035 FCON
0o4041 DA
0o4042 RW
0o4044 TS
0o4045 SM
0o4046 PRD
0o4050 NN
0o4051 BA
0o4052 RB
0o4054 NA
0o4055 WA
0o4056 WF
0o4060 TX
0o4061 DS
0o4064 CP
0o4065 HA
0o4070 LN
0o4071 BS
0o4072 RF
0o4074 LA
0o4075 WD
0o4100 PR
0o4101 FBAE
0o4103 DM
0o4105 BD
0o4106 SS
0o4111 FBSE
0o4113 BM
0o4115 FFN
0o4116 EX
0o4120 MT
0o4125 DD
0o4130 FLN
0o4135 FCON
0o4141 DA
0o4142 RW
0o4144 TS
0o4145 SM
0o4146 PRD
0o4150 NN
0o4151 BA
0o4152 RB
0o4154 NA
0o4155 WA
0o4156 WF
0o4160 TX
0o4161 DS
0o4164 CP
0o4165 HA
0o4170 LN
0o4171 BS
0o4172 RF
0o4174 LA
0o4175 WD
0o4200 PR
0o4201 FBAE
0o4203 DM
0o4205 BD
0o4206 SS
0o4211 FBSE
0o4213 BM
0o4215 FFN
0o4216 EX
0o4220 MT
0o4225 DD
0o4230 FLN
0o4235 FCON
0o4241 DA
0o4242 RW
0o4244 TS
0o4245 SM
0o4246 PRD
0o4250 NN
0o4251 BA
0o4252 RB
0o4254 NA
0o4255 WA
0o4256 WF
0o4260 TX
0o4261 DS
0o4264 CP
0o4265 HA
0o4270 LN
0o4271 BS
0o4272 RF
0o4274 LA
0o4275 WD
0o4300 PR
0o4301 FBAE
0o4303 DM
0o4305 BD
0o4306 SS
0o4311 FBSE
0o4313 BM
0o4315 FFN
0o4316 EX
0o4320 MT
0o4325 DD
0o4330 FLN
0o4335 FCON
0o4341 DA
0o4342 RW
0o4344 TS
0o4345 SM
0o4346 PRD
0o4350 NN
0o4351 BA
0o4352 RB
0o4354 NA
0o4355 WA
0o4356 WF
0o4360 TX
0o4361 DS
0o4364 CP
0o4365 HA
0o4370 LN
0o4371 BS
0o4372 RF
0o4374 LA
0o4375 WD
0o4400 PR
0o4401 FBAE
0o4403 DM
0o4405 BD
0o4406 SS
0o4411 FBSE
0o4413 BM
0o4415 FFN
0o4416 EX
0o4420 MT
0o4425 DD
0o4430 FLN
0o4435 FCON
0o4441 DA
0o4442 RW
0o4444 TS
0o4445 SM
0o4446 PRD
0o4450 NN
0o4451 BA
0o4452 RB
0o4454 NA
0o4455 WA
0o4456 WF
0o4460 TX
0o4461 DS
0o4464 CP
0o4465 HA
0o4470 LN
0o4471 BS
0o4472 RF
0o4474 LA
0o4475 WD
0o4500 PR
0o4501 FBAE
0o4503 DM
0o4505 BD
0o4506 SS
0o4511 FBSE
0o4513 BM
0o4515 FFN
0o4516 EX
0o4520 MT
0o4525 DD
0o4530 FLN
0o4535 FCON
0o4541 DA
0o4542 RW
0o4544 TS
0o4545 SM
0o4546 PRD
0o4550 NN
0o4551 BA
0o4552 RB
0o4554 NA
0o4555 WA
0o4556 WF
0o4560 TX
0o4561 DS
0o4564 CP
0o4565 HA
0o4570 LN
0o4571 BS
0o4572 RF
0o4574 LA
0o4575 WD
0o4600 PR
0o4601 FBAE
0o4603 DM
0o4605 BD
0o4606 SS
0o4611 FBSE
0o4613 BM
0o4615 FFN
0o4616 EX
0o4620 MT
0o4625 DD
0o4630 FLN
0o4635 FCON
0o4641 DA
0o4642 RW
0o4644 TS
0o4645 SM
0o4646 PRD
0o4650 NN
0o4651 BA
0o4652 RB
0o4654 NA
0o4655 WA
0o4656 WF
0o4660 TX
0o4661 DS
0o4664 CP
0o4665 HA
0o4670 LN
0o4671 BS
0o4672 RF
0o4674 LA
0o4675 WD
0o4700 PR
0o4701 FBAE
0o4703 DM
0o4705 BD
0o4706 SS
0o4711 FBSE
0o4713 BM
0o4715 FFN
0o4716 EX
0o4720 MT
0o4725 DD
0o4730 FLN
0o4735 FCON
0o4741 DA
0o4742 RW
0o4744 TS
0o4745 SM
0o4746 PRD
0o4750 NN
0o4751 BA
0o4752 RB
0o4754 NA
0o4755 WA
0o4756 WF
0o4760 TX
0o4761 DS
0o4764 CP
0o4765 HA
0o4770 LN
0o4771 BS
0o4772 RF
0o4774 LA
0o4775 WD
0o5001 FBA
0o5005 FBD
0o5010 CC
0o5011 FBS
0o5020 TN
0o5021 FDA
0o5025 FDD
0o5030 IT
0o5031 FDS
0o5041 DA
0o5042 RW
0o5044 TS
0o5045 SM
0o5050 NN
0o5051 BA
0o5052 RB
0o5054 NA
0o5055 WA
0o5056 WF
0o5060 TX
0o5061 DS
0o5064 CP
0o5065 HA
0o5070 LN
0o5071 BS
0o5072 RF
0o5074 LA
0o5075 WD
0o5101 FBA
0o5105 FBD
0o5110 CC
0o5111 FBS
0o5120 TN
0o5121 FDA
0o5125 FDD
0o5130 IT
0o5131 FDS
0o5141 DA
0o5142 RW
0o5144 TS
0o5145 SM
0o5150 NN
0o5151 BA
0o5152 RB
0o5154 NA
0o5155 WA
0o5156 WF
0o5160 TX
0o5161 DS
0o5164 CP
0o5165 HA
0o5170 LN
0o5171 BS
0o5172 RF
0o5174 LA
0o5175 WD
0o5201 FBA
0o5205 FBD
0o5210 CC
0o5211 FBS
0o5220 TN
0o5221 FDA
0o5225 FDD
0o5230 IT
0o5231 FDS
0o5241 DA
0o5242 RW
0o5244 TS
0o5245 SM
0o5250 NN
0o5251 BA
0o5252 RB
0o5254 NA
0o5255 WA
0o5256 WF
0o5260 TX
0o5261 DS
0o5264 CP
0o5265 HA
0o5270 LN
0o5271 BS
0o5272 RF
0o5274 LA
0o5275 WD
0o5301 FBA
0o5305 FBD
0o5310 CC
0o5311 FBS
0o5320 TN
0o5321 FDA
0o5325 FDD
0o5330 IT
0o5331 FDS
0o5341 DA
0o5342 RW
0o5344 TS
0o5345 SM
0o5350 NN
0o5351 BA
0o5352 RB
0o5354 NA
0o5355 WA
0o5356 WF
0o5360 TX
0o5361 DS
0o5364 CP
0o5365 HA
0o5370 LN
0o5371 BS
0o5372 RF
0o5374 LA
0o5375 WD
0o5401 FBA
0o5405 FBD
0o5410 CC
0o5411 FBS
0o5420 TN
0o5421 FDA
0o5425 FDD
0o5430 IT
0o5431 FDS
0o5441 DA
0o5442 RW
0o5444 TS
0o5445 SM
0o5450 NN
0o5451 BA
0o5452 RB
0o5454 NA
0o5455 WA
0o5456 WF
0o5460 TX
0o5461 DS
0o5464 CP
0o5465 HA
0o5470 LN
0o5471 BS
0o5472 RF
0o5474 LA
0o5475 WD
0o5501 FBA
0o5505 FBD
0o5510 CC
0o5511 FBS
0o5520 TN
0o5521 FDA
0o5525 FDD
0o5530 IT
0o5531 FDS
0o5541 DA
0o5542 RW
0o5544 TS
0o5545 SM
0o5550 NN
0o5551 BA
0o5552 RB
0o5554 NA
0o5555 WA
0o5556 WF
0o5560 TX
0o5561 DS
0o5564 CP
0o5565 HA
0o5570 LN
0o5571 BS
0o5572 RF
0o5574 LA
0o5575 WD
0o5601 FBA
0o5605 FBD
0o5610 CC
0o5611 FBS
0o5620 TN
0o5621 FDA
0o5625 FDD
0o5630 IT
0o5631 FDS
0o5641 DA
0o5642 RW
0o5644 TS
0o5645 SM
0o5650 NN
0o5651 BA
0o5652 RB
0o5654 NA
0o5655 WA
0o5656 WF
0o5660 TX
0o5661 DS
0o5664 CP
0o5665 HA
0o5670 LN
0o5671 BS
0o5672 RF
0o5674 LA
0o5675 WD
0o5701 FBA
0o5705 FBD
0o5710 CC
0o5711 FBS
0o5720 TN
0o5721 FDA
0o5725 FDD
0o5730 IT
0o5731 FDS
0o5741 DA
0o5742 RW
0o5744 TS
0o5745 SM
0o5750 NN
0o5751 BA
0o5752 RB
0o5754 NA
0o5755 WA
0o5756 WF
0o5760 TX
0o5761 DS
0o5764 CP
0o5765 HA
0o5770 LN
0o5771 BS
0o5772 RF
0o5774 LA
0o5775 WD
0o6000 MPC
0o6002 SPS
0o6003 DT
0o6006 SWS
0o6012 SPE
0o6013 BT
0o6014 FNN
0o6016 SWE
0o6026 SSL
0o6041 DA
0o6042 RW
0o6044 TS
0o6045 SM
0o6050 NN
0o6051 BA
0o6052 RB
0o6054 NA
0o6055 WA
0o6056 WF
0o6060 TX
0o6061 DS
0o6064 CP
0o6065 HA
0o6070 LN
0o6071 BS
0o6072 RF
0o6074 LA
0o6075 WD
0o6100 MPC
0o6102 SPS
0o6103 DT
0o6106 SWS
0o6112 SPE
0o6113 BT
0o6114 FNN
0o6116 SWE
0o6126 SSL
0o6141 DA
0o6142 RW
0o6144 TS
0o6145 SM
0o6150 NN
0o6151 BA
0o6152 RB
0o6154 NA
0o6155 WA
0o6156 WF
0o6160 TX
0o6161 DS
0o6164 CP
0o6165 HA
0o6170 LN
0o6171 BS
0o6172 RF
0o6174 LA
0o6175 WD
0o6200 MPC
0o6202 SPS
0o6203 DT
0o6206 SWS
0o6212 SPE
0o6213 BT
0o6214 FNN
0o6216 SWE
0o6226 SSL
0o6241 DA
0o6242 RW
0o6244 TS
0o6245 SM
0o6250 NN
0o6251 BA
0o6252 RB
0o6254 NA
0o6255 WA
0o6256 WF
0o6260 TX
0o6261 DS
0o6264 CP
0o6265 HA
0o6270 LN
0o6271 BS
0o6272 RF
0o6274 LA
0o6275 WD
0o6300 MPC
0o6302 SPS
0o6303 DT
0o6306 SWS
0o6312 SPE
0o6313 BT
0o6314 FNN
0o6316 SWE
0o6326 SSL
0o6341 DA
0o6342 RW
0o6344 TS
0o6345 SM
0o6350 NN
0o6351 BA
0o6352 RB
0o6354 NA
0o6355 WA
0o6356 WF
0o6360 TX
0o6361 DS
0o6364 CP
0o6365 HA
0o6370 LN
0o6371 BS
0o6372 RF
0o6374 LA
0o6375 WD
0o6400 MPC
0o6402 SPS
0o6403 DT
0o6406 SWS
0o6412 SPE
0o6413 BT
0o6414 FNN
0o6416 SWE
0o6426 SSL
0o6441 DA
0o6442 RW
0o6444 TS
0o6445 SM
0o6450 NN
0o6451 BA
0o6452 RB
0o6454 NA
0o6455 WA
0o6456 WF
0o6460 TX
0o6461 DS
0o6464 CP
0o6465 HA
0o6470 LN
0o6471 BS
0o6472 RF
0o6474 LA
0o6475 WD
0o6500 MPC
0o6502 SPS
0o6503 DT
0o6506 SWS
0o6512 SPE
0o6513 BT
0o6514 FNN
0o6516 SWE
0o6526 SSL
0o6541 DA
0o6542 RW
0o6544 TS
0o6545 SM
0o6550 NN
0o6551 BA
0o6552 RB
0o6554 NA
0o6555 WA
0o6556 WF
0o6560 TX
0o6561 DS
0o6564 CP
0o6565 HA
0o6570 LN
0o6571 BS
0o6572 RF
0o6574 LA
0o6575 WD
0o6600 MPC
0o6602 SPS
0o6603 DT
0o6606 SWS
0o6612 SPE
0o6613 BT
0o6614 FNN
0o6616 SWE
0o6626 SSL
0o6641 DA
0o6642 RW
0o6644 TS
0o6645 SM
0o6650 NN
0o6651 BA
0o6652 RB
0o6654 NA
0o6655 WA
0o6656 WF
0o6660 TX
0o6661 DS
0o6664 CP
0o6665 HA
0o6670 LN
0o6671 BS
0o6672 RF
0o6674 LA
0o6675 WD
0o6700 MPC
0o6702 SPS
0o6703 DT
0o6706 SWS
0o6712 SPE
0o6713 BT
0o6714 FNN
0o6716 SWE
0o6726 SSL
0o6741 DA
0o6742 RW
0o6744 TS
0o6745 SM
0o6750 NN
0o6751 BA
0o6752 RB
0o6754 NA
0o6755 WA
0o6756 WF
0o6760 TX
0o6761 DS
0o6764 CP
0o6765 HA
0o6770 LN
0o6771 BS
0o6772 RF
0o6774 LA
0o6775 WD
0o7001 FBAU
0o7005 FBM
0o7011 FBSU
0o7013 EBA
0o7015 ULD
0o7021 FDAU
0o7025 FDM
0o7030 RT
0o7031 FDSU
0o7033 EBS
0o7041 DA
0o7042 RW
0o7044 TS
0o7045 SM
0o7050 NN
0o7051 BA
0o7052 RB
0o7054 NA
0o7055 WA
0o7056 WF
0o7060 TX
0o7061 DS
0o7064 CP
0o7065 HA
0o7070 LN
0o7071 BS
0o7072 RF
0o7074 LA
0o7075 WD
0o7101 FBAU
0o7105 FBM
0o7111 FBSU
0o7113 EBA
0o7115 ULD
0o7121 FDAU
0o7125 FDM
0o7130 RT
0o7131 FDSU
0o7133 EBS
0o7141 DA
0o7142 RW
0o7144 TS
0o7145 SM
0o7150 NN
0o7151 BA
0o7152 RB
0o7154 NA
0o7155 WA
0o7156 WF
0o7160 TX
0o7161 DS
0o7164 CP
0o7165 HA
0o7170 LN
0o7171 BS
0o7172 RF
0o7174 LA
0o7175 WD
0o7201 FBAU
0o7205 FBM
0o7211 FBSU
0o7213 EBA
0o7215 ULD
0o7221 FDAU
0o7225 FDM
0o7230 RT
0o7231 FDSU
0o7233 EBS
0o7241 DA
0o7242 RW
0o7244 TS
0o7245 SM
0o7250 NN
0o7251 BA
0o7252 RB
0o7254 NA
0o7255 WA
0o7256 WF
0o7260 TX
0o7261 DS
0o7264 CP
0o7265 HA
0o7270 LN
0o7271 BS
0o7272 RF
0o7274 LA
0o7275 WD
0o7301 FBAU
0o7305 FBM
0o7311 FBSU
0o7313 EBA
0o7315 ULD
0o7321 FDAU
0o7325 FDM
0o7330 RT
0o7331 FDSU
0o7333 EBS
0o7341 DA
0o7342 RW
0o7344 TS
0o7345 SM
0o7350 NN
0o7351 BA
0o7352 RB
0o7354 NA
0o7355 WA
0o7356 WF
0o7360 TX
0o7361 DS
0o7364 CP
0o7365 HA
0o7370 LN
0o7371 BS
0o7372 RF
0o7374 LA
0o7375 WD
0o7401 FBAU
0o7405 FBM
0o7411 FBSU
0o7413 EBA
0o7415 ULD
0o7421 FDAU
0o7425 FDM
0o7430 RT
0o7431 FDSU
0o7433 EBS
0o7441 DA
0o7442 RW
0o7444 TS
0o7445 SM
0o7450 NN
0o7451 BA
0o7452 RB
0o7454 NA
0o7455 WA
0o7456 WF
0o7460 TX
0o7461 DS
0o7464 CP
0o7465 HA
0o7470 LN
0o7471 BS
0o7472 RF
0o7474 LA
0o7475 WD
0o7501 FBAU
0o7505 FBM
0o7511 FBSU
0o7513 EBA
0o7515 ULD
0o7521 FDAU
0o7525 FDM
0o7530 RT
0o7531 FDSU
0o7533 EBS
0o7541 DA
0o7542 RW
0o7544 TS
0o7545 SM
0o7550 NN
0o7551 BA
0o7552 RB
0o7554 NA
0o7555 WA
0o7556 WF
0o7560 TX
0o7561 DS
0o7564 CP
0o7565 HA
0o7570 LN
0o7571 BS
0o7572 RF
0o7574 LA
0o7575 WD
0o7601 FBAU
0o7605 FBM
0o7611 FBSU
0o7613 EBA
0o7615 ULD
0o7621 FDAU
0o7625 FDM
0o7630 RT
0o7631 FDSU
0o7633 EBS
0o7641 DA
0o7642 RW
0o7644 TS
0o7645 SM
0o7650 NN
0o7651 BA
0o7652 RB
0o7654 NA
0o7655 WA
0o7656 WF
0o7660 TX
0o7661 DS
0o7664 CP
0o7665 HA
0o7670 LN
0o7671 BS
0o7672 RF
0o7674 LA
0o7675 WD
0o7701 FBAU
0o7705 FBM
0o7711 FBSU
0o7713 EBA
0o7715 ULD
0o7721 FDAU
0o7725 FDM
0o7730 RT
0o7731 FDSU
0o7733 EBS
0o7741 DA
0o7742 RW
0o7744 TS
0o7745 SM
0o7750 NN
0o7751 BA
0o7752 RB
0o7754 NA
0o7755 WA
0o7756 WF
0o7760 TX
0o7761 DS
0o7764 CP
0o7765 HA
0o7770 LN
0o7771 BS
0o7772 RF
0o7774 LA
0o7775 WD
".

(** [k] is one of the command codes of mnemonic [m] *)
Definition produces (m : str) (k : Z) : Prop :=
  exists o, In (m, o) OPCODES /\
    (type_is o "maskable" /\ (exists s x, is_bit s /\ 0 <= x <= 31 /\ make_masked_opcode m s x = Ok k) \/
     type_is o "unmasked" /\ (exists s a b c, is_bit s /\ is_bit a /\ is_bit b /\ is_bit c /\
                                make_unmasked_opcode m s a b c = Ok k) \/
     type_is o "peripheral" /\ (exists p, 0 <= p <= 63 /\ make_peripheral_opcode m p = Ok k) \/
     type_is o "print" /\ m = lit "PRD" /\
        (exists s a b c, is_bit s /\ is_bit a /\ is_bit b /\ is_bit c /\ make_print_opcode m s a b c = Ok k) \/
     type_is o "simulator" /\ (exists s, is_bit s /\ k = 7 + 2048 * s)).

(** a line of the listing *)
Definition line (e : Z * str) : str := lit "0o" ++ fmt_04o (fst e) ++ lit " " ++ snd e ++ [10].
