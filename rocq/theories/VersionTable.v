(* Generated by transcription from /repo/version_cfg.go:11-3532 (variable `versions`): one row per
   literal, in the order of the file.  Fields: Ver, ECLevel, Cap{Numeric,AlphaNumeric,Byte,JP},
   RemainderBits, Groups{NumBlocks,NumDataCodewords,ECBlockwordsPerBlock}. *)
From Coq Require Import ZArith List.
Import ListNotations.
Open Scope Z_scope.

(* /repo/version.go:93-98 type capacity *)
Record capacity := mkCap { capNumeric : Z; capAlphaNumeric : Z; capByte : Z; capJP : Z }.
(* /repo/version.go:102-111 type group *)
Record group := mkGroup { NumBlocks : Z; NumDataCodewords : Z; ECBlockwordsPerBlock : Z }.
(* /repo/version.go:114-132 type version *)
Record version := mkVersion { Ver : Z; ECLevel : Z; Cap : capacity; RemainderBits : Z; Groups : list group }.

(* /repo/version_cfg.go:11 var versions *)
Definition versions : list version := [
  mkVersion 1 1 (mkCap 41 25 17 10) 0 [mkGroup 1 19 7];
  mkVersion 1 2 (mkCap 34 20 14 8) 0 [mkGroup 1 16 10];
  mkVersion 1 3 (mkCap 27 16 11 7) 0 [mkGroup 1 13 13];
  mkVersion 1 4 (mkCap 17 10 7 4) 0 [mkGroup 1 9 17];
  mkVersion 2 1 (mkCap 77 47 32 20) 7 [mkGroup 1 34 10];
  mkVersion 2 2 (mkCap 63 38 26 16) 7 [mkGroup 1 28 16];
  mkVersion 2 3 (mkCap 48 29 20 12) 7 [mkGroup 1 22 22];
  mkVersion 2 4 (mkCap 34 20 14 8) 7 [mkGroup 1 16 28];
  mkVersion 3 1 (mkCap 127 77 53 32) 7 [mkGroup 1 55 15];
  mkVersion 3 2 (mkCap 101 61 42 26) 7 [mkGroup 1 44 26];
  mkVersion 3 3 (mkCap 77 47 32 20) 7 [mkGroup 2 17 18];
  mkVersion 3 4 (mkCap 58 35 24 15) 7 [mkGroup 2 13 22];
  mkVersion 4 1 (mkCap 187 114 78 48) 7 [mkGroup 1 80 20];
  mkVersion 4 2 (mkCap 149 90 62 38) 7 [mkGroup 2 32 18];
  mkVersion 4 3 (mkCap 111 67 46 28) 7 [mkGroup 2 24 26];
  mkVersion 4 4 (mkCap 82 50 34 21) 7 [mkGroup 4 9 16];
  mkVersion 5 1 (mkCap 255 154 106 65) 7 [mkGroup 1 108 26];
  mkVersion 5 2 (mkCap 202 122 84 52) 7 [mkGroup 2 43 24];
  mkVersion 5 3 (mkCap 144 87 60 37) 7 [mkGroup 2 15 18; mkGroup 2 16 18];
  mkVersion 5 4 (mkCap 106 64 44 27) 7 [mkGroup 2 11 22; mkGroup 2 12 22];
  mkVersion 6 1 (mkCap 322 195 134 82) 7 [mkGroup 2 68 18];
  mkVersion 6 2 (mkCap 255 154 106 65) 7 [mkGroup 4 27 16];
  mkVersion 6 3 (mkCap 178 108 74 45) 7 [mkGroup 4 19 24];
  mkVersion 6 4 (mkCap 139 84 58 36) 7 [mkGroup 4 15 28];
  mkVersion 7 1 (mkCap 370 224 154 95) 0 [mkGroup 2 78 20];
  mkVersion 7 2 (mkCap 293 178 122 75) 0 [mkGroup 4 31 18];
  mkVersion 7 3 (mkCap 207 125 86 53) 0 [mkGroup 2 14 18; mkGroup 4 15 18];
  mkVersion 7 4 (mkCap 154 93 64 39) 0 [mkGroup 4 13 26; mkGroup 1 14 26];
  mkVersion 8 1 (mkCap 461 279 192 118) 0 [mkGroup 2 97 24];
  mkVersion 8 2 (mkCap 365 221 152 93) 0 [mkGroup 2 38 22; mkGroup 2 39 22];
  mkVersion 8 3 (mkCap 259 157 108 66) 0 [mkGroup 4 18 22; mkGroup 2 19 22];
  mkVersion 8 4 (mkCap 202 122 84 52) 0 [mkGroup 4 14 26; mkGroup 2 15 26];
  mkVersion 9 1 (mkCap 552 335 230 141) 0 [mkGroup 2 116 30];
  mkVersion 9 2 (mkCap 432 262 180 111) 0 [mkGroup 3 36 22; mkGroup 2 37 22];
  mkVersion 9 3 (mkCap 312 189 130 80) 0 [mkGroup 4 16 20; mkGroup 4 17 20];
  mkVersion 9 4 (mkCap 235 143 98 60) 0 [mkGroup 4 12 24; mkGroup 4 13 24];
  mkVersion 10 1 (mkCap 652 395 271 167) 0 [mkGroup 2 68 18; mkGroup 2 69 18];
  mkVersion 10 2 (mkCap 513 311 213 131) 0 [mkGroup 4 43 26; mkGroup 1 44 26];
  mkVersion 10 3 (mkCap 364 221 151 93) 0 [mkGroup 6 19 24; mkGroup 2 20 24];
  mkVersion 10 4 (mkCap 288 174 119 74) 0 [mkGroup 6 15 28; mkGroup 2 16 28];
  mkVersion 11 1 (mkCap 772 468 321 198) 0 [mkGroup 4 81 20];
  mkVersion 11 2 (mkCap 604 366 251 155) 0 [mkGroup 1 50 30; mkGroup 4 51 30];
  mkVersion 11 3 (mkCap 427 259 177 109) 0 [mkGroup 4 22 28; mkGroup 4 23 28];
  mkVersion 11 4 (mkCap 331 200 137 85) 0 [mkGroup 3 12 24; mkGroup 8 13 24];
  mkVersion 12 1 (mkCap 883 535 367 226) 0 [mkGroup 2 92 24; mkGroup 2 93 24];
  mkVersion 12 2 (mkCap 691 419 287 177) 0 [mkGroup 6 36 22; mkGroup 2 37 22];
  mkVersion 12 3 (mkCap 489 296 203 125) 0 [mkGroup 4 20 26; mkGroup 6 21 26];
  mkVersion 12 4 (mkCap 374 227 155 96) 0 [mkGroup 7 14 28; mkGroup 4 15 28];
  mkVersion 13 1 (mkCap 1022 619 425 262) 0 [mkGroup 4 107 26];
  mkVersion 13 2 (mkCap 796 483 331 204) 0 [mkGroup 8 37 22; mkGroup 1 38 22];
  mkVersion 13 3 (mkCap 580 352 241 149) 0 [mkGroup 8 20 24; mkGroup 4 21 24];
  mkVersion 13 4 (mkCap 427 259 177 109) 0 [mkGroup 12 11 22; mkGroup 4 12 22];
  mkVersion 14 1 (mkCap 1101 667 458 282) 3 [mkGroup 3 115 30; mkGroup 1 116 30];
  mkVersion 14 2 (mkCap 871 528 362 223) 3 [mkGroup 4 40 24; mkGroup 5 41 24];
  mkVersion 14 3 (mkCap 621 376 258 159) 3 [mkGroup 11 16 20; mkGroup 5 17 20];
  mkVersion 14 4 (mkCap 468 283 194 120) 3 [mkGroup 11 12 24; mkGroup 5 13 24];
  mkVersion 15 1 (mkCap 1250 758 520 320) 3 [mkGroup 5 87 22; mkGroup 1 88 22];
  mkVersion 15 2 (mkCap 991 600 412 254) 3 [mkGroup 5 41 24; mkGroup 5 42 24];
  mkVersion 15 3 (mkCap 703 426 292 180) 3 [mkGroup 5 24 30; mkGroup 7 25 30];
  mkVersion 15 4 (mkCap 530 321 220 136) 3 [mkGroup 11 12 24; mkGroup 7 13 24];
  mkVersion 16 1 (mkCap 1408 854 586 361) 3 [mkGroup 5 98 24; mkGroup 1 99 24];
  mkVersion 16 2 (mkCap 1082 656 450 277) 3 [mkGroup 7 45 28; mkGroup 3 46 28];
  mkVersion 16 3 (mkCap 775 470 322 198) 3 [mkGroup 15 19 24; mkGroup 2 20 24];
  mkVersion 16 4 (mkCap 602 365 250 154) 3 [mkGroup 3 15 30; mkGroup 13 16 30];
  mkVersion 17 1 (mkCap 1548 938 644 397) 3 [mkGroup 1 107 28; mkGroup 5 108 28];
  mkVersion 17 2 (mkCap 1212 734 504 310) 3 [mkGroup 10 46 28; mkGroup 1 47 28];
  mkVersion 17 3 (mkCap 876 531 364 224) 3 [mkGroup 1 22 28; mkGroup 15 23 28];
  mkVersion 17 4 (mkCap 674 408 280 173) 3 [mkGroup 2 14 28; mkGroup 17 15 28];
  mkVersion 18 1 (mkCap 1725 1046 718 442) 3 [mkGroup 5 120 30; mkGroup 1 121 30];
  mkVersion 18 2 (mkCap 1346 816 560 345) 3 [mkGroup 9 43 26; mkGroup 4 44 26];
  mkVersion 18 3 (mkCap 948 574 394 243) 3 [mkGroup 17 22 28; mkGroup 1 23 28];
  mkVersion 18 4 (mkCap 746 452 310 191) 3 [mkGroup 2 14 28; mkGroup 19 15 28];
  mkVersion 19 1 (mkCap 1903 1153 792 488) 3 [mkGroup 3 113 28; mkGroup 4 114 28];
  mkVersion 19 2 (mkCap 1500 909 624 384) 3 [mkGroup 3 44 26; mkGroup 11 45 26];
  mkVersion 19 3 (mkCap 1063 644 442 272) 3 [mkGroup 17 21 26; mkGroup 4 22 26];
  mkVersion 19 4 (mkCap 813 493 338 208) 3 [mkGroup 9 13 26; mkGroup 16 14 26];
  mkVersion 20 1 (mkCap 2061 1249 858 528) 3 [mkGroup 3 107 28; mkGroup 5 108 28];
  mkVersion 20 2 (mkCap 1600 970 666 410) 3 [mkGroup 3 41 26; mkGroup 13 42 26];
  mkVersion 20 3 (mkCap 1159 702 482 297) 3 [mkGroup 15 24 30; mkGroup 5 25 30];
  mkVersion 20 4 (mkCap 919 557 382 235) 3 [mkGroup 15 15 28; mkGroup 10 16 28];
  mkVersion 21 1 (mkCap 2232 1352 929 572) 4 [mkGroup 4 116 28; mkGroup 4 117 28];
  mkVersion 21 2 (mkCap 1708 1035 711 438) 4 [mkGroup 17 42 26];
  mkVersion 21 3 (mkCap 1224 742 509 314) 4 [mkGroup 17 22 28; mkGroup 6 23 28];
  mkVersion 21 4 (mkCap 969 587 403 248) 4 [mkGroup 19 16 30; mkGroup 6 17 30];
  mkVersion 22 1 (mkCap 2409 1460 1003 618) 4 [mkGroup 2 111 28; mkGroup 7 112 28];
  mkVersion 22 2 (mkCap 1872 1134 779 480) 4 [mkGroup 17 46 28];
  mkVersion 22 3 (mkCap 1358 823 565 348) 4 [mkGroup 7 24 30; mkGroup 16 25 30];
  mkVersion 22 4 (mkCap 1056 640 439 270) 4 [mkGroup 34 13 24];
  mkVersion 23 1 (mkCap 2620 1588 1091 672) 4 [mkGroup 4 121 30; mkGroup 5 122 30];
  mkVersion 23 2 (mkCap 2059 1248 857 528) 4 [mkGroup 4 47 28; mkGroup 14 48 28];
  mkVersion 23 3 (mkCap 1468 890 611 376) 4 [mkGroup 11 24 30; mkGroup 14 25 30];
  mkVersion 23 4 (mkCap 1108 672 461 284) 4 [mkGroup 16 15 30; mkGroup 14 16 30];
  mkVersion 24 1 (mkCap 2812 1704 1171 721) 4 [mkGroup 6 117 30; mkGroup 4 118 30];
  mkVersion 24 2 (mkCap 2188 1326 911 561) 4 [mkGroup 6 45 28; mkGroup 14 46 28];
  mkVersion 24 3 (mkCap 1588 963 661 407) 4 [mkGroup 11 24 30; mkGroup 16 25 30];
  mkVersion 24 4 (mkCap 1228 744 511 315) 4 [mkGroup 30 16 30; mkGroup 2 17 30];
  mkVersion 25 1 (mkCap 3057 1853 1273 784) 4 [mkGroup 8 106 26; mkGroup 4 107 26];
  mkVersion 25 2 (mkCap 2395 1451 997 614) 4 [mkGroup 8 47 28; mkGroup 13 48 28];
  mkVersion 25 3 (mkCap 1718 1041 715 440) 4 [mkGroup 7 24 30; mkGroup 22 25 30];
  mkVersion 25 4 (mkCap 1286 779 535 330) 4 [mkGroup 22 15 30; mkGroup 13 16 30];
  mkVersion 26 1 (mkCap 3283 1990 1367 842) 4 [mkGroup 10 114 28; mkGroup 2 115 28];
  mkVersion 26 2 (mkCap 2544 1542 1059 652) 4 [mkGroup 19 46 28; mkGroup 4 47 28];
  mkVersion 26 3 (mkCap 1804 1094 751 462) 4 [mkGroup 28 22 28; mkGroup 6 23 28];
  mkVersion 26 4 (mkCap 1425 864 593 365) 4 [mkGroup 33 16 30; mkGroup 4 17 30];
  mkVersion 27 1 (mkCap 3517 2132 1465 902) 4 [mkGroup 8 122 30; mkGroup 4 123 30];
  mkVersion 27 2 (mkCap 2701 1637 1125 692) 4 [mkGroup 22 45 28; mkGroup 3 46 28];
  mkVersion 27 3 (mkCap 1933 1172 805 496) 4 [mkGroup 8 23 30; mkGroup 26 24 30];
  mkVersion 27 4 (mkCap 1501 910 625 385) 4 [mkGroup 12 15 30; mkGroup 28 16 30];
  mkVersion 28 1 (mkCap 3669 2223 1528 940) 3 [mkGroup 3 117 30; mkGroup 10 118 30];
  mkVersion 28 2 (mkCap 2857 1732 1190 732) 3 [mkGroup 3 45 28; mkGroup 23 46 28];
  mkVersion 28 3 (mkCap 2085 1263 868 534) 3 [mkGroup 4 24 30; mkGroup 31 25 30];
  mkVersion 28 4 (mkCap 1581 958 658 405) 3 [mkGroup 11 15 30; mkGroup 31 16 30];
  mkVersion 29 1 (mkCap 3909 2369 1628 1002) 3 [mkGroup 7 116 30; mkGroup 7 117 30];
  mkVersion 29 2 (mkCap 3035 1839 1264 778) 3 [mkGroup 21 45 28; mkGroup 7 46 28];
  mkVersion 29 3 (mkCap 2181 1322 908 559) 3 [mkGroup 1 23 30; mkGroup 37 24 30];
  mkVersion 29 4 (mkCap 1677 1016 698 430) 3 [mkGroup 19 15 30; mkGroup 26 16 30];
  mkVersion 30 1 (mkCap 4158 2520 1732 1066) 3 [mkGroup 5 115 30; mkGroup 10 116 30];
  mkVersion 30 2 (mkCap 3289 1994 1370 843) 3 [mkGroup 19 47 28; mkGroup 10 48 28];
  mkVersion 30 3 (mkCap 2358 1429 982 604) 3 [mkGroup 15 24 30; mkGroup 25 25 30];
  mkVersion 30 4 (mkCap 1782 1080 742 457) 3 [mkGroup 23 15 30; mkGroup 25 16 30];
  mkVersion 31 1 (mkCap 4417 2677 1840 1132) 3 [mkGroup 13 115 30; mkGroup 3 116 30];
  mkVersion 31 2 (mkCap 3486 2113 1452 894) 3 [mkGroup 2 46 28; mkGroup 29 47 28];
  mkVersion 31 3 (mkCap 2473 1499 1030 634) 3 [mkGroup 42 24 30; mkGroup 1 25 30];
  mkVersion 31 4 (mkCap 1897 1150 790 486) 3 [mkGroup 23 15 30; mkGroup 28 16 30];
  mkVersion 32 1 (mkCap 4686 2840 1952 1201) 3 [mkGroup 17 115 30];
  mkVersion 32 2 (mkCap 3693 2238 1538 947) 3 [mkGroup 10 46 28; mkGroup 23 47 28];
  mkVersion 32 3 (mkCap 2670 1618 1112 684) 3 [mkGroup 10 24 30; mkGroup 35 25 30];
  mkVersion 32 4 (mkCap 2022 1226 842 518) 3 [mkGroup 19 15 30; mkGroup 35 16 30];
  mkVersion 33 1 (mkCap 4965 3009 2068 1273) 3 [mkGroup 17 115 30; mkGroup 1 116 30];
  mkVersion 33 2 (mkCap 3909 2369 1628 1002) 3 [mkGroup 14 46 28; mkGroup 21 47 28];
  mkVersion 33 3 (mkCap 2805 1700 1168 719) 3 [mkGroup 29 24 30; mkGroup 19 25 30];
  mkVersion 33 4 (mkCap 2157 1307 898 553) 3 [mkGroup 11 15 30; mkGroup 46 16 30];
  mkVersion 34 1 (mkCap 5253 3183 2188 1347) 3 [mkGroup 13 115 30; mkGroup 6 116 30];
  mkVersion 34 2 (mkCap 4134 2506 1722 1060) 3 [mkGroup 14 46 28; mkGroup 23 47 28];
  mkVersion 34 3 (mkCap 2949 1787 1228 756) 3 [mkGroup 44 24 30; mkGroup 7 25 30];
  mkVersion 34 4 (mkCap 2301 1394 958 590) 3 [mkGroup 59 16 30; mkGroup 1 17 30];
  mkVersion 35 1 (mkCap 5529 3351 2303 1417) 0 [mkGroup 12 121 30; mkGroup 7 122 30];
  mkVersion 35 2 (mkCap 4343 2632 1809 1113) 0 [mkGroup 12 47 28; mkGroup 26 48 28];
  mkVersion 35 3 (mkCap 3081 1867 1283 790) 0 [mkGroup 39 24 30; mkGroup 14 25 30];
  mkVersion 35 4 (mkCap 2361 1431 983 605) 0 [mkGroup 22 15 30; mkGroup 41 16 30];
  mkVersion 36 1 (mkCap 5836 3537 2431 1496) 0 [mkGroup 6 121 30; mkGroup 14 122 30];
  mkVersion 36 2 (mkCap 4588 2780 1911 1176) 0 [mkGroup 6 47 28; mkGroup 34 48 28];
  mkVersion 36 3 (mkCap 3244 1966 1351 832) 0 [mkGroup 46 24 30; mkGroup 10 25 30];
  mkVersion 36 4 (mkCap 2524 1530 1051 647) 0 [mkGroup 2 15 30; mkGroup 64 16 30];
  mkVersion 37 1 (mkCap 6153 3729 2563 1577) 0 [mkGroup 17 122 30; mkGroup 4 123 30];
  mkVersion 37 2 (mkCap 4775 2894 1989 1224) 0 [mkGroup 29 46 28; mkGroup 14 47 28];
  mkVersion 37 3 (mkCap 3417 2071 1423 876) 0 [mkGroup 49 24 30; mkGroup 10 25 30];
  mkVersion 37 4 (mkCap 2625 1591 1093 673) 0 [mkGroup 24 15 30; mkGroup 46 16 30];
  mkVersion 38 1 (mkCap 6479 3927 2699 1661) 0 [mkGroup 4 122 30; mkGroup 18 123 30];
  mkVersion 38 2 (mkCap 5039 3054 2099 1292) 0 [mkGroup 13 46 28; mkGroup 32 47 28];
  mkVersion 38 3 (mkCap 3599 2181 1499 923) 0 [mkGroup 48 24 30; mkGroup 14 25 30];
  mkVersion 38 4 (mkCap 2735 1658 1139 701) 0 [mkGroup 42 15 30; mkGroup 32 16 30];
  mkVersion 39 1 (mkCap 6743 4087 2809 1729) 0 [mkGroup 20 117 30; mkGroup 4 118 30];
  mkVersion 39 2 (mkCap 5313 3220 2213 1362) 0 [mkGroup 40 47 28; mkGroup 7 48 28];
  mkVersion 39 3 (mkCap 3791 2298 1579 972) 0 [mkGroup 43 24 30; mkGroup 22 25 30];
  mkVersion 39 4 (mkCap 2927 1774 1219 750) 0 [mkGroup 10 15 30; mkGroup 67 16 30];
  mkVersion 40 1 (mkCap 7089 4296 2953 1817) 0 [mkGroup 19 118 30; mkGroup 6 119 30];
  mkVersion 40 2 (mkCap 5596 3391 2331 1435) 0 [mkGroup 18 47 28; mkGroup 31 48 28];
  mkVersion 40 3 (mkCap 3993 2420 1663 1024) 0 [mkGroup 34 24 30; mkGroup 34 25 30];
  mkVersion 40 4 (mkCap 3057 1852 1273 784) 0 [mkGroup 20 15 30; mkGroup 61 16 30]
].

(* /repo/version_cfg.go:4 *)
Definition VERSION_COUNT : Z := 40.
(* /repo/version_cfg.go:5 *)
Definition VERSIONS_ITEM_COUNT : Z := 160.
