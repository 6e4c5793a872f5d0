(** The CSV files named by the default configuration, as pd.read_csv returns them.  Generated by tools/gen_data.py
    from /repo/mimosa/inputdata (decimal text is read as the exact number; a column is text if a cell of it is
    not a number; an empty cell is nan; an empty column name is what pandas calls it). *)
From Verif Require Import PyBase DataStore.
From Coq Require Import QArith.
Import ListNotations.
Open Scope string_scope.
Open Scope list_scope.

Definition num (n : Z) (d : positive) : pyval := VFloat (FFin (n # d)).
Definition txt (x : string) : pyval := VStr x.
Definition na : pyval := VFloat FNaN.

(** inputdata/regionalparams/economics.csv *)
Definition economics : table := {|
  t_columns := ["region"; "init_capital_factor"];
  t_rows := [
    [txt "CAN"; num 1992 1000];
    [txt "USA"; num 2035 1000];
    [txt "MEX"; num 1893 1000];
    [txt "RCAM"; num 1041 1000];
    [txt "BRA"; num 1973 1000];
    [txt "RSAM"; num 2005 1000];
    [txt "NAF"; num 1798 1000];
    [txt "WAF"; num 1416 1000];
    [txt "EAF"; num 166 100];
    [txt "SAF"; num 2054 1000];
    [txt "WEU"; num 1942 1000];
    [txt "CEU"; num 1665 1000];
    [txt "TUR"; num 1533 1000];
    [txt "UKR"; num 2095 1000];
    [txt "STAN"; num 1281 1000];
    [txt "RUS"; num 1509 1000];
    [txt "ME"; num 2026 1000];
    [txt "INDIA"; num 1859 1000];
    [txt "KOR"; num 2434 1000];
    [txt "CHN"; num 2175 1000];
    [txt "SEAS"; num 2376 1000];
    [txt "INDO"; num 1714 1000];
    [txt "JAP"; num 2627 1000];
    [txt "OCE"; num 2176 1000];
    [txt "RSAS"; num 1745 1000];
    [txt "RSAF"; num 2317 1000]] |}.

(** inputdata/regionalparams/mac.csv *)
Definition mac : table := {|
  t_columns := ["region"; "kappa_carbonprice_1000_2030"; "kappa_carbonprice_1000_2050"; "kappa_carbonprice_1000_2070"; "kappa_carbonprice_1000_2100"; "kappa_carbonprice_2000_2030"; "kappa_carbonprice_2000_2050"; "kappa_carbonprice_2000_2070"; "kappa_carbonprice_2000_2100"; "kappa_carbonprice_200_2030"; "kappa_carbonprice_200_2050"; "kappa_carbonprice_200_2070"; "kappa_carbonprice_200_2100"; "kappa_carbonprice_300_2030"; "kappa_carbonprice_300_2050"; "kappa_carbonprice_300_2070"; "kappa_carbonprice_300_2100"; "kappa_carbonprice_4000_2030"; "kappa_carbonprice_4000_2050"; "kappa_carbonprice_4000_2070"; "kappa_carbonprice_4000_2100"; "kappa_carbonprice_500_2030"; "kappa_carbonprice_500_2050"; "kappa_carbonprice_500_2070"; "kappa_carbonprice_500_2100"; "kappa_rel_abatement_0.25_2030"; "kappa_rel_abatement_0.25_2050"; "kappa_rel_abatement_0.25_2070"; "kappa_rel_abatement_0.25_2100"; "kappa_rel_abatement_0.4_2030"; "kappa_rel_abatement_0.4_2050"; "kappa_rel_abatement_0.4_2070"; "kappa_rel_abatement_0.4_2100"; "kappa_rel_abatement_0.5_2050"; "kappa_rel_abatement_0.5_2070"; "kappa_rel_abatement_0.5_2100"; "kappa_rel_abatement_0.75_2050"; "kappa_rel_abatement_0.75_2070"; "kappa_rel_abatement_0.75_2100"];
  t_rows := [
    [txt "BRA"; num 326 1000; num 352 1000; num 4 10; num 179 1000; num 315 1000; num 364 1000; num 359 1000; num 161 1000; num 196 1000; num 177 1000; num 202 1000; num 14 100; num 196 1000; num 234 1000; num 244 1000; num 16 100; num 366 1000; num 378 1000; num 382 1000; num 171 1000; num 287 1000; num 348 1000; num 348 1000; num 219 1000; num 331 1000; num 733 1000; num 1225 1000; num 565 1000; num 195 1000; num 331 1000; num 468 1000; num 167 1000; num 333 1000; num 361 1000; num 156 1000; num 312 1000; num 355 1000; num 252 1000];
    [txt "CAN"; num 914 1000; num 956 1000; num 821 1000; num 1563 1000; num 813 1000; num 862 1000; num 813 1000; num 863 1000; num 691 1000; num 1611 1000; num 1368 1000; num 1232 1000; num 919 1000; num 1696 1000; num 1501 1000; num 1512 1000; num 81 100; num 913 1000; num 824 1000; num 884 1000; num 1054 1000; num 1428 1000; num 1455 1000; num 1895 1000; num 914 1000; num 1196 1000; num 804 1000; num 713 1000; num 979 1000; num 163 100; num 1435 1000; num 1278 1000; num 137 100; num 1261 1000; num 1417 1000; num 1297 1000; num 1328 1000; num 1815 1000];
    [txt "CEU"; num 1531 1000; num 1349 1000; num 1526 1000; num 1825 1000; num 1519 1000; num 1361 1000; num 1266 1000; num 1486 1000; num 222 100; num 1735 1000; num 1346 1000; num 1119 1000; num 195 100; num 1476 1000; num 1373 1000; num 1348 1000; num 1574 1000; num 1341 1000; num 1289 1000; num 986 1000; num 1736 1000; num 1276 1000; num 1434 1000; num 1584 1000; num 1572 1000; num 2142 1000; num 1266 1000; num 728 1000; num 3214 1000; num 1585 1000; num 1424 1000; num 1167 1000; num 1243 1000; num 118 100; num 1235 1000; num 1268 1000; num 1494 1000; num 1943 1000];
    [txt "CHN"; num 1299 1000; num 1068 1000; num 1115 1000; num 87 100; num 1346 1000; num 1153 1000; num 1219 1000; num 979 1000; num 1053 1000; num 845 1000; num 1244 1000; num 972 1000; num 1192 1000; num 848 1000; num 1057 1000; num 846 1000; num 1343 1000; num 1149 1000; num 1235 1000; num 1029 1000; num 1187 1000; num 866 1000; num 971 1000; num 856 1000; num 1141 1000; num 736 1000; num 792 1000; num 712 1000; num 2097 1000; num 717 1000; num 1263 1000; num 989 1000; num 908 1000; num 1047 1000; num 94 100; num 858 1000; num 1013 1000; num 898 1000];
    [txt "EAF"; num 305 1000; num 65 100; num 492 1000; num 638 1000; num 372 1000; num 642 1000; num 514 1000; num 652 1000; num 84 100; num 2143 1000; num 846 1000; num 785 1000; num 243 1000; num 132 100; num 747 1000; num 825 1000; num 392 1000; num 633 1000; num 506 1000; num 749 1000; num 215 1000; num 739 1000; num 485 1000; num 596 1000; num 686 1000; num 1209 1000; num 741 1000; num 682 1000; num 331 1000; num 1615 1000; num 711 1000; num 737 1000; num 1176 1000; num 894 1000; num 907 1000; num 921 1000; num 782 1000; num 815 1000];
    [txt "INDIA"; num 815 1000; num 1101 1000; num 1374 1000; num 1256 1000; num 868 1000; num 1168 1000; num 1424 1000; num 1507 1000; num 736 1000; num 971 1000; num 947 1000; num 883 1000; num 767 1000; num 994 1000; num 1012 1000; num 9 10; num 891 1000; num 1197 1000; num 1458 1000; num 1586 1000; num 748 1000; num 1014 1000; num 1157 1000; num 938 1000; num 848 1000; num 784 1000; num 757 1000; num 719 1000; num 648 1000; num 936 1000; num 884 1000; num 87 100; num 996 1000; num 988 1000; num 944 1000; num 10 10; num 1099 1000; num 94 100];
    [txt "INDO"; num 1193 1000; num 1082 1000; num 104 100; num 1382 1000; num 1217 1000; num 1108 1000; num 1016 1000; num 1018 1000; num 1315 1000; num 1123 1000; num 1706 1000; num 2085 1000; num 1158 1000; num 1033 1000; num 1481 1000; num 217 100; num 1183 1000; num 1176 1000; num 1095 1000; num 976 1000; num 1023 1000; num 1045 1000; num 1223 1000; num 2047 1000; num 1089 1000; num 1698 1000; num 2813 1000; num 3271 1000; num 1492 1000; num 1171 1000; num 15 10; num 1619 1000; num 1024 1000; num 122 100; num 1576 1000; num 1016 1000; num 1172 1000; num 1577 1000];
    [txt "JAP"; num 1551 1000; num 868 1000; num 829 1000; num 1078 1000; num 1668 1000; num 797 1000; num 927 1000; num 108 100; num 2034 1000; num 1045 1000; num 879 1000; num 1016 1000; num 2043 1000; num 1092 1000; num 911 1000; num 1063 1000; num 1679 1000; num 715 1000; num 796 1000; num 1198 1000; num 177 100; num 965 1000; num 747 1000; num 1155 1000; num 1607 1000; num 738 1000; num 73 100; num 728 1000; num 4634 1000; num 1012 1000; num 763 1000; num 1007 1000; num 1046 1000; num 963 1000; num 1037 1000; num 1014 1000; num 897 1000; num 1164 1000];
    [txt "KOR"; num 1501 1000; num 1089 1000; num 1386 1000; num 2247 1000; num 1657 1000; num 1049 1000; num 1189 1000; num 2095 1000; num 1328 1000; num 1075 1000; num 941 1000; num 1559 1000; num 1384 1000; num 1141 1000; num 1118 1000; num 1883 1000; num 1697 1000; num 985 1000; num 1155 1000; num 1752 1000; num 1392 1000; num 1201 1000; num 1408 1000; num 2517 1000; num 1272 1000; num 792 1000; num 709 1000; num 1861 1000; num 4769 1000; num 1054 1000; num 777 1000; num 1547 1000; num 1074 1000; num 1031 1000; num 1884 1000; num 1253 1000; num 1365 1000; num 2786 1000];
    [txt "ME"; num 1315 1000; num 138 100; num 1316 1000; num 862 1000; num 1219 1000; num 1288 1000; num 1401 1000; num 1063 1000; num 944 1000; num 201 100; num 2504 1000; num 2065 1000; num 1135 1000; num 1985 1000; num 209 100; num 1773 1000; num 1114 1000; num 1221 1000; num 1496 1000; num 1145 1000; num 1298 1000; num 1724 1000; num 1577 1000; num 1385 1000; num 1132 1000; num 256 100; num 3566 1000; num 3348 1000; num 1715 1000; num 1803 1000; num 1762 1000; num 1403 1000; num 1502 1000; num 143 100; num 129 100; num 1758 1000; num 1371 1000; num 1227 1000];
    [txt "MEX"; num 862 1000; num 642 1000; num 497 1000; num 621 1000; num 804 1000; num 596 1000; num 514 1000; num 462 1000; num 1035 1000; num 973 1000; num 735 1000; num 686 1000; num 1189 1000; num 916 1000; num 678 1000; num 635 1000; num 804 1000; num 621 1000; num 473 1000; num 468 1000; num 1028 1000; num 836 1000; num 587 1000; num 616 1000; num 1059 1000; num 778 1000; num 744 1000; num 706 1000; num 793 1000; num 885 1000; num 668 1000; num 705 1000; num 982 1000; num 776 1000; num 772 1000; num 884 1000; num 78 100; num 742 1000];
    [txt "NAF"; num 1225 1000; num 1821 1000; num 1661 1000; num 1415 1000; num 1216 1000; num 1582 1000; num 1667 1000; num 171 100; num 1555 1000; num 3456 1000; num 2352 1000; num 146 100; num 1692 1000; num 3354 1000; num 2245 1000; num 1443 1000; num 1131 1000; num 1447 1000; num 1669 1000; num 1548 1000; num 153 100; num 2718 1000; num 20 10; num 1531 1000; num 1535 1000; num 477 100; num 3251 1000; num 2254 1000; num 1521 1000; num 2464 1000; num 1833 1000; num 1267 1000; num 2057 1000; num 1545 1000; num 1242 1000; num 2797 1000; num 1679 1000; num 1506 1000];
    [txt "OCE"; num 295 1000; num 32 100; num 151 1000; num 199 1000; num 325 1000; num 269 1000; num 118 1000; num 139 1000; num 1127 1000; num 758 1000; num 354 1000; num 336 1000; num 383 1000; num 501 1000; num 405 1000; num 414 1000; num 276 1000; num 264 1000; num 102 1000; num 131 1000; num 312 1000; num 354 1000; num 255 1000; num 385 1000; num 735 1000; num 719 1000; num 587 1000; num 546 1000; num 362 1000; num 62 100; num 198 1000; num 16 100; num 778 1000; num 144 1000; num 134 1000; num 609 1000; num 55 100; num 563 1000];
    [txt "RCAM"; num 924 1000; num 1085 1000; num 1583 1000; num 1796 1000; num 902 1000; num 1052 1000; num 1359 1000; num 1663 1000; num 1406 1000; num 129 100; num 958 1000; num 81 100; num 91 100; num 1316 1000; num 111 100; num 897 1000; num 897 1000; num 1092 1000; num 1346 1000; num 1291 1000; num 954 1000; num 1082 1000; num 1498 1000; num 1108 1000; num 963 1000; num 1676 1000; num 771 1000; num 884 1000; num 784 1000; num 1325 1000; num 887 1000; num 8 10; num 1174 1000; num 1027 1000; num 93 100; num 1103 1000; num 1684 1000; num 1559 1000];
    [txt "RSAF"; num 21 100; num 1181 1000; num 542 1000; num 574 1000; num 255 1000; num 1061 1000; num 543 1000; num 439 1000; num 335 1000; num 975 1000; num 369 1000; num 621 1000; num 235 1000; num 1344 1000; num 502 1000; num 692 1000; num 297 1000; num 1051 1000; num 509 1000; num 442 1000; num 311 1000; num 1655 1000; num 716 1000; num 797 1000; num 482 1000; num 907 1000; num 619 1000; num 659 1000; num 335 1000; num 587 1000; num 212 1000; num 486 1000; num 121 100; num 166 1000; num 75 100; num 1507 1000; num 61 100; num 847 1000];
    [txt "RSAM"; num 468 1000; num 512 1000; num 506 1000; num 476 1000; num 46 100; num 52 100; num 505 1000; num 436 1000; num 28 100; num 275 1000; num 312 1000; num 666 1000; num 256 1000; num 296 1000; num 326 1000; num 605 1000; num 483 1000; num 528 1000; num 495 1000; num 473 1000; num 374 1000; num 435 1000; num 402 1000; num 565 1000; num 418 1000; num 133 100; num 1195 1000; num 1203 1000; num 303 1000; num 531 1000; num 455 1000; num 76 100; num 397 1000; num 35 100; num 732 1000; num 367 1000; num 452 1000; num 743 1000];
    [txt "RSAS"; num 924 1000; num 1063 1000; num 1432 1000; num 1183 1000; num 828 1000; num 955 1000; num 1377 1000; num 1436 1000; num 1163 1000; num 1349 1000; num 1167 1000; num 849 1000; num 12 10; num 1322 1000; num 1141 1000; num 882 1000; num 695 1000; num 934 1000; num 1356 1000; num 1516 1000; num 984 1000; num 1185 1000; num 1134 1000; num 934 1000; num 112 100; num 1363 1000; num 83 100; num 688 1000; num 929 1000; num 1412 1000; num 12 10; num 814 1000; num 1177 1000; num 1069 1000; num 931 1000; num 1204 1000; num 1099 1000; num 951 1000];
    [txt "RUS"; num 1103 1000; num 1615 1000; num 1633 1000; num 1705 1000; num 1096 1000; num 1674 1000; num 1555 1000; num 155 100; num 1207 1000; num 2722 1000; num 3434 1000; num 1675 1000; num 1255 1000; num 2219 1000; num 2601 1000; num 1663 1000; num 1141 1000; num 1579 1000; num 1515 1000; num 1594 1000; num 1201 1000; num 1672 1000; num 1912 1000; num 1667 1000; num 1163 1000; num 3802 1000; num 4536 1000; num 2629 1000; num 1213 1000; num 1907 1000; num 1917 1000; num 1373 1000; num 1519 1000; num 154 100; num 1377 1000; num 2184 1000; num 1846 1000; num 1826 1000];
    [txt "SAF"; num 769 1000; num 842 1000; num 731 1000; num 527 1000; num 814 1000; num 896 1000; num 727 1000; num 567 1000; num 634 1000; num 591 1000; num 544 1000; num 581 1000; num 598 1000; num 669 1000; num 625 1000; num 607 1000; num 796 1000; num 914 1000; num 773 1000; num 632 1000; num 65 100; num 813 1000; num 733 1000; num 704 1000; num 754 1000; num 681 1000; num 666 1000; num 637 1000; num 536 1000; num 318 1000; num 285 1000; num 427 1000; num 477 1000; num 48 100; num 683 1000; num 755 1000; num 766 1000; num 746 1000];
    [txt "SEAS"; num 888 1000; num 1008 1000; num 1065 1000; num 1764 1000; num 801 1000; num 97 100; num 1078 1000; num 1838 1000; num 1503 1000; num 1262 1000; num 995 1000; num 1071 1000; num 1415 1000; num 1249 1000; num 997 1000; num 1065 1000; num 825 1000; num 954 1000; num 1113 1000; num 1511 1000; num 1063 1000; num 1146 1000; num 1029 1000; num 1346 1000; num 1205 1000; num 1272 1000; num 931 1000; num 113 100; num 866 1000; num 1319 1000; num 1009 1000; num 1071 1000; num 114 100; num 992 1000; num 104 100; num 115 100; num 1015 1000; num 1804 1000];
    [txt "STAN"; num 1569 1000; num 1827 1000; num 1534 1000; num 731 1000; num 141 100; num 1611 1000; num 1426 1000; num 749 1000; num 1376 1000; num 385 100; num 213 100; num 996 1000; num 1528 1000; num 3685 1000; num 2006 1000; num 1011 1000; num 1297 1000; num 1535 1000; num 1475 1000; num 864 1000; num 1606 1000; num 278 100; num 1644 1000; num 879 1000; num 1424 1000; num 5109 1000; num 2844 1000; num 779 1000; num 2433 1000; num 2518 1000; num 173 100; num 1034 1000; num 2068 1000; num 1419 1000; num 1008 1000; num 2814 1000; num 1438 1000; num 91 100];
    [txt "TUR"; num 1275 1000; num 148 100; num 1782 1000; num 2395 1000; num 1215 1000; num 1364 1000; num 1985 1000; num 2507 1000; num 1181 1000; num 1848 1000; num 1871 1000; num 1092 1000; num 1289 1000; num 1805 1000; num 1922 1000; num 1207 1000; num 1161 1000; num 1205 1000; num 1974 1000; num 2299 1000; num 1297 1000; num 1631 1000; num 1855 1000; num 1617 1000; num 1191 1000; num 208 100; num 2185 1000; num 728 1000; num 1622 1000; num 171 100; num 1688 1000; num 1115 1000; num 1425 1000; num 1452 1000; num 1156 1000; num 1855 1000; num 1739 1000; num 4583 1000];
    [txt "UKR"; num 1046 1000; num 117 100; num 971 1000; num 1035 1000; num 1054 1000; num 1154 1000; num 1005 1000; num 794 1000; num 1193 1000; num 1059 1000; num 678 1000; num 529 1000; num 127 100; num 1141 1000; num 771 1000; num 597 1000; num 1141 1000; num 1119 1000; num 1016 1000; num 78 100; num 1171 1000; num 1275 1000; num 101 100; num 923 1000; num 1171 1000; num 774 1000; num 7 10; num 64 100; num 1093 1000; num 1016 1000; num 477 1000; num 395 1000; num 107 100; num 678 1000; num 595 1000; num 1286 1000; num 896 1000; num 799 1000];
    [txt "USA"; num 1138 1000; num 945 1000; num 817 1000; num 1134 1000; num 1014 1000; num 889 1000; num 731 1000; num 896 1000; num 3339 1000; num 1591 1000; num 1442 1000; num 1834 1000; num 2904 1000; num 1417 1000; num 1454 1000; num 1895 1000; num 959 1000; num 933 1000; num 722 1000; num 823 1000; num 1752 1000; num 113 100; num 1306 1000; num 1961 1000; num 1609 1000; num 2362 1000; num 1616 1000; num 2764 1000; num 128 100; num 1531 1000; num 1455 1000; num 1488 1000; num 1218 1000; num 122 100; num 1509 1000; num 1135 1000; num 1231 1000; num 1591 1000];
    [txt "WAF"; num 685 1000; num 675 1000; num 716 1000; num 981 1000; num 813 1000; num 726 1000; num 755 1000; num 1044 1000; num 361 1000; num 563 1000; num 58 100; num 864 1000; num 353 1000; num 525 1000; num 623 1000; num 843 1000; num 932 1000; num 714 1000; num 715 1000; num 935 1000; num 516 1000; num 625 1000; num 626 1000; num 722 1000; num 31 100; num 1548 1000; num 1032 1000; num 896 1000; num 343 1000; num 743 1000; num 662 1000; num 853 1000; num 594 1000; num 608 1000; num 914 1000; num 623 1000; num 742 1000; num 828 1000];
    [txt "WEU"; num 1474 1000; num 1447 1000; num 1541 1000; num 1951 1000; num 1299 1000; num 1303 1000; num 1462 1000; num 165 100; num 2023 1000; num 1501 1000; num 159 100; num 3336 1000; num 2123 1000; num 1615 1000; num 1485 1000; num 2977 1000; num 1189 1000; num 1282 1000; num 1402 1000; num 1572 1000; num 1874 1000; num 1654 1000; num 1494 1000; num 2639 1000; num 1686 1000; num 1496 1000; num 225 100; num 4711 1000; num 2044 1000; num 1575 1000; num 1491 1000; num 1885 1000; num 1342 1000; num 1233 1000; num 1848 1000; num 1838 1000; num 1628 1000; num 2112 1000]] |}.

(** inputdata/regionalparams/COACCH.csv *)
Definition coacch : table := {|
  t_columns := ["region"; "NoSLR_form"; "NoSLR_b1"; "NoSLR_b2"; "NoSLR_b3"; "NoSLR_a (q=0.025)"; "NoSLR_a (q=0.05)"; "NoSLR_a (q=0.16)"; "NoSLR_a (q=0.25)"; "NoSLR_a (q=0.33)"; "NoSLR_a (q=0.5)"; "NoSLR_a (q=0.67)"; "NoSLR_a (q=0.75)"; "NoSLR_a (q=0.84)"; "NoSLR_a (q=0.95)"; "NoSLR_a (q=0.975)"; "SLR-NoAd_form"; "SLR-NoAd_b1"; "SLR-NoAd_b2"; "SLR-NoAd_b3"; "SLR-NoAd_a (q=0.025)"; "SLR-NoAd_a (q=0.05)"; "SLR-NoAd_a (q=0.16)"; "SLR-NoAd_a (q=0.25)"; "SLR-NoAd_a (q=0.33)"; "SLR-NoAd_a (q=0.5)"; "SLR-NoAd_a (q=0.67)"; "SLR-NoAd_a (q=0.75)"; "SLR-NoAd_a (q=0.84)"; "SLR-NoAd_a (q=0.95)"; "SLR-NoAd_a (q=0.975)"; "SLR-Ad_form"; "SLR-Ad_b1"; "SLR-Ad_b2"; "SLR-Ad_b3"; "SLR-Ad_a (q=0.025)"; "SLR-Ad_a (q=0.05)"; "SLR-Ad_a (q=0.16)"; "SLR-Ad_a (q=0.25)"; "SLR-Ad_a (q=0.33)"; "SLR-Ad_a (q=0.5)"; "SLR-Ad_a (q=0.67)"; "SLR-Ad_a (q=0.75)"; "SLR-Ad_a (q=0.84)"; "SLR-Ad_a (q=0.95)"; "SLR-Ad_a (q=0.975)"; "combined_b1_NoAd"; "combined_b2_NoAd"; "combined_b1_NoAd-q0.025"; "combined_b2_NoAd-q0.025"; "combined_b1_NoAd-q0.05"; "combined_b2_NoAd-q0.05"; "combined_b1_NoAd-q0.16"; "combined_b2_NoAd-q0.16"; "combined_b1_NoAd-q0.25"; "combined_b2_NoAd-q0.25"; "combined_b1_NoAd-q0.33"; "combined_b2_NoAd-q0.33"; "combined_b1_NoAd-q0.5"; "combined_b2_NoAd-q0.5"; "combined_b1_NoAd-q0.67"; "combined_b2_NoAd-q0.67"; "combined_b1_NoAd-q0.75"; "combined_b2_NoAd-q0.75"; "combined_b1_NoAd-q0.84"; "combined_b2_NoAd-q0.84"; "combined_b1_NoAd-q0.95"; "combined_b2_NoAd-q0.95"; "combined_b1_NoAd-q0.975"; "combined_b2_NoAd-q0.975"; "combined_b1_Ad"; "combined_b2_Ad"; "combined_b1_Ad-q0.025"; "combined_b2_Ad-q0.025"; "combined_b1_Ad-q0.05"; "combined_b2_Ad-q0.05"; "combined_b1_Ad-q0.16"; "combined_b2_Ad-q0.16"; "combined_b1_Ad-q0.25"; "combined_b2_Ad-q0.25"; "combined_b1_Ad-q0.33"; "combined_b2_Ad-q0.33"; "combined_b1_Ad-q0.5"; "combined_b2_Ad-q0.5"; "combined_b1_Ad-q0.67"; "combined_b2_Ad-q0.67"; "combined_b1_Ad-q0.75"; "combined_b2_Ad-q0.75"; "combined_b1_Ad-q0.84"; "combined_b2_Ad-q0.84"; "combined_b1_Ad-q0.95"; "combined_b2_Ad-q0.95"; "combined_b1_Ad-q0.975"; "combined_b2_Ad-q0.975"];
  t_rows := [
    [txt "World"; txt "Robust-Quadratic"; num 44474 100000; num 86283 100000; na; num (-12236) 100000; num 597 10000; num 49731 100000; num 62471 100000; num 73706 100000; num 10 10; num 123042 100000; num 134586 100000; num 156626 100000; num 190599 100000; num 202508 100000; txt "Robust-Quadratic"; num 434918 100000; num 1369535 100000; na; num 47012 100000; num 56851 100000; num 76581 100000; num 84942 100000; num 90331 100000; num 10 10; num 110028 100000; num 114973 100000; num 125542 100000; num 150464 100000; num 168967 100000; txt "Robust-Linear"; num 185906 100000; na; na; num 48018 100000; num 65023 100000; num 79967 100000; num 86394 100000; num 9083 10000; num 10 10; num 109457 100000; num 114168 100000; num 125121 100000; num 145417 100000; num 161096 100000; num 81164 100000; num 133706 100000; num 11807 100000; num 11737 100000; num 23514 100000; num 32112 100000; num 50215 100000; num 79226 100000; num 58948 100000; num 94184 100000; num 65922 100000; num 106434 100000; num 81164 100000; num 133706 100000; num 9509 10000; num 158343 100000; num 102039 100000; num 170648 100000; num 115719 100000; num 194677 100000; num 139972 100000; num 235809 100000; num 152057 100000; num 254859 100000; num 67267 100000; num 89029 100000; num 5503 100000; num (-9239) 100000; num 17476 100000; num 6937 100000; num 40344 100000; num 45105 100000; num 47475 100000; num 56274 100000; num 53483 100000; num 6609 10000; num 67267 100000; num 89029 100000; num 7967 10000; num 10917 10000; num 85878 100000; num 119259 100000; num 98176 100000; num 138577 100000; num 117912 100000; num 168447 100000; num 126781 100000; num 179153 100000];
    [txt "I_CAN"; txt "Robust-Quadratic"; num 4743 10000; num 58069 100000; na; num 29422 100000; num 31979 100000; num 42399 100000; num 56472 100000; num 64952 100000; num 10 10; num 117068 100000; num 135378 100000; num 18597 10000; num 211387 100000; num 22284 10000; txt "Robust-Quadratic"; num 184384 100000; num 3688984 100000; na; num 41923 100000; num 55316 100000; num 73721 100000; num 82081 100000; num 89769 100000; num 10 10; num 114917 100000; num 11999 10000; num 133064 100000; num 157666 100000; num 168906 100000; txt "Robust-Linear"; num 263477 100000; na; na; num 28606 100000; num 416 1000; num 82922 100000; num 87873 100000; num 92632 100000; num 10 10; num 11066 10000; num 11491 10000; num 124424 100000; num 138318 100000; num 1484 1000; num 25233 100000; num 171228 100000; num 465 10000; num 64525 100000; num 2889 100000; num 81165 100000; num 3746 100000; num 108042 100000; num 8565 100000; num 125674 100000; num 10881 100000; num 139298 100000; num 25233 100000; num 171228 100000; num 30018 100000; num 198018 100000; num 37576 100000; num 214391 100000; num 5867 10000; num 258565 100000; num 65265 100000; num 301163 100000; num 68202 100000; num 320533 100000; num 79734 100000; num 61961 100000; num 23196 100000; num 18199 100000; num 28606 100000; num 20189 100000; num 46897 100000; num 27848 100000; num 55171 100000; num 36212 100000; num 6073 10000; num 41322 100000; num 79734 100000; num 61961 100000; num 91273 100000; num 72286 100000; num 10133 10000; num 83084 100000; num 1284 1000; num 112833 100000; num 144943 100000; num 128133 100000; num 153632 100000; num 135176 100000];
    [txt "I_CEU"; txt "Robust-Quadratic"; num 33022 100000; num 62763 100000; na; num 13447 100000; num 26594 100000; num 5345 10000; num 7037 10000; num 80049 100000; num 10 10; num 124027 100000; num 138028 100000; num 156034 100000; num 219977 100000; num 23884 10000; txt "Robust-Quadratic"; num 30235 100000; num 959451 100000; na; num (-1004) 100000; num 5694 100000; num 25601 100000; num 35749 100000; num 43312 100000; num 10 10; num 225129 100000; num 24206 10000; num 288054 100000; num 365116 100000; num 408106 100000; txt "OLS-Logistic"; num 29745 100000; num 843084 100000; num 1668993 100000; num 17776 100000; num 18521 100000; num 20161 100000; num 22985 100000; num 26362 100000; num 54614 100000; num 16986 10000; num 179288 100000; num 186621 100000; num 209597 100000; num 246533 100000; num 25077 100000; num 91932 100000; num 452 10000; num 8147 100000; num 8329 100000; num 18352 100000; num 15616 100000; num 41014 100000; num 20397 100000; num 54594 100000; num 22993 100000; num 62875 100000; num 25077 100000; num 91932 100000; num 23068 100000; num 143511 100000; num 26346 100000; num 157237 100000; num 28638 100000; num 181955 100000; num 4363 10000; num 244565 100000; num 46443 100000; num 268944 100000; num 3825 10000; num 63393 100000; num 6186 100000; num 865 10000; num 10543 100000; num 16903 100000; num 19894 100000; num 33817 100000; num 2583 10000; num 44479 100000; num 29588 100000; num 50621 100000; num 3825 10000; num 63393 100000; num 5925 10000; num 80046 100000; num 64307 100000; num 88886 100000; num 73429 100000; num 10057 10000; num 97581 100000; num 141068 100000; num 106686 100000; num 153253 100000];
    [txt "I_CHN"; txt "Robust-Quadratic"; num 137938 100000; num (-7077) 100000; na; num (-73092) 100000; num (-41766) 100000; num 37637 100000; num 6015 10000; num 77381 100000; num 10 10; num 128404 100000; num 144736 100000; num 15686 10000; num 177462 100000; num 18997 10000; txt "Robust-Quadratic"; num 99751 10000; num 50497 10000; na; num 69314 100000; num 72075 100000; num 75047 100000; num 78999 100000; num 85158 100000; num 10 10; num 116177 100000; num 122892 100000; num 137807 100000; num 159014 100000; num 175897 100000; txt "Robust-Linear"; num 250575 100000; na; na; num 65086 100000; num 66396 100000; num 74911 100000; num 81148 100000; num 87724 100000; num 10 10; num 122399 100000; num 128026 100000; num 152874 100000; num 212924 100000; num 236925 100000; num 254104 100000; num 22774 100000; num (-20302) 100000; num 25864 100000; num 26116 100000; num 24471 100000; num 139095 100000; num 19738 100000; num 17474 10000; num 19325 100000; num 205663 100000; num 19944 100000; num 254104 100000; num 22774 100000; num 312076 100000; num 25592 100000; num 342405 100000; num 26441 100000; num 376454 100000; num 30035 100000; num 429508 100000; num 34907 100000; num 466374 100000; num 39062 100000; num 16866 10000; num (-3376) 100000; num (-80827) 100000; num 7582 100000; num (-37213) 100000; num 5413 100000; num 74929 100000; num 109 100000; num 1079 1000; num (-1254) 100000; num 133688 100000; num (-223) 10000; num 168659 100000; num (-3376) 100000; num 21472 10000; num (-4557) 100000; num 238977 100000; num (-5505) 100000; num 263334 100000; num (-5443) 100000; num 310201 100000; num (-4679) 100000; num 334828 100000; num (-4676) 100000];
    [txt "I_EastAsia"; txt "Robust-Quadratic"; num 98408 100000; num 60159 100000; na; num 34082 100000; num 44427 100000; num 64532 100000; num 7423 10000; num 84261 100000; num 10 10; num 120854 100000; num 130494 100000; num 154711 100000; num 182666 100000; num 189786 100000; txt "Robust-Quadratic"; num 136009 100000; num 8394412 100000; na; num 51649 100000; num 55842 100000; num 75713 100000; num 87065 100000; num 92131 100000; num 10 10; num 111344 100000; num 120668 100000; num 134175 100000; num 162651 100000; num 188883 100000; txt "Robust-Linear"; num 349017 100000; na; na; num 3027 10000; num 41484 100000; num 73017 100000; num 87404 100000; num 89128 100000; num 10 10; num 105486 100000; num 115346 100000; num 119562 100000; num 133412 100000; num 133978 100000; num 13132 100000; num 313467 100000; num (-10505) 100000; num 151335 100000; num (-39) 1000; num 168178 100000; num (-106) 10000; num 230609 100000; num (-1197) 100000; num 265198 100000; num 4354 100000; num 284066 100000; num 13132 100000; num 313467 100000; num 23981 100000; num 354749 100000; num 25516 100000; num 384165 100000; num 37829 100000; num 43295 10000; num 41056 100000; num 521898 100000; num 25693 100000; num 592629 100000; num 141199 100000; num 65314 100000; num 46492 100000; num 22064 100000; num 61471 100000; num 28866 100000; num 94749 100000; num 42586 100000; num 110449 100000; num 49162 100000; num 121058 100000; num 55285 100000; num 141199 100000; num 65314 100000; num 164069 100000; num 78143 100000; num 177774 100000; num 84451 100000; num 20341 10000; num 99237 100000; num 236846 100000; num 116768 100000; num 244094 100000; num 12108 10000];
    [txt "I_FSU"; txt "Robust-Quadratic"; num 79225 100000; num 25203 100000; na; num 5221 100000; num 1063 10000; num 36509 100000; num 56734 100000; num 67856 100000; num 10 10; num 131151 100000; num 154471 100000; num 173994 100000; num 217436 100000; num 22929 10000; txt "Robust-Quadratic"; num 15443 10000; num 326757 100000; na; num 34315 100000; num 39143 100000; num 56143 100000; num 66081 100000; num 84505 100000; num 10 10; num 118513 100000; num 127393 100000; num 138388 100000; num 172197 100000; num 187313 100000; txt "Robust-Linear"; num 71403 100000; na; na; num 53768 100000; num 72109 100000; num 76818 100000; num 86118 100000; num 88268 100000; num 10 10; num 104828 100000; num 10774 10000; num 123655 100000; num 145917 100000; num 156118 100000; num 94191 100000; num 37266 100000; num 9271 100000; num 5455 100000; num 1428 10000; num 7401 100000; num 37327 100000; num 15974 100000; num 54837 100000; num 2227 10000; num 66405 100000; num 27296 100000; num 94191 100000; num 37266 100000; num 121641 100000; num 4735 10000; num 141445 100000; num 54299 100000; num 158557 100000; num 60545 100000; num 198034 100000; num 75573 100000; num 209688 100000; num 80384 100000; num 8798 10000; num 26258 100000; num 8843 100000; num 1883 100000; num 14735 100000; num 344 10000; num 35649 100000; num 10012 100000; num 52487 100000; num 15207 100000; num 61486 100000; num 18033 100000; num 8798 10000; num 26258 100000; num 113082 100000; num 3416 10000; num 131812 100000; num 40068 100000; num 148672 100000; num 45156 100000; num 185038 100000; num 56339 100000; num 195323 100000; num 59435 100000];
    [txt "I_INDIA"; txt "Robust-Quadratic"; num 232289 100000; num 165998 100000; na; num (-17828) 100000; num (-9275) 100000; num 33386 100000; num 47171 100000; num 61587 100000; num 10 10; num 117165 100000; num 129936 100000; num 149106 100000; num 186079 100000; num 200616 100000; txt "Robust-Linear"; num 333617 100000; na; na; num 28322 100000; num 35029 100000; num 43549 100000; num 52743 100000; num 64376 100000; num 10 10; num 134354 100000; num 147794 100000; num 159887 100000; num 178138 100000; num 194064 100000; txt "Robust-Linear"; num 123678 100000; na; na; num 64663 100000; num 6837 10000; num 7494 10000; num 8083 10000; num 86151 100000; num 10 10; num 124148 100000; num 135973 100000; num 154232 100000; num 209861 100000; num 227533 100000; num 273192 100000; num 170926 100000; num (-29828) 100000; num (-28199) 100000; num (-7216) 100000; num (-1367) 10000; num 95365 100000; num 57566 100000; num 131146 100000; num 80902 100000; num 169391 100000; num 105405 100000; num 273192 100000; num 170926 100000; num 327116 100000; num 201113 100000; num 362279 100000; num 222975 100000; num 411756 100000; num 255393 100000; num 505105 100000; num 317667 100000; num 545387 100000; num 342583 100000; num 247452 100000; num 167825 100000; num (-31608) 100000; num (-28413) 100000; num (-11177) 100000; num (-14147) 100000; num 88915 100000; num 56789 100000; num 121829 100000; num 79779 100000; num 156123 100000; num 103807 100000; num 247452 100000; num 167825 100000; num 290987 100000; num 19676 10000; num 322445 100000; num 218176 100000; num 369744 100000; num 250332 100000; num 464064 100000; num 312723 100000; num 500511 100000; num 337176 100000];
    [txt "I_JAP"; txt "Robust-Quadratic"; num 6869 100000; num 82064 100000; na; num 25361 100000; num 31885 100000; num 55941 100000; num 67463 100000; num 78411 100000; num 10 10; num 123685 100000; num 134558 100000; num 166646 100000; num 221647 100000; num 236114 100000; txt "Robust-Linear"; num 3437402 100000; na; na; num 7705 100000; num 11431 100000; num 33509 100000; num 48935 100000; num 65993 100000; num 10 10; num 122238 100000; num 134433 100000; num 147547 100000; num 173205 100000; num 192956 100000; txt "Robust-Linear"; num 337771 100000; na; na; num 30394 100000; num 34369 100000; num 70253 100000; num 86849 100000; num 91245 100000; num 10 10; num 10814 10000; num 114325 100000; num 120612 100000; num 135374 100000; num 137144 100000; num 42831 10000; num 132837 100000; num 34213 100000; num 24724 100000; num 50364 100000; num 3197 10000; num 145064 100000; num 62921 100000; num 210866 100000; num 80209 100000; num 283509 100000; num 97854 100000; num 42831 10000; num 132837 100000; num 523658 100000; num 163565 100000; num 575797 100000; num 178679 100000; num 63327 10000; num 211671 100000; num 745183 100000; num 269834 100000; num 829416 100000; num 291735 100000; num 48281 100000; num 87053 100000; num 14329 100000; num 22329 100000; num 16423 100000; num 27881 100000; num 32936 100000; num 49412 100000; num 406 1000; num 59696 100000; num 43172 100000; num 689 1000; num 48281 100000; num 87053 100000; num 53279 100000; num 106897 100000; num 56587 100000; num 116128 100000; num 61394 100000; num 142775 100000; num 71285 100000; num 188647 100000; num 73012 100000; num 200608 100000];
    [txt "I_Laca"; txt "Robust-Quadratic"; num 69609 100000; num 63903 100000; na; num (-265002) 100000; num (-217407) 100000; num (-1729) 10000; num 21881 100000; num 51141 100000; num 10 10; num 121305 100000; num 138975 100000; num 180677 100000; num 215031 100000; num 226222 100000; txt "Robust-Quadratic"; num 40592 10000; num 269844 100000; na; num 2824 10000; num 49024 100000; num 69355 100000; num 7858 10000; num 88545 100000; num 10 10; num 112701 100000; num 120904 100000; num 129276 100000; num 157301 100000; num 177381 100000; txt "Robust-Linear"; num 127856 100000; na; na; num 50315 100000; num 5658 10000; num 69852 100000; num 81367 100000; num 83174 100000; num 99999 100000; num 12203 10000; num 130665 100000; num 14849 10000; num 184267 100000; num 195586 100000; num 116099 100000; num 77977 100000; num (-171336) 100000; num (-16537) 10000; num (-128543) 100000; num (-13203) 10000; num 20208 100000; num (-1288) 100000; num 51763 100000; num 25042 100000; num 76763 100000; num 45142 100000; num 116099 100000; num 77977 100000; num 136834 100000; num 93379 100000; num 152947 100000; num 105825 100000; num 185867 100000; num 133652 100000; num 22281 10000; num 159549 100000; num 239934 100000; num 169526 100000; num 85284 100000; num 65791 100000; num (-176577) 100000; num (-168394) 100000; num (-142465) 100000; num (-137861) 100000; num (-1086) 100000; num (-973) 10000; num 27986 100000; num 15519 100000; num 48636 100000; num 34251 100000; num 85284 100000; num 65791 100000; num 103568 100000; num 79822 100000; num 117221 100000; num 91277 100000; num 149043 100000; num 118262 100000; num 178565 100000; num 140891 100000; num 188129 100000; num 148256 100000];
    [txt "I_MiddleEast"; txt "Robust-Quadratic"; num 98854 100000; num 8134 100000; na; num (-18372) 100000; num (-1031) 100000; num 42977 100000; num 61931 100000; num 71449 100000; num 10 10; num 138408 100000; num 163931 100000; num 195178 100000; num 240257 100000; num 251056 100000; txt "Robust-Quadratic"; num 444677 100000; num 3115491 100000; na; num 4885 10000; num 55511 100000; num 72551 100000; num 82979 100000; num 89014 100000; num 10 10; num 111247 100000; num 117445 100000; num 126502 100000; num 147509 100000; num 161287 100000; txt "Robust-Linear"; num 30949 10000; na; na; num 45718 100000; num 56101 100000; num 86427 100000; num 89417 100000; num 94711 100000; num 10 10; num 108722 100000; num 115995 100000; num 125014 100000; num 142474 100000; num 146578 100000; num 115535 100000; num 10797 10000; num (-10013) 100000; num 47275 100000; num 8241 100000; num 55336 100000; num 54587 100000; num 75927 100000; num 75064 100000; num 87879 100000; num 85479 100000; num 94679 100000; num 115535 100000; num 10797 10000; num 15538 10000; num 122323 100000; num 181643 100000; num 130586 100000; num 214044 100000; num 14217 10000; num 26211 10000; num 16681 10000; num 275084 100000; num 181443 100000; num 136799 100000; num 12706 100000; num (-814) 100000; num 595 100000; num 20269 100000; num 2481 100000; num 75279 100000; num 7447 100000; num 95151 100000; num 9125 100000; num 106568 100000; num 10142 100000; num 136799 100000; num 12706 100000; num 178076 100000; num 16229 100000; num 206066 100000; num 18637 100000; num 240378 100000; num 21592 100000; num 291565 100000; num 26057 100000; num 303798 100000; num 27123 100000];
    [txt "I_NAF"; txt "Robust-Quadratic"; num 53224 100000; num 152132 100000; na; num (-74326) 100000; num (-50859) 100000; num 27446 100000; num 41705 100000; num 58116 100000; num 10 10; num 128207 100000; num 157599 100000; num 196985 100000; num 243829 100000; num 254206 100000; txt "Robust-Linear"; num 1265652 100000; na; na; num 37093 100000; num 56604 100000; num 74318 100000; num 84855 100000; num 91733 100000; num 10 10; num 108276 100000; num 111491 100000; num 116929 100000; num 129533 100000; num 133937 100000; txt "Robust-Linear"; num 645004 100000; na; na; num 45611 100000; num 50792 100000; num 87817 100000; num 91148 100000; num 92818 100000; num 10 10; num 105711 100000; num 116446 100000; num 120796 100000; num 136306 100000; num 147835 100000; num 208399 100000; num 170827 100000; num 18 100; num (-10614) 10000; num 60765 100000; num (-66792) 100000; num 129931 100000; num 55647 100000; num 153871 100000; num 79311 100000; num 173279 100000; num 105563 100000; num 208399 100000; num 170827 100000; num 236254 100000; num 215286 100000; num 256887 100000; num 260602 100000; num 286288 100000; num 321537 100000; num 330778 100000; num 395158 100000; num 343136 100000; num 411769 100000; num 132305 100000; num 16166 10000; num (-349) 10000; num (-108729) 100000; num 13097 100000; num (-72535) 100000; num 84054 100000; num 5012 10000; num 94277 100000; num 72131 100000; num 104333 100000; num 97257 100000; num 132305 100000; num 16166 10000; num 151834 100000; num 205115 100000; num 175967 100000; num 250853 100000; num 200369 100000; num 311187 100000; num 237567 100000; num 383929 100000; num 252208 100000; num 400814 100000];
    [txt "I_OCE"; txt "Robust-Quadratic"; num 35125 100000; num 91624 100000; na; num (-42937) 100000; num (-28776) 100000; num 25793 100000; num 56674 100000; num 70762 100000; num 10 10; num 122644 100000; num 133297 100000; num 162573 100000; num 197288 100000; num 206954 100000; txt "Robust-Quadratic"; num 360863 100000; num 1950245 100000; na; num 45551 100000; num 54965 100000; num 76789 100000; num 84196 100000; num 89174 100000; num 10 10; num 113303 100000; num 120857 100000; num 133269 100000; num 169669 100000; num 196642 100000; txt "Robust-Linear"; num 217176 100000; na; na; num 43204 100000; num 59572 100000; num 82676 100000; num 87815 100000; num 93798 100000; num 10 10; num 113982 100000; num 116626 100000; num 127385 100000; num 148076 100000; num 156499 100000; num 55682 100000; num 155338 100000; num (-5717) 100000; num (-10318) 100000; num 1192 100000; num 8655 100000; num 24845 100000; num 72557 100000; num 37215 100000; num 105571 100000; num 43187 100000; num 121651 100000; num 55682 100000; num 155338 100000; num 6637 10000; num 184561 100000; num 71665 100000; num 199135 100000; num 845 1000; num 233867 100000; num 104176 100000; num 288866 100000; num 113116 100000; num 314908 100000; num 61751 100000; num 94832 100000; num (-3577) 100000; num (-37955) 100000; num 5755 100000; num (-24454) 100000; num 31074 100000; num 26284 100000; num 43289 100000; num 54744 100000; num 4983 10000; num 67844 100000; num 61751 100000; num 94832 100000; num 73428 100000; num 116028 100000; num 77874 100000; num 125874 100000; num 91022 100000; num 153043 100000; num 108724 100000; num 185513 100000; num 114362 100000; num 19464 10000];
    [txt "I_RSAF"; txt "Robust-Quadratic"; num 35895 100000; num 14799 10000; na; num 4965 10000; num 54653 100000; num 68379 100000; num 78774 100000; num 85564 100000; num 10 10; num 114013 100000; num 119986 100000; num 130364 100000; num 166915 100000; num 183007 100000; txt "Robust-Quadratic"; num 36636 10000; num 977887 100000; na; num 27262 100000; num 41727 100000; num 65563 100000; num 79957 100000; num 88045 100000; num 10 10; num 116149 100000; num 124115 100000; num 132694 100000; num 160507 100000; num 178613 100000; txt "Robust-Linear"; num 172333 100000; na; na; num 2466 10000; num 5454 10000; num 71115 100000; num 79885 100000; num 89841 100000; num 10 10; num 114764 100000; num 119513 100000; num 135414 100000; num 154234 100000; num 175235 100000; num 68936 100000; num 182676 100000; num 2683 10000; num 82934 100000; num 33405 100000; num 95354 100000; num 46208 100000; num 123935 100000; num 54695 100000; num 144312 100000; num 59805 100000; num 157166 100000; num 68936 100000; num 182676 100000; num 79302 100000; num 209015 100000; num 84078 100000; num 220618 100000; num 90638 100000; num 238953 100000; num 112948 100000; num 302691 100000; num 124706 100000; num 332786 100000; num 57024 100000; num 150536 100000; num 23033 100000; num 74105 100000; num 31141 100000; num 82269 100000; num 39571 100000; num 103004 100000; num 45155 100000; num 118612 100000; num 49696 100000; num 128914 100000; num 57024 100000; num 150536 100000; num 65174 100000; num 171649 100000; num 68321 100000; num 18061 10000; num 75406 100000; num 196374 100000; num 92502 100000; num 250943 100000; num 102716 100000; num 275293 100000];
    [txt "I_RSAS"; txt "Robust-Quadratic"; num 278145 100000; num 89046 100000; na; num 4302 100000; num 12536 100000; num 48619 100000; num 61329 100000; num 74356 100000; num 10 10; num 118843 100000; num 12631 10000; num 138906 100000; num 168602 100000; num 178961 100000; txt "Robust-Quadratic"; num 547499 100000; num (-1433268) 100000; na; num (-23666) 100000; num (-11766) 100000; num 26451 100000; num 51949 100000; num 68605 100000; num 10 10; num 123716 100000; num 135701 100000; num 14601 10000; num 171319 100000; num 182747 100000; txt "OLS-Logistic"; num 2461953 100000; num (-19084356) 100000; num (-9088333) 100000; num 49181 100000; num 56145 100000; num 65192 100000; num 75849 100000; num 81678 100000; num 93489 100000; num 121107 100000; num 130147 100000; num 135812 100000; num 147235 100000; num 150629 100000; num 362678 100000; num 54226 100000; num (-8041) 100000; num 12071 100000; num 24922 100000; num 1526 10000; num 157591 100000; num 34083 100000; num 214497 100000; num 36522 100000; num 264813 100000; num 42323 100000; num 362678 100000; num 54226 100000; num 435137 100000; num 62747 100000; num 466037 100000; num 65223 100000; num 509787 100000; num 72849 100000; num 613778 100000; num 90479 100000; num 652253 100000; num 95725 100000; num 284369 100000; num 89796 100000; num 14468 100000; num 4132 100000; num 37669 100000; num 115 1000; num 138599 100000; num 43699 100000; num 174412 100000; num 55072 100000; num 211196 100000; num 66739 100000; num 284369 100000; num 89796 100000; num 341383 100000; num 107129 100000; num 36454 10000; num 114066 100000; num 402184 100000; num 125596 100000; num 490661 100000; num 152748 100000; num 525599 100000; num 16271 10000];
    [txt "I_SEAS"; txt "Robust-Quadratic"; num 217792 100000; num 92635 100000; na; num (-53761) 100000; num (-25306) 100000; num 39027 100000; num 50011 100000; num 65053 100000; num 10 10; num 1249 1000; num 138746 100000; num 169613 100000; num 196406 100000; num 209689 100000; txt "Robust-Linear"; num 1575935 100000; na; na; num 4927 10000; num 56492 100000; num 71291 100000; num 81038 100000; num 88525 100000; num 10 10; num 109781 100000; num 113531 100000; num 119595 100000; num 141149 100000; num 158532 100000; txt "Robust-Linear"; num 929209 100000; na; na; num 47516 100000; num 52395 100000; num 88124 100000; num 90734 100000; num 92573 100000; num 10 10; num 105881 100000; num 111913 100000; num 119921 100000; num 132282 100000; num 141681 100000; num 411009 100000; num 115912 100000; num (-21889) 100000; num (-38332) 100000; num 54037 100000; num (-10292) 100000; num 222746 100000; num 52748 100000; num 265501 100000; num 65192 100000; num 312727 100000; num 80869 100000; num 411009 100000; num 115912 100000; num 484137 100000; num 141255 100000; num 521541 100000; num 154955 100000; num 600482 100000; num 184959 100000; num 700479 100000; num 214796 100000; num 762998 100000; num 231148 100000; num 331717 100000; num 10636 10000; num (-62954) 100000; num (-4328) 10000; num 4576 100000; num (-16251) 100000; num 185394 100000; num 48248 100000; num 21229 10000; num 58781 100000; num 247145 100000; num 72968 100000; num 331717 100000; num 10636 10000; num 392647 100000; num 130233 100000; num 429676 100000; num 143887 100000; num 506023 100000; num 173579 100000; num 578459 100000; num 200095 100000; num 618098 100000; num 213691 100000];
    [txt "I_SSA"; txt "Robust-Quadratic"; num 230932 100000; num 161944 100000; na; num 46934 100000; num 53237 100000; num 72094 100000; num 80863 100000; num 87591 100000; num 10 10; num 110226 100000; num 117251 100000; num 126236 100000; num 139739 100000; num 145479 100000; txt "Robust-Linear"; num (-156287) 100000; na; na; num 271109 100000; num 253559 100000; num 195032 100000; num 165609 100000; num 145059 100000; num 10 10; num 11675 100000; num (-54021) 100000; num (-99394) 100000; num (-141897) 100000; num (-155666) 100000; txt "Robust-Linear"; num (-6333) 10000; na; na; num 180862 100000; num 168653 100000; num 143111 100000; num 135771 100000; num 123868 100000; num 10 10; num 3689 100000; num (-50544) 100000; num (-92052) 100000; num (-148909) 100000; num (-174829) 100000; num 21177 10000; num 159635 100000; num 56438 100000; num 69749 100000; num 74356 100000; num 80361 100000; num 129117 100000; num 11225 10000; num 155006 100000; num 12713 10000; num 17448 10000; num 138499 100000; num 21177 10000; num 159635 100000; num 252309 100000; num 178235 100000; num 281122 100000; num 191128 100000; num 310565 100000; num 206726 100000; num 349892 100000; num 229575 100000; num 365786 100000; num 239188 100000; num 223167 100000; num 161008 100000; num 94343 100000; num 74316 100000; num 109847 100000; num 84637 100000; num 155377 100000; num 115414 100000; num 176197 100000; num 129683 100000; num 192657 100000; num 140689 100000; num 223167 100000; num 161008 100000; num 25426 10000; num 17847 10000; num 274695 100000; num 190354 100000; num 298667 100000; num 205293 100000; num 334265 100000; num 227692 100000; num 349533 100000; num 23723 10000];
    [txt "I_USA"; txt "Robust-Quadratic"; num 47181 100000; num 44773 100000; na; num 3694 10000; num 46697 100000; num 68779 100000; num 75749 100000; num 81587 100000; num 10 10; num 118855 100000; num 129361 100000; num 147692 100000; num 174343 100000; num 182295 100000; txt "Robust-Quadratic"; num 254249 100000; num 2088181 100000; na; num 29168 100000; num 43404 100000; num 70967 100000; num 82478 100000; num 88333 100000; num 10 10; num 114185 100000; num 121744 100000; num 134041 100000; num 15699 10000; num 172987 100000; txt "Robust-Linear"; num 139462 100000; na; na; num 21264 100000; num 34828 100000; num 75287 100000; num 85222 100000; num 9037 10000; num 100002 100000; num 112238 100000; num 115827 100000; num 118119 100000; num 139933 100000; num 143114 100000; num 52992 100000; num 111041 100000; num 19124 100000; num 35869 100000; num 24554 100000; num 49671 100000; num 36575 100000; num 77823 100000; num 40532 100000; num 88571 100000; num 43627 100000; num 95066 100000; num 52992 100000; num 111041 100000; num 62713 100000; num 128884 100000; num 68109 100000; num 138596 100000; num 77472 100000; num 154952 100000; num 9138 10000; num 182093 100000; num 96062 100000; num 196254 100000; num 6428 10000; num 46833 100000; num 21065 100000; num 16977 100000; num 27987 100000; num 21625 100000; num 45324 100000; num 32345 100000; num 50311 100000; num 3567 10000; num 53946 100000; num 38391 100000; num 6428 10000; num 46833 100000; num 75269 100000; num 55527 100000; num 80839 100000; num 60305 100000; num 8988 10000; num 68559 100000; num 106184 100000; num 80941 100000; num 11048 10000; num 84567 100000];
    [txt "I_WEU"; txt "Robust-Quadratic"; num 23106 100000; num 42927 100000; na; num 19729 100000; num 31329 100000; num 5963 10000; num 7334 10000; num 80069 100000; num 10 10; num 128029 100000; num 140823 100000; num 16113 10000; num 244542 100000; num 266921 100000; txt "Robust-Linear"; num 113554 100000; na; na; num (-9206) 100000; num (-6264) 100000; num 6826 100000; num 20565 100000; num 35003 100000; num 10 10; num 430825 100000; num 552835 100000; num 651144 100000; num 776783 100000; num 825834 100000; txt "OLS-Logistic"; num 27858 100000; num 2342604 100000; num 1839987 100000; num 2513 100000; num 2615 100000; num 343 10000; num 3992 100000; num 477 10000; num 27972 100000; num 179883 100000; num 194695 100000; num 206018 100000; num 245163 100000; num 312795 100000; num 37028 100000; num 44605 100000; num 3277 100000; num 8315 100000; num 6367 100000; num 13344 100000; num 14728 100000; num 25712 100000; num 19809 100000; num 31828 100000; num 23374 100000; num 34959 100000; num 37028 100000; num 44605 100000; num 89563 100000; num 62186 100000; num 109506 100000; num 69724 100000; num 127884 100000; num 8009 10000; num 164649 100000; num 118004 100000; num 176649 100000; num 128434 100000; num 24914 100000; num 43145 100000; num 4801 100000; num 8498 100000; num 7493 100000; num 13479 100000; num 14096 100000; num 25636 100000; num 17308 100000; num 31527 100000; num 18939 100000; num 34424 100000; num 24914 100000; num 43145 100000; num 47416 100000; num 57108 100000; num 50533 100000; num 6262 10000; num 57602 100000; num 71623 100000; num 80557 100000; num 107873 100000; num 86143 100000; num 11753 10000];
    [txt "R_CAZ"; txt "Robust-Quadratic"; num 43115 100000; num 63337 100000; na; num (-4712) 100000; num 10563 100000; num 50109 100000; num 61228 100000; num 71265 100000; num 10 10; num 133111 100000; num 149677 100000; num 183052 100000; num 21791 10000; num 228359 100000; txt "Robust-Quadratic"; num 276673 100000; num 2873069 100000; na; num 46648 100000; num 54767 100000; num 7369 10000; num 82739 100000; num 88355 100000; num 10 10; num 111521 100000; num 119884 100000; num 1306 1000; num 157116 100000; num 172572 100000; txt "Robust-Linear"; num 244134 100000; na; na; num 34247 100000; num 48394 100000; num 82804 100000; num 87222 100000; num 90751 100000; num 10 10; num 109944 100000; num 115698 100000; num 122039 100000; num 139402 100000; num 15077 10000; num 42143 100000; num 153433 100000; num (-2485) 100000; num 39044 100000; num 4022 100000; num 56034 100000; num 20888 100000; num 98129 100000; num 25594 100000; num 113325 100000; num 29867 100000; num 124742 100000; num 42143 100000; num 153433 100000; num 56307 100000; num 184784 100000; num 63368 100000; num 202812 100000; num 77653 100000; num 233605 100000; num 92425 100000; num 279573 100000; num 96779 100000; num 300116 100000; num 73047 100000; num 66943 100000; num 8219 100000; num (-175) 10000; num 1904 10000; num 8435 100000; num 4639 10000; num 34723 100000; num 52506 100000; num 41925 100000; num 5789 10000; num 48409 100000; num 73047 100000; num 66943 100000; num 903 1000; num 88273 100000; num 99165 100000; num 98973 100000; num 115452 100000; num 12034 10000; num 135678 100000; num 143044 100000; num 143586 100000; num 150072 100000];
    [txt "R_CHA"; txt "Robust-Quadratic"; num 137938 100000; num (-7077) 100000; na; num (-73092) 100000; num (-41766) 100000; num 37637 100000; num 6015 10000; num 77381 100000; num 10 10; num 128404 100000; num 144736 100000; num 15686 10000; num 177462 100000; num 18997 10000; txt "Robust-Quadratic"; num 99751 10000; num 50497 10000; na; num 69314 100000; num 72075 100000; num 75047 100000; num 78999 100000; num 85158 100000; num 10 10; num 116177 100000; num 122892 100000; num 137807 100000; num 159014 100000; num 175897 100000; txt "Robust-Linear"; num 250575 100000; na; na; num 65086 100000; num 66396 100000; num 74911 100000; num 81148 100000; num 87724 100000; num 10 10; num 122399 100000; num 128026 100000; num 152874 100000; num 212924 100000; num 236925 100000; num 254104 100000; num 22773 100000; num (-20302) 100000; num 25864 100000; num 26116 100000; num 24471 100000; num 139095 100000; num 19738 100000; num 17474 10000; num 19325 100000; num 205663 100000; num 19944 100000; num 254104 100000; num 22773 100000; num 312076 100000; num 25592 100000; num 342405 100000; num 26441 100000; num 376454 100000; num 30035 100000; num 429509 100000; num 34907 100000; num 466374 100000; num 39062 100000; num 16866 10000; num (-3376) 100000; num (-80827) 100000; num 7582 100000; num (-37213) 100000; num 5413 100000; num 7493 10000; num 109 100000; num 1079 1000; num (-1254) 100000; num 133689 100000; num (-223) 10000; num 168659 100000; num (-3376) 100000; num 214721 100000; num (-4558) 100000; num 238977 100000; num (-5505) 100000; num 263334 100000; num (-5444) 100000; num 310201 100000; num (-4679) 100000; num 334828 100000; num (-4676) 100000];
    [txt "R_EUR"; txt "Robust-Quadratic"; num 23532 100000; num 46741 100000; na; num 19099 100000; num 3102 10000; num 59641 100000; num 73883 100000; num 82281 100000; num 10 10; num 126941 100000; num 141232 100000; num 159625 100000; num 242334 100000; num 261981 100000; txt "Robust-Quadratic"; num (-29782) 100000; num 770396 100000; na; num (-37052) 100000; num (-3157) 10000; num (-18463) 100000; num (-5082) 100000; num (-609) 100000; num 10 10; num 335597 100000; num 376594 100000; num 464837 100000; num 675086 100000; num 750595 100000; txt "Robust-Linear"; num 14246 100000; na; na; num (-72496) 100000; num (-66054) 100000; num (-57255) 100000; num (-55784) 100000; num (-50499) 100000; num 10 10; num 983392 100000; num 1032388 100000; num 1133033 100000; num 1348122 100000; num 1370959 100000; num 34396 100000; num 4805 10000; num (-3677) 100000; num 7943 100000; num 1119 100000; num 13754 100000; num 12229 100000; num 27659 100000; num 16653 100000; num 34446 100000; num 19278 100000; num 38449 100000; num 34396 100000; num 4805 10000; num 90036 100000; num 66582 100000; num 107901 100000; num 75009 100000; num 126573 100000; num 85335 100000; num 161681 100000; num 125879 100000; num 176371 100000; num 136275 100000; num 25279 100000; num 46952 100000; num 3228 100000; num 8775 100000; num 6146 100000; num 1436 10000; num 13035 100000; num 27756 100000; num 16412 100000; num 34417 100000; num 1848 10000; num 38353 100000; num 25279 100000; num 46952 100000; num 47048 100000; num 61404 100000; num 51267 100000; num 68186 100000; num 57353 100000; num 76995 100000; num 80573 100000; num 116107 100000; num 85595 100000; num 125339 100000];
    [txt "R_IND"; txt "Robust-Quadratic"; num 232289 100000; num 165998 100000; na; num (-17828) 100000; num (-9275) 100000; num 33386 100000; num 47171 100000; num 61587 100000; num 10 10; num 117165 100000; num 129936 100000; num 149106 100000; num 186079 100000; num 200616 100000; txt "Robust-Quadratic"; num 594412 100000; num (-1136546) 100000; na; num 32567 100000; num 37449 100000; num 50591 100000; num 63098 100000; num 74462 100000; num 10 10; num 116598 100000; num 125296 100000; num 13347 10000; num 162497 100000; num 178647 100000; txt "Robust-Linear"; num 123678 100000; na; na; num 64663 100000; num 6837 10000; num 7494 10000; num 8083 10000; num 86151 100000; num 10 10; num 124148 100000; num 135973 100000; num 154232 100000; num 209861 100000; num 227533 100000; num 273192 100000; num 170926 100000; num (-29828) 100000; num (-28199) 100000; num (-7216) 100000; num (-1367) 10000; num 95365 100000; num 57566 100000; num 131146 100000; num 80902 100000; num 169391 100000; num 105405 100000; num 273192 100000; num 170926 100000; num 327116 100000; num 201113 100000; num 362279 100000; num 222975 100000; num 411756 100000; num 255393 100000; num 505105 100000; num 317667 100000; num 545387 100000; num 342583 100000; num 247452 100000; num 167825 100000; num (-31608) 100000; num (-28413) 100000; num (-11177) 100000; num (-14147) 100000; num 88915 100000; num 56789 100000; num 121829 100000; num 79779 100000; num 156123 100000; num 103807 100000; num 247452 100000; num 167825 100000; num 290987 100000; num 19676 10000; num 322445 100000; num 218176 100000; num 369744 100000; num 250332 100000; num 464064 100000; num 312723 100000; num 500511 100000; num 337176 100000];
    [txt "R_JON"; txt "Robust-Quadratic"; num 6869 100000; num 82064 100000; na; num 25361 100000; num 31885 100000; num 55941 100000; num 67463 100000; num 78411 100000; num 10 10; num 123685 100000; num 134558 100000; num 166646 100000; num 221647 100000; num 236114 100000; txt "Robust-Quadratic"; num (-414128) 100000; num 16700545 100000; na; num 41722 100000; num 45232 100000; num 71289 100000; num 79053 100000; num 84989 100000; num 10 10; num 112023 100000; num 120272 100000; num 135191 100000; num 168531 100000; num 182589 100000; txt "Robust-Linear"; num 337771 100000; na; na; num 30394 100000; num 34369 100000; num 70253 100000; num 86849 100000; num 91245 100000; num 10 10; num 10814 10000; num 114325 100000; num 120612 100000; num 135374 100000; num 137144 100000; num 42831 10000; num 132837 100000; num 34213 100000; num 24724 100000; num 50364 100000; num 3197 10000; num 145064 100000; num 62921 100000; num 210866 100000; num 80209 100000; num 283509 100000; num 97854 100000; num 42831 10000; num 132837 100000; num 523658 100000; num 163565 100000; num 575797 100000; num 178679 100000; num 63327 10000; num 211671 100000; num 745183 100000; num 269834 100000; num 829416 100000; num 291735 100000; num 48281 100000; num 87053 100000; num 14329 100000; num 22329 100000; num 16423 100000; num 27881 100000; num 32936 100000; num 49412 100000; num 406 1000; num 59696 100000; num 43172 100000; num 689 1000; num 48281 100000; num 87053 100000; num 53279 100000; num 106897 100000; num 56587 100000; num 116128 100000; num 61394 100000; num 142775 100000; num 71285 100000; num 188647 100000; num 73012 100000; num 200608 100000];
    [txt "R_LAM"; txt "Robust-Quadratic"; num 69609 100000; num 63903 100000; na; num (-265002) 100000; num (-217407) 100000; num (-1729) 10000; num 21881 100000; num 51141 100000; num 10 10; num 121305 100000; num 138975 100000; num 180677 100000; num 215031 100000; num 226222 100000; txt "Robust-Quadratic"; num 40592 10000; num 269844 100000; na; num 2824 10000; num 49024 100000; num 69355 100000; num 7858 10000; num 88545 100000; num 10 10; num 112701 100000; num 120904 100000; num 129276 100000; num 157301 100000; num 177381 100000; txt "Robust-Linear"; num 127856 100000; na; na; num 50315 100000; num 5658 10000; num 69852 100000; num 81367 100000; num 83174 100000; num 99999 100000; num 12203 10000; num 130665 100000; num 14849 10000; num 184267 100000; num 195586 100000; num 116099 100000; num 77977 100000; num (-171336) 100000; num (-16537) 10000; num (-128543) 100000; num (-13203) 10000; num 20208 100000; num (-1288) 100000; num 51763 100000; num 25042 100000; num 76763 100000; num 45142 100000; num 116099 100000; num 77977 100000; num 136834 100000; num 93379 100000; num 152947 100000; num 105825 100000; num 185867 100000; num 133652 100000; num 22281 10000; num 159549 100000; num 239934 100000; num 169526 100000; num 85284 100000; num 65791 100000; num (-176577) 100000; num (-168394) 100000; num (-142465) 100000; num (-137861) 100000; num (-1086) 100000; num (-973) 10000; num 27986 100000; num 15519 100000; num 48636 100000; num 34251 100000; num 85284 100000; num 65791 100000; num 103568 100000; num 79822 100000; num 117221 100000; num 91277 100000; num 149043 100000; num 118262 100000; num 178565 100000; num 140891 100000; num 188129 100000; num 148256 100000];
    [txt "R_MEA"; txt "Robust-Quadratic"; num 77572 100000; num 42708 100000; na; num (-38892) 100000; num (-17606) 100000; num 38016 100000; num 56864 100000; num 74378 100000; num 10 10; num 138551 100000; num 165566 100000; num 202224 100000; num 251091 100000; num 265343 100000; txt "Robust-Quadratic"; num 629383 100000; num 2423022 100000; na; num 44918 100000; num 5416 10000; num 7305 10000; num 82406 100000; num 88482 100000; num 10 10; num 109732 100000; num 115867 100000; num 122711 100000; num 142089 100000; num 151959 100000; txt "Robust-Linear"; num 386436 100000; na; na; num 43546 100000; num 51298 100000; num 87556 100000; num 90053 100000; num 91469 100000; num 10 10; num 10449 10000; num 116097 100000; num 121997 100000; num 134891 100000; num 145284 100000; num 125309 100000; num 124541 100000; num (-8726) 100000; num 20148 100000; num 12197 100000; num 36802 100000; num 64362 100000; num 76015 100000; num 83449 100000; num 9172 10000; num 99935 100000; num 104172 100000; num 125309 100000; num 124541 100000; num 15986 10000; num 148969 100000; num 183744 100000; num 165527 100000; num 215447 100000; num 186783 100000; num 262604 100000; num 22351 10000; num 278372 100000; num 237674 100000; num 12495 10000; num 48415 100000; num (-9537) 100000; num (-14124) 100000; num 10647 100000; num (-4591) 100000; num 70973 100000; num 21233 100000; num 86776 100000; num 29425 100000; num 101033 100000; num 36986 100000; num 12495 10000; num 48415 100000; num 156982 100000; num 65136 100000; num 183438 100000; num 77336 100000; num 214669 100000; num 93328 100000; num 258685 100000; num 114934 100000; num 274664 100000; num 121614 100000];
    [txt "R_NEU"; txt "Robust-Quadratic"; num 21199 100000; num 6188 100000; na; num (-79919) 100000; num (-45028) 100000; num 8776 100000; num 33085 100000; num 58388 100000; num 10 10; num 178687 100000; num 280012 100000; num 36591 10000; num 500915 100000; num 572355 100000; txt "Robust-Quadratic"; num 271968 100000; num 2406318 100000; na; num 4128 10000; num 52691 100000; num 73562 100000; num 81881 100000; num 86914 100000; num 10 10; num 111985 100000; num 120006 100000; num 131541 100000; num 153176 100000; num 167852 100000; txt "Robust-Linear"; num 227258 100000; na; na; num 27882 100000; num 3875 10000; num 71818 100000; num 86848 100000; num 88843 100000; num 10 10; num 106359 100000; num 115346 100000; num 118779 100000; num 135898 100000; num 138622 100000; num 25319 100000; num 82242 100000; num (-15242) 100000; num 2645 10000; num (-7375) 100000; num 37287 100000; num 4891 100000; num 56489 100000; num 10387 100000; num 64321 100000; num 15958 100000; num 69715 100000; num 25319 100000; num 82242 100000; num 42493 100000; num 96227 100000; num 64304 100000; num 108597 100000; num 82988 100000; num 122685 100000; num 1125 1000; num 147494 100000; num 128249 100000; num 163076 100000; num 49062 100000; num 9545 100000; num (-9173) 100000; num (-401) 10000; num 1251 100000; num (-1486) 100000; num 21871 100000; num 2954 100000; num 31212 100000; num 4963 100000; num 37132 100000; num 6595 100000; num 49062 100000; num 9545 100000; num 67515 100000; num 14628 100000; num 91499 100000; num 21199 100000; num 110665 100000; num 2663 10000; num 144055 100000; num 35559 100000; num 159958 100000; num 40072 100000];
    [txt "R_OAS"; txt "Robust-Quadratic"; num 139292 100000; num 115269 100000; na; num (-23578) 100000; num (-1069) 100000; num 46779 100000; num 59316 100000; num 71443 100000; num 10 10; num 12417 10000; num 135441 100000; num 160161 100000; num 190763 100000; num 200106 100000; txt "Robust-Quadratic"; num 1234616 100000; num 85278 10000; na; num 42307 100000; num 52627 100000; num 74574 100000; num 82819 100000; num 88233 100000; num 10 10; num 110584 100000; num 117179 100000; num 126092 100000; num 149126 100000; num 171554 100000; txt "Robust-Linear"; num 611287 100000; na; na; num 40538 100000; num 48643 100000; num 87242 100000; num 89716 100000; num 92097 100000; num 10 10; num 106258 100000; num 113975 100000; num 119135 100000; num 130213 100000; num 137668 100000; num 280305 100000; num 159035 100000; num 26816 100000; num (-8663) 100000; num 72721 100000; num 218 1000; num 170318 100000; num 86559 100000; num 199409 100000; num 10462 10000; num 223934 100000; num 120967 100000; num 280305 100000; num 159035 100000; num 328897 100000; num 191527 100000; num 353897 100000; num 207406 100000; num 400899 100000; num 239801 100000; num 476005 100000; num 285157 100000; num 520646 100000; num 305742 100000; num 214239 100000; num 124298 100000; num (-2461) 100000; num (-23518) 100000; num 34967 100000; num 316 10000; num 130545 100000; num 61799 100000; num 149863 100000; num 76474 100000; num 168538 100000; num 90667 100000; num 214239 100000; num 124298 100000; num 252596 100000; num 152724 100000; num 27408 10000; num 166413 100000; num 31238 10000; num 195374 100000; num 363309 100000; num 231648 100000; num 381911 100000; num 243091 100000];
    [txt "R_REF"; txt "Robust-Quadratic"; num 79225 100000; num 25203 100000; na; num 5221 100000; num 1063 10000; num 36509 100000; num 56734 100000; num 67856 100000; num 10 10; num 131151 100000; num 154471 100000; num 173994 100000; num 217436 100000; num 22929 10000; txt "Robust-Quadratic"; num 15443 10000; num 326757 100000; na; num 34315 100000; num 39143 100000; num 56143 100000; num 66081 100000; num 84505 100000; num 10 10; num 118513 100000; num 127393 100000; num 138388 100000; num 172197 100000; num 187313 100000; txt "Robust-Linear"; num 71403 100000; na; na; num 53768 100000; num 72109 100000; num 76818 100000; num 86118 100000; num 88268 100000; num 10 10; num 104828 100000; num 10774 10000; num 123655 100000; num 145917 100000; num 156118 100000; num 94191 100000; num 37266 100000; num 9271 100000; num 5455 100000; num 1428 10000; num 7401 100000; num 37327 100000; num 15974 100000; num 54837 100000; num 2227 10000; num 66405 100000; num 27296 100000; num 94191 100000; num 37266 100000; num 121641 100000; num 4735 10000; num 141445 100000; num 54299 100000; num 158557 100000; num 60545 100000; num 198034 100000; num 75573 100000; num 209688 100000; num 80384 100000; num 8798 10000; num 26258 100000; num 8843 100000; num 1883 100000; num 14735 100000; num 344 10000; num 35649 100000; num 10012 100000; num 52487 100000; num 15207 100000; num 61486 100000; num 18033 100000; num 8798 10000; num 26258 100000; num 113082 100000; num 3416 10000; num 131812 100000; num 40068 100000; num 148672 100000; num 45156 100000; num 185038 100000; num 56339 100000; num 195323 100000; num 59435 100000];
    [txt "R_SSA"; txt "Robust-Quadratic"; num 164259 100000; num 18269 10000; na; num 47723 100000; num 53712 100000; num 73071 100000; num 81194 100000; num 88147 100000; num 10 10; num 110787 100000; num 117536 100000; num 12765 10000; num 142763 100000; num 148986 100000; txt "Robust-Quadratic"; num 269651 100000; num (-1204682) 100000; na; num 84656 100000; num 89638 100000; num 92383 100000; num 97144 100000; num 97851 100000; num 10 10; num 106914 100000; num 109237 100000; num 112452 100000; num 119067 100000; num 121175 100000; txt "Robust-Linear"; num (-1639) 10000; na; na; num 537937 100000; num 476784 100000; num 405508 100000; num 338804 100000; num 283844 100000; num 10 10; num (-233657) 100000; num (-351177) 100000; num (-483815) 100000; num (-753493) 100000; num (-831379) 100000; num 16161 10000; num 182371 100000; num 36961 100000; num 82194 100000; num 51813 100000; num 93739 100000; num 93965 100000; num 130353 100000; num 114492 100000; num 146058 100000; num 12951 10000; num 159195 100000; num 16161 10000; num 182371 100000; num 194625 100000; num 20392 10000; num 212007 100000; num 217009 100000; num 235069 100000; num 236263 100000; num 267384 100000; num 264776 100000; num 280955 100000; num 276547 100000; num 162249 100000; num 182448 100000; num 6758 10000; num 85883 100000; num 78646 100000; num 96972 100000; num 111877 100000; num 132511 100000; num 126559 100000; num 147512 100000; num 139086 100000; num 160349 100000; num 162249 100000; num 182448 100000; num 186672 100000; num 202962 100000; num 20012 10000; num 215577 100000; num 219398 100000; num 234375 100000; num 249643 100000; num 262638 100000; num 261429 100000; num 274195 100000];
    [txt "R_USA"; txt "Robust-Quadratic"; num 47181 100000; num 44773 100000; na; num 3694 10000; num 46697 100000; num 68779 100000; num 75749 100000; num 81587 100000; num 10 10; num 118855 100000; num 129361 100000; num 147692 100000; num 174343 100000; num 182295 100000; txt "Robust-Quadratic"; num 254249 100000; num 2088181 100000; na; num 29168 100000; num 43404 100000; num 70967 100000; num 82478 100000; num 88333 100000; num 10 10; num 114185 100000; num 121744 100000; num 134041 100000; num 15699 10000; num 172987 100000; txt "Robust-Linear"; num 139462 100000; na; na; num 21264 100000; num 34828 100000; num 75287 100000; num 85222 100000; num 9037 10000; num 100002 100000; num 112238 100000; num 115827 100000; num 118119 100000; num 139933 100000; num 143114 100000; num 52992 100000; num 111041 100000; num 19124 100000; num 35869 100000; num 24554 100000; num 49671 100000; num 36575 100000; num 77823 100000; num 40532 100000; num 88571 100000; num 43627 100000; num 95066 100000; num 52992 100000; num 111041 100000; num 62713 100000; num 128884 100000; num 68109 100000; num 138596 100000; num 77472 100000; num 154952 100000; num 9138 10000; num 182093 100000; num 96062 100000; num 196254 100000; num 6428 10000; num 46833 100000; num 21065 100000; num 16977 100000; num 27987 100000; num 21625 100000; num 45324 100000; num 32345 100000; num 50311 100000; num 3567 10000; num 53946 100000; num 38391 100000; num 6428 10000; num 46833 100000; num 75269 100000; num 55527 100000; num 80839 100000; num 60305 100000; num 8988 10000; num 68559 100000; num 106184 100000; num 80941 100000; num 11048 10000; num 84567 100000];
    [txt "W_canada"; txt "Robust-Quadratic"; num 4743 10000; num 58069 100000; na; num 29422 100000; num 31979 100000; num 42399 100000; num 56472 100000; num 64952 100000; num 10 10; num 117068 100000; num 135378 100000; num 18597 10000; num 211387 100000; num 22284 10000; txt "Robust-Quadratic"; num 184384 100000; num 3688984 100000; na; num 41923 100000; num 55316 100000; num 73721 100000; num 82081 100000; num 89769 100000; num 10 10; num 114917 100000; num 11999 10000; num 133064 100000; num 157666 100000; num 168906 100000; txt "Robust-Linear"; num 263477 100000; na; na; num 28606 100000; num 416 1000; num 82922 100000; num 87873 100000; num 92632 100000; num 10 10; num 11066 10000; num 11491 10000; num 124424 100000; num 138318 100000; num 1484 1000; num 25233 100000; num 171228 100000; num 465 10000; num 64525 100000; num 2889 100000; num 81165 100000; num 3746 100000; num 108042 100000; num 8565 100000; num 125674 100000; num 10881 100000; num 139298 100000; num 25233 100000; num 171228 100000; num 30018 100000; num 198018 100000; num 37576 100000; num 214391 100000; num 5867 10000; num 258565 100000; num 65265 100000; num 301163 100000; num 68202 100000; num 320533 100000; num 79734 100000; num 61961 100000; num 23196 100000; num 18199 100000; num 28606 100000; num 20189 100000; num 46897 100000; num 27848 100000; num 55171 100000; num 36212 100000; num 6073 10000; num 41322 100000; num 79734 100000; num 61961 100000; num 91273 100000; num 72286 100000; num 10133 10000; num 83084 100000; num 1284 1000; num 112833 100000; num 144943 100000; num 128133 100000; num 153632 100000; num 135176 100000];
    [txt "W_china"; txt "Robust-Quadratic"; num 137938 100000; num (-7077) 100000; na; num (-73092) 100000; num (-41766) 100000; num 37637 100000; num 6015 10000; num 77381 100000; num 10 10; num 128404 100000; num 144736 100000; num 15686 10000; num 177462 100000; num 18997 10000; txt "Robust-Quadratic"; num 99751 10000; num 50497 10000; na; num 69314 100000; num 72075 100000; num 75047 100000; num 78999 100000; num 85158 100000; num 10 10; num 116177 100000; num 122892 100000; num 137807 100000; num 159014 100000; num 175897 100000; txt "Robust-Linear"; num 250575 100000; na; na; num 65086 100000; num 66396 100000; num 74911 100000; num 81148 100000; num 87724 100000; num 10 10; num 122399 100000; num 128026 100000; num 152874 100000; num 212924 100000; num 236925 100000; num 254104 100000; num 22773 100000; num (-20302) 100000; num 25864 100000; num 26116 100000; num 24471 100000; num 139095 100000; num 19738 100000; num 17474 10000; num 19325 100000; num 205663 100000; num 19944 100000; num 254104 100000; num 22773 100000; num 312076 100000; num 25592 100000; num 342405 100000; num 26441 100000; num 376454 100000; num 30035 100000; num 429509 100000; num 34907 100000; num 466374 100000; num 39062 100000; num 16866 10000; num (-3376) 100000; num (-80827) 100000; num 7582 100000; num (-37213) 100000; num 5413 100000; num 7493 10000; num 109 100000; num 1079 1000; num (-1254) 100000; num 133689 100000; num (-223) 10000; num 168659 100000; num (-3376) 100000; num 214721 100000; num (-4558) 100000; num 238977 100000; num (-5505) 100000; num 263334 100000; num (-5444) 100000; num 310201 100000; num (-4679) 100000; num 334828 100000; num (-4676) 100000];
    [txt "W_europe"; txt "Robust-Quadratic"; num 25251 100000; num 43568 100000; na; num 19708 100000; num 31319 100000; num 591 1000; num 73403 100000; num 81278 100000; num 10 10; num 128226 100000; num 140598 100000; num 159398 100000; num 24354 10000; num 264373 100000; txt "Robust-Quadratic"; num (-42542) 100000; num 1147262 100000; na; num (-36) 1000; num (-2633) 100000; num 9555 100000; num 16304 100000; num 21044 100000; num 10 10; num 227771 100000; num 255116 100000; num 314605 100000; num 455368 100000; num 501629 100000; txt "Robust-Linear"; num 16065 100000; na; na; num 22986 100000; num 2334 10000; num 26934 100000; num 28664 100000; num 33331 100000; num 10 10; num 898783 100000; num 944301 100000; num 1030046 100000; num 122423 10000; num 1242995 100000; num 40045 100000; num 45351 100000; num 3996 100000; num 8468 100000; num 7539 100000; num 136 1000; num 16422 100000; num 2593 10000; num 22206 100000; num 32423 100000; num 25882 100000; num 36057 100000; num 40045 100000; num 45351 100000; num 93496 100000; num 63229 100000; num 111708 100000; num 70437 100000; num 130485 100000; num 80318 100000; num 168256 100000; num 118968 100000; num 182087 100000; num 129077 100000; num 27221 100000; num 43806 100000; num 5429 100000; num 8641 100000; num 8368 100000; num 137 1000; num 15454 100000; num 25813 100000; num 191 1000; num 32049 100000; num 2118 10000; num 35491 100000; num 27221 100000; num 43806 100000; num 50081 100000; num 57999 100000; num 54102 100000; num 63497 100000; num 60538 100000; num 71891 100000; num 8561 10000; num 109011 100000; num 9124 10000; num 118132 100000];
    [txt "W_india"; txt "Robust-Quadratic"; num 232289 100000; num 165998 100000; na; num (-17828) 100000; num (-9275) 100000; num 33386 100000; num 47171 100000; num 61587 100000; num 10 10; num 117165 100000; num 129936 100000; num 149106 100000; num 186079 100000; num 200616 100000; txt "Robust-Quadratic"; num 594412 100000; num (-1136546) 100000; na; num 32567 100000; num 37449 100000; num 50591 100000; num 63098 100000; num 74462 100000; num 10 10; num 116598 100000; num 125296 100000; num 13347 10000; num 162497 100000; num 178647 100000; txt "Robust-Linear"; num 123678 100000; na; na; num 64663 100000; num 6837 10000; num 7494 10000; num 8083 10000; num 86151 100000; num 10 10; num 124148 100000; num 135973 100000; num 154232 100000; num 209861 100000; num 227533 100000; num 273192 100000; num 170926 100000; num (-29828) 100000; num (-28199) 100000; num (-7216) 100000; num (-1367) 10000; num 95365 100000; num 57566 100000; num 131146 100000; num 80902 100000; num 169391 100000; num 105405 100000; num 273192 100000; num 170926 100000; num 327116 100000; num 201113 100000; num 362279 100000; num 222975 100000; num 411756 100000; num 255393 100000; num 505105 100000; num 317667 100000; num 545387 100000; num 342583 100000; num 247452 100000; num 167825 100000; num (-31608) 100000; num (-28413) 100000; num (-11177) 100000; num (-14147) 100000; num 88915 100000; num 56789 100000; num 121829 100000; num 79779 100000; num 156123 100000; num 103807 100000; num 247452 100000; num 167825 100000; num 290987 100000; num 19676 10000; num 322445 100000; num 218176 100000; num 369744 100000; num 250332 100000; num 464064 100000; num 312723 100000; num 500511 100000; num 337176 100000];
    [txt "W_jpnkor"; txt "Robust-Quadratic"; num 34945 100000; num 74343 100000; na; num 32262 100000; num 37014 100000; num 61034 100000; num 76915 100000; num 84547 100000; num 10 10; num 126001 100000; num 135322 100000; num 165693 100000; num 209655 100000; num 220336 100000; txt "Robust-Quadratic"; num (-206326) 100000; num 13554608 100000; na; num 44964 100000; num 48187 100000; num 74918 100000; num 82204 100000; num 88239 100000; num 10 10; num 112819 100000; num 121727 100000; num 135606 100000; num 1675 1000; num 183702 100000; txt "Robust-Linear"; num 342114 100000; na; na; num 30298 100000; num 3635 10000; num 71362 100000; num 85187 100000; num 90481 100000; num 10 10; num 106154 100000; num 114225 100000; num 119596 100000; num 133934 100000; num 135307 100000; num 402539 100000; num 118629 100000; num 42675 100000; num 27768 100000; num 62605 100000; num 33501 100000; num 155238 100000; num 61508 100000; num 211793 100000; num 79459 100000; num 272968 100000; num 92181 100000; num 402539 100000; num 118629 100000; num 487053 100000; num 147046 100000; num 530095 100000; num 158769 100000; num 587409 100000; num 186973 100000; num 684434 100000; num 229495 100000; num 772088 100000; num 247545 100000; num 7689 10000; num 79397 100000; num 23983 100000; num 25516 100000; num 28182 100000; num 29354 100000; num 51261 100000; num 48981 100000; num 6261 10000; num 61486 100000; num 67497 100000; num 67427 100000; num 7689 10000; num 79397 100000; num 88558 100000; num 99037 100000; num 952 1000; num 106375 100000; num 108066 100000; num 129225 100000; num 129443 100000; num 162633 100000; num 133752 100000; num 170642 100000];
    [txt "W_laca"; txt "Robust-Quadratic"; num 69609 100000; num 63903 100000; na; num (-265002) 100000; num (-217407) 100000; num (-1729) 10000; num 21881 100000; num 51141 100000; num 10 10; num 121305 100000; num 138975 100000; num 180677 100000; num 215031 100000; num 226222 100000; txt "Robust-Quadratic"; num 40592 10000; num 269844 100000; na; num 2824 10000; num 49024 100000; num 69355 100000; num 7858 10000; num 88545 100000; num 10 10; num 112701 100000; num 120904 100000; num 129276 100000; num 157301 100000; num 177381 100000; txt "Robust-Linear"; num 127856 100000; na; na; num 50315 100000; num 5658 10000; num 69852 100000; num 81367 100000; num 83174 100000; num 99999 100000; num 12203 10000; num 130665 100000; num 14849 10000; num 184267 100000; num 195586 100000; num 116099 100000; num 77977 100000; num (-171336) 100000; num (-16537) 10000; num (-128543) 100000; num (-13203) 10000; num 20208 100000; num (-1288) 100000; num 51763 100000; num 25042 100000; num 76763 100000; num 45142 100000; num 116099 100000; num 77977 100000; num 136834 100000; num 93379 100000; num 152947 100000; num 105825 100000; num 185867 100000; num 133652 100000; num 22281 10000; num 159549 100000; num 239934 100000; num 169526 100000; num 85284 100000; num 65791 100000; num (-176577) 100000; num (-168394) 100000; num (-142465) 100000; num (-137861) 100000; num (-1086) 100000; num (-973) 10000; num 27986 100000; num 15519 100000; num 48636 100000; num 34251 100000; num 85284 100000; num 65791 100000; num 103568 100000; num 79822 100000; num 117221 100000; num 91277 100000; num 149043 100000; num 118262 100000; num 178565 100000; num 140891 100000; num 188129 100000; num 148256 100000];
    [txt "W_mena"; txt "Robust-Quadratic"; num 77572 100000; num 42708 100000; na; num (-38892) 100000; num (-17606) 100000; num 38016 100000; num 56864 100000; num 74378 100000; num 10 10; num 138551 100000; num 165566 100000; num 202224 100000; num 251091 100000; num 265343 100000; txt "Robust-Quadratic"; num 629383 100000; num 2423022 100000; na; num 44918 100000; num 5416 10000; num 7305 10000; num 82406 100000; num 88482 100000; num 10 10; num 109732 100000; num 115867 100000; num 122711 100000; num 142089 100000; num 151959 100000; txt "Robust-Linear"; num 386436 100000; na; na; num 43546 100000; num 51298 100000; num 87556 100000; num 90053 100000; num 91469 100000; num 10 10; num 10449 10000; num 116097 100000; num 121997 100000; num 134891 100000; num 145284 100000; num 125309 100000; num 124541 100000; num (-8726) 100000; num 20148 100000; num 12197 100000; num 36802 100000; num 64362 100000; num 76015 100000; num 83449 100000; num 9172 10000; num 99935 100000; num 104172 100000; num 125309 100000; num 124541 100000; num 15986 10000; num 148969 100000; num 183744 100000; num 165527 100000; num 215447 100000; num 186783 100000; num 262604 100000; num 22351 10000; num 278372 100000; num 237674 100000; num 12495 10000; num 48415 100000; num (-9537) 100000; num (-14124) 100000; num 10647 100000; num (-4591) 100000; num 70973 100000; num 21233 100000; num 86776 100000; num 29425 100000; num 101033 100000; num 36986 100000; num 12495 10000; num 48415 100000; num 156982 100000; num 65136 100000; num 183438 100000; num 77336 100000; num 214669 100000; num 93328 100000; num 258685 100000; num 114934 100000; num 274664 100000; num 121614 100000];
    [txt "W_oceania"; txt "Robust-Quadratic"; num 35125 100000; num 91624 100000; na; num (-42937) 100000; num (-28776) 100000; num 25793 100000; num 56674 100000; num 70762 100000; num 10 10; num 122644 100000; num 133297 100000; num 162573 100000; num 197288 100000; num 206954 100000; txt "Robust-Quadratic"; num 360863 100000; num 1950245 100000; na; num 45551 100000; num 54965 100000; num 76789 100000; num 84196 100000; num 89174 100000; num 10 10; num 113303 100000; num 120857 100000; num 133269 100000; num 169669 100000; num 196642 100000; txt "Robust-Linear"; num 217176 100000; na; na; num 43204 100000; num 59572 100000; num 82676 100000; num 87815 100000; num 93798 100000; num 10 10; num 113982 100000; num 116626 100000; num 127385 100000; num 148076 100000; num 156499 100000; num 55682 100000; num 155338 100000; num (-5717) 100000; num (-10318) 100000; num 1192 100000; num 8655 100000; num 24845 100000; num 72557 100000; num 37215 100000; num 105571 100000; num 43187 100000; num 121651 100000; num 55682 100000; num 155338 100000; num 6637 10000; num 184561 100000; num 71665 100000; num 199135 100000; num 845 1000; num 233867 100000; num 104176 100000; num 288866 100000; num 113116 100000; num 314908 100000; num 61751 100000; num 94832 100000; num (-3577) 100000; num (-37955) 100000; num 5755 100000; num (-24454) 100000; num 31074 100000; num 26284 100000; num 43289 100000; num 54744 100000; num 4983 10000; num 67844 100000; num 61751 100000; num 94832 100000; num 73428 100000; num 116028 100000; num 77874 100000; num 125874 100000; num 91022 100000; num 153043 100000; num 108724 100000; num 185513 100000; num 114362 100000; num 19464 10000];
    [txt "W_sasia"; txt "Robust-Quadratic"; num 278145 100000; num 89046 100000; na; num 4302 100000; num 12536 100000; num 48619 100000; num 61329 100000; num 74356 100000; num 10 10; num 118843 100000; num 12631 10000; num 138906 100000; num 168602 100000; num 178961 100000; txt "Robust-Quadratic"; num 547499 100000; num (-1433268) 100000; na; num (-23666) 100000; num (-11766) 100000; num 26451 100000; num 51949 100000; num 68605 100000; num 10 10; num 123716 100000; num 135701 100000; num 14601 10000; num 171319 100000; num 182747 100000; txt "Robust-Linear"; num 50767 100000; na; na; num 40218 100000; num 44996 100000; num 54101 100000; num 61516 100000; num 70322 100000; num 100003 100000; num 173944 100000; num 212315 100000; num 254224 100000; num 34871 10000; num 447088 100000; num 305403 100000; num 9233 10000; num (-2587) 100000; num 2077 100000; num 23887 100000; num 984 10000; num 13637 10000; num 4343 10000; num 175926 100000; num 55254 100000; num 217981 100000; num 67556 100000; num 305403 100000; num 9233 10000; num 371205 100000; num 110722 100000; num 399928 100000; num 118329 100000; num 444005 100000; num 130635 100000; num 537652 100000; num 158409 100000; num 571474 100000; num 168237 100000; num 284369 100000; num 89796 100000; num 14468 100000; num 4132 100000; num 37669 100000; num 115 1000; num 138599 100000; num 43699 100000; num 174412 100000; num 55072 100000; num 211196 100000; num 66739 100000; num 284369 100000; num 89796 100000; num 341383 100000; num 107129 100000; num 36454 10000; num 114066 100000; num 402184 100000; num 125596 100000; num 490661 100000; num 152748 100000; num 525599 100000; num 16271 10000];
    [txt "W_seasia"; txt "Robust-Quadratic"; num 217792 100000; num 92635 100000; na; num (-53761) 100000; num (-25306) 100000; num 39027 100000; num 50011 100000; num 65053 100000; num 10 10; num 1249 1000; num 138746 100000; num 169613 100000; num 196406 100000; num 209689 100000; txt "Robust-Quadratic"; num 1890968 100000; num (-1596062) 100000; na; num 4564 10000; num 56833 100000; num 76565 100000; num 83553 100000; num 88944 100000; num 10 10; num 109798 100000; num 114269 100000; num 122396 100000; num 146461 100000; num 158262 100000; txt "Robust-Linear"; num 929209 100000; na; na; num 47516 100000; num 52395 100000; num 88124 100000; num 90734 100000; num 92573 100000; num 10 10; num 105881 100000; num 111913 100000; num 119921 100000; num 132282 100000; num 141681 100000; num 411009 100000; num 115912 100000; num (-21889) 100000; num (-38332) 100000; num 54037 100000; num (-10292) 100000; num 222746 100000; num 52748 100000; num 265501 100000; num 65192 100000; num 312727 100000; num 80869 100000; num 411009 100000; num 115912 100000; num 484137 100000; num 141255 100000; num 521541 100000; num 154955 100000; num 600482 100000; num 184959 100000; num 700479 100000; num 214796 100000; num 762998 100000; num 231148 100000; num 331717 100000; num 10636 10000; num (-62954) 100000; num (-4328) 10000; num 4576 100000; num (-16251) 100000; num 185394 100000; num 48248 100000; num 21229 10000; num 58781 100000; num 247145 100000; num 72968 100000; num 331717 100000; num 10636 10000; num 392647 100000; num 130233 100000; num 429676 100000; num 143887 100000; num 506023 100000; num 173579 100000; num 578459 100000; num 200095 100000; num 618098 100000; num 213691 100000];
    [txt "W_southafrica"; txt "Robust-Quadratic"; num 35895 100000; num 14799 10000; na; num 4965 10000; num 54653 100000; num 68379 100000; num 78774 100000; num 85564 100000; num 10 10; num 114013 100000; num 119986 100000; num 130364 100000; num 166915 100000; num 183007 100000; txt "Robust-Quadratic"; num 36636 10000; num 977887 100000; na; num 27262 100000; num 41727 100000; num 65563 100000; num 79957 100000; num 88045 100000; num 10 10; num 116149 100000; num 124115 100000; num 132694 100000; num 160507 100000; num 178613 100000; txt "Robust-Linear"; num 172333 100000; na; na; num 2466 10000; num 5454 10000; num 71115 100000; num 79885 100000; num 89841 100000; num 10 10; num 114764 100000; num 119513 100000; num 135414 100000; num 154234 100000; num 175235 100000; num 68936 100000; num 182676 100000; num 2683 10000; num 82934 100000; num 33405 100000; num 95354 100000; num 46208 100000; num 123935 100000; num 54695 100000; num 144312 100000; num 59805 100000; num 157166 100000; num 68936 100000; num 182676 100000; num 79302 100000; num 209015 100000; num 84078 100000; num 220618 100000; num 90638 100000; num 238953 100000; num 112948 100000; num 302691 100000; num 124706 100000; num 332786 100000; num 57024 100000; num 150536 100000; num 23033 100000; num 74105 100000; num 31141 100000; num 82269 100000; num 39571 100000; num 103004 100000; num 45155 100000; num 118612 100000; num 49696 100000; num 128914 100000; num 57024 100000; num 150536 100000; num 65174 100000; num 171649 100000; num 68321 100000; num 18061 10000; num 75406 100000; num 196374 100000; num 92502 100000; num 250943 100000; num 102716 100000; num 275293 100000];
    [txt "W_ssa"; txt "Robust-Quadratic"; num 230932 100000; num 161944 100000; na; num 46934 100000; num 53237 100000; num 72094 100000; num 80863 100000; num 87591 100000; num 10 10; num 110226 100000; num 117251 100000; num 126236 100000; num 139739 100000; num 145479 100000; txt "Robust-Quadratic"; num 207698 100000; num (-142174) 10000; na; num 23146 10000; num 213862 100000; num 168235 100000; num 150877 100000; num 130989 100000; num 10 10; num 81606 100000; num 70975 100000; num 61507 100000; num 49557 100000; num 46272 100000; txt "Robust-Linear"; num (-6333) 10000; na; na; num 180862 100000; num 168653 100000; num 143111 100000; num 135771 100000; num 123868 100000; num 10 10; num 3689 100000; num (-50544) 100000; num (-92052) 100000; num (-148909) 100000; num (-174829) 100000; num 21177 10000; num 159635 100000; num 56438 100000; num 69749 100000; num 74356 100000; num 80361 100000; num 129117 100000; num 11225 10000; num 155006 100000; num 12713 10000; num 17448 10000; num 138499 100000; num 21177 10000; num 159635 100000; num 252309 100000; num 178235 100000; num 281122 100000; num 191128 100000; num 310565 100000; num 206726 100000; num 349892 100000; num 229575 100000; num 365786 100000; num 239188 100000; num 223167 100000; num 161008 100000; num 94343 100000; num 74316 100000; num 109847 100000; num 84637 100000; num 155377 100000; num 115414 100000; num 176197 100000; num 129683 100000; num 192657 100000; num 140689 100000; num 223167 100000; num 161008 100000; num 25426 10000; num 17847 10000; num 274695 100000; num 190354 100000; num 298667 100000; num 205293 100000; num 334265 100000; num 227692 100000; num 349533 100000; num 23723 10000];
    [txt "W_te"; txt "Robust-Quadratic"; num 79225 100000; num 25203 100000; na; num 5221 100000; num 1063 10000; num 36509 100000; num 56734 100000; num 67856 100000; num 10 10; num 131151 100000; num 154471 100000; num 173994 100000; num 217436 100000; num 22929 10000; txt "Robust-Quadratic"; num 15443 10000; num 326757 100000; na; num 34315 100000; num 39143 100000; num 56143 100000; num 66081 100000; num 84505 100000; num 10 10; num 118513 100000; num 127393 100000; num 138388 100000; num 172197 100000; num 187313 100000; txt "Robust-Linear"; num 71403 100000; na; na; num 53768 100000; num 72109 100000; num 76818 100000; num 86118 100000; num 88268 100000; num 10 10; num 104828 100000; num 10774 10000; num 123655 100000; num 145917 100000; num 156118 100000; num 94191 100000; num 37266 100000; num 9271 100000; num 5455 100000; num 1428 10000; num 7401 100000; num 37327 100000; num 15974 100000; num 54837 100000; num 2227 10000; num 66405 100000; num 27296 100000; num 94191 100000; num 37266 100000; num 121641 100000; num 4735 10000; num 141445 100000; num 54299 100000; num 158557 100000; num 60545 100000; num 198034 100000; num 75573 100000; num 209688 100000; num 80384 100000; num 8798 10000; num 26258 100000; num 8843 100000; num 1883 100000; num 14735 100000; num 344 10000; num 35649 100000; num 10012 100000; num 52487 100000; num 15207 100000; num 61486 100000; num 18033 100000; num 8798 10000; num 26258 100000; num 113082 100000; num 3416 10000; num 131812 100000; num 40068 100000; num 148672 100000; num 45156 100000; num 185038 100000; num 56339 100000; num 195323 100000; num 59435 100000];
    [txt "W_usa"; txt "Robust-Quadratic"; num 47181 100000; num 44773 100000; na; num 3694 10000; num 46697 100000; num 68779 100000; num 75749 100000; num 81587 100000; num 10 10; num 118855 100000; num 129361 100000; num 147692 100000; num 174343 100000; num 182295 100000; txt "Robust-Quadratic"; num 254249 100000; num 2088181 100000; na; num 29168 100000; num 43404 100000; num 70967 100000; num 82478 100000; num 88333 100000; num 10 10; num 114185 100000; num 121744 100000; num 134041 100000; num 15699 10000; num 172987 100000; txt "Robust-Linear"; num 139462 100000; na; na; num 21264 100000; num 34828 100000; num 75287 100000; num 85222 100000; num 9037 10000; num 100002 100000; num 112238 100000; num 115827 100000; num 118119 100000; num 139933 100000; num 143114 100000; num 52992 100000; num 111041 100000; num 19124 100000; num 35869 100000; num 24554 100000; num 49671 100000; num 36575 100000; num 77823 100000; num 40532 100000; num 88571 100000; num 43627 100000; num 95066 100000; num 52992 100000; num 111041 100000; num 62713 100000; num 128884 100000; num 68109 100000; num 138596 100000; num 77472 100000; num 154952 100000; num 9138 10000; num 182093 100000; num 96062 100000; num 196254 100000; num 6428 10000; num 46833 100000; num 21065 100000; num 16977 100000; num 27987 100000; num 21625 100000; num 45324 100000; num 32345 100000; num 50311 100000; num 3567 10000; num 53946 100000; num 38391 100000; num 6428 10000; num 46833 100000; num 75269 100000; num 55527 100000; num 80839 100000; num 60305 100000; num 8988 10000; num 68559 100000; num 106184 100000; num 80941 100000; num 11048 10000; num 84567 100000]] |}.

(** inputdata/regionalparams/mortality.csv *)
Definition mortality : table := {|
  t_columns := ["region"; "Unnamed: 1"; "oldest_a"; "oldest_b"; "oldest_c"; "older_a"; "older_b"; "older_c"; "young_a"; "young_b"; "young_c"];
  t_rows := [
    [txt "BRA"; txt "Brazil"; num 476875753 1000000000; num (-2856623262) 1000000000; num 121732322 10000000; num 21764997 1000000000; num (-15568378) 100000000; num 445644345 1000000000; num 54325273 1000000000; num (-468225912) 1000000000; num 1409673691 1000000000];
    [txt "CAN"; txt "Canada"; num 369427671 1000000000; num (-3459118857) 1000000000; num 1649230574 100000000; num 1436717 1000000000; num (-10152911) 1000000000; num 146789758 1000000000; num 772604 1000000000; num 710054 100000000; num 65867631 1000000000];
    [txt "RCAM"; txt "Central America"; num 215710845 1000000000; num (-1142050057) 1000000000; num 3801806046 1000000000; num 11406619 1000000000; num (-67968247) 1000000000; num 206923552 1000000000; num 31627752 1000000000; num (-162681154) 1000000000; num 541701357 1000000000];
    [txt "STAN"; txt "Central Asia"; num 37603596 1000000000; num 2161631806 1000000000; num 7282591111 1000000000; num 17875499 1000000000; num (-60378491) 1000000000; num 517674239 1000000000; num 97105476 1000000000; num (-729239474) 1000000000; num 3752604964 1000000000];
    [txt "CEU"; txt "Central Europe"; num 135108856 100000000; num (-1153280747) 100000000; num 3865347982 100000000; num 14901683 1000000000; num (-100265608) 1000000000; num 36050142 100000000; num 37791378 1000000000; num (-297534598) 1000000000; num 1666241895 1000000000];
    [txt "CHN"; txt "China region"; num 3555009755 1000000000; num (-3262883413) 100000000; num 2344842056 10000000; num 242652548 1000000000; num (-1811854191) 1000000000; num 599858905 100000000; num 858069097 1000000000; num (-7085555966) 1000000000; num 2512114213 100000000];
    [txt "EAF"; txt "Eastern Africa"; num 871695733 1000000000; num 4309702141 1000000000; num 139481347 10000000; num 39306794 1000000000; num 291822927 1000000000; num 1687670885 1000000000; num 34869996 100000000; num (-82919536) 100000000; num 7720920191 1000000000];
    [txt "INDIA"; txt "India"; num 5658709907 1000000000; num 4198104945 100000000; num 791430404 10000000; num 33528795 100000000; num 362080872 1000000000; num 6915436546 1000000000; num 966249326 1000000000; num (-2747738916) 1000000000; num 2564813385 100000000];
    [txt "INDO"; txt "Indonesia region"; num 5688562 10000000; num (-2836695951) 1000000000; num 6908258415 1000000000; num 26519144 1000000000; num (-155601744) 1000000000; num 347166143 1000000000; num 56415016 1000000000; num (-196528189) 1000000000; num 46441342 100000000];
    [txt "JAP"; txt "Japan"; num 54858573 100000000; num (-4500704966) 1000000000; num 1201495132 100000000; num 7151544 1000000000; num (-5337592) 100000000; num 209453116 1000000000; num 14206123 1000000000; num (-147222132) 1000000000; num 696573252 1000000000];
    [txt "KOR"; txt "Korea region"; num 197763256 1000000000; num (-1951339126) 1000000000; num 1038058829 100000000; num 570024 100000000; num (-44986676) 1000000000; num 177497603 1000000000; num 29563823 1000000000; num (-263220064) 1000000000; num 1024510157 1000000000];
    [txt "MEX"; txt "Mexico"; num (-1477696) 1000000000; num (-233616668) 1000000000; num 7696712958 1000000000; num 529684 100000000; num (-48786998) 1000000000; num 275609089 1000000000; num 33110365 1000000000; num (-432476629) 1000000000; num 189130765 100000000];
    [txt "ME"; txt "Middle East"; num 971570562 1000000000; num 2151703481 100000000; num (-123021619) 100000000; num 39917385 1000000000; num 672771185 1000000000; num 1096257184 1000000000; num 9546556 100000000; num 421662662 1000000000; num 6969641326 1000000000];
    [txt "NAF"; txt "Northern Africa"; num 669416351 1000000000; num 5628143675 1000000000; num 1305778407 100000000; num 43676548 1000000000; num 16366 1000000; num 905907585 1000000000; num 125821852 1000000000; num (-572874288) 1000000000; num 4905300051 1000000000];
    [txt "OCE"; txt "Oceania"; num 20456 1000000; num (-61298277) 1000000000; num 179065181 100000000; num (-1037003) 1000000000; num 20087505 1000000000; num 68236131 1000000000; num (-11941724) 1000000000; num 87770384 1000000000; num 282652735 1000000000];
    [txt "RSAM"; txt "Rest of South America"; num 1410904 10000000; num (-1446707855) 1000000000; num 1987148485 100000000; num 14367989 1000000000; num (-127279085) 1000000000; num 690380046 1000000000; num 77820506 1000000000; num (-858108598) 1000000000; num 3893325657 1000000000];
    [txt "RSAS"; txt "Rest of South Asia"; num 2311290092 1000000000; num 2715713046 100000000; num 27375344 1000000; num 87733276 1000000000; num 127754897 100000000; num 3432859198 1000000000; num 215772798 1000000000; num 1310689766 1000000000; num 2249550111 100000000];
    [txt "RSAF"; txt "Rest of Southern Africa"; num 846860042 1000000000; num (-2813087131) 1000000000; num 8733794758 1000000000; num 62053992 1000000000; num (-167451503) 1000000000; num 838373304 1000000000; num 328501342 1000000000; num (-1025448688) 1000000000; num 3678964144 1000000000];
    [txt "RUS"; txt "Russia region"; num 2254959896 1000000000; num (-1920479189) 100000000; num 6508058401 100000000; num 28717582 1000000000; num (-212734006) 1000000000; num 888956123 1000000000; num 47395099 1000000000; num (-340134103) 1000000000; num 2320973731 1000000000];
    [txt "SAF"; txt "South Africa"; num 70499814 1000000000; num (-637675933) 1000000000; num 3659719024 1000000000; num 1735265 1000000000; num (-2223552) 100000000; num 183386752 1000000000; num 21360011 1000000000; num (-262720051) 1000000000; num 1211234936 1000000000];
    [txt "SEAS"; txt "Southeastern Asia"; num 1701696712 1000000000; num (-3584406213) 1000000000; num 1682994737 100000000; num 80460904 1000000000; num (-27421855) 100000000; num 841406643 1000000000; num 184241462 1000000000; num (-475019312) 1000000000; num 2223452242 1000000000];
    [txt "TUR"; txt "Turkey"; num 47915152 1000000000; num 906827326 1000000000; num 7045838724 1000000000; num 938383 100000000; num (-2752554) 100000000; num 250073657 1000000000; num 26062921 1000000000; num (-212245735) 1000000000; num 1964462806 1000000000];
    [txt "USA"; txt "USA"; num 142722858 100000000; num (-1053669994) 100000000; num 4370105708 100000000; num 563127 100000000; num 55627051 1000000000; num 814423615 1000000000; num (-61722085) 1000000000; num 440291151 1000000000; num 2109240834 1000000000];
    [txt "UKR"; txt "Ukraine region"; num 944489197 1000000000; num (-7522181054) 1000000000; num 2205348978 100000000; num 12117777 1000000000; num (-83798761) 1000000000; num 309021467 1000000000; num 24299202 1000000000; num (-174398443) 1000000000; num 115366243 100000000];
    [txt "WAF"; txt "Western Africa"; num 6993964166 1000000000; num (-1306582261) 100000000; num 1974410938 100000000; num 536197835 1000000000; num 130680376 1000000000; num 1139855972 1000000000; num 107282475 100000000; num 5211921756 1000000000; num 4899068844 1000000000];
    [txt "WEU"; txt "Western Europe"; num 2974632033 1000000000; num (-2612216385) 100000000; num 8619060523 100000000; num 12367441 1000000000; num (-49085174) 1000000000; num 385075621 1000000000; num (-14705527) 1000000000; num 8376044 100000000; num 1773539676 1000000000]] |}.

(** inputdata/regions/IMAGE26_COACCH.csv *)
Definition image_coacch : table := {|
  t_columns := ["IMAGE26"; "COACCH"];
  t_rows := [
    [txt "CAN"; txt "I_CAN"];
    [txt "USA"; txt "I_USA"];
    [txt "MEX"; txt "I_Laca"];
    [txt "RCAM"; txt "I_Laca"];
    [txt "BRA"; txt "I_Laca"];
    [txt "RSAM"; txt "I_Laca"];
    [txt "NAF"; txt "I_NAF"];
    [txt "WAF"; txt "I_SSA"];
    [txt "EAF"; txt "I_SSA"];
    [txt "SAF"; txt "I_RSAF"];
    [txt "WEU"; txt "I_WEU"];
    [txt "CEU"; txt "I_CEU"];
    [txt "TUR"; txt "I_MiddleEast"];
    [txt "UKR"; txt "I_FSU"];
    [txt "STAN"; txt "I_FSU"];
    [txt "RUS"; txt "I_FSU"];
    [txt "ME"; txt "I_MiddleEast"];
    [txt "INDIA"; txt "I_INDIA"];
    [txt "KOR"; txt "I_EastAsia"];
    [txt "CHN"; txt "I_CHN"];
    [txt "SEAS"; txt "I_SEAS"];
    [txt "INDO"; txt "I_SEAS"];
    [txt "JAP"; txt "I_JAP"];
    [txt "OCE"; txt "I_OCE"];
    [txt "RSAS"; txt "I_RSAS"];
    [txt "RSAF"; txt "I_SSA"]] |}.

(** inputdata/regions/IMAGE26_ADRICE2010.csv *)
Definition image_adrice2010 : table := {|
  t_columns := ["IMAGE26"; "ADRICE2010"];
  t_rows := [
    [txt "CAN"; txt "USA"];
    [txt "USA"; txt "USA"];
    [txt "MEX"; txt "LMI"];
    [txt "RCAM"; txt "LMI"];
    [txt "BRA"; txt "LMI"];
    [txt "RSAM"; txt "LMI"];
    [txt "NAF"; txt "AFRICA"];
    [txt "WAF"; txt "AFRICA"];
    [txt "EAF"; txt "AFRICA"];
    [txt "SAF"; txt "AFRICA"];
    [txt "WEU"; txt "EUROPE"];
    [txt "CEU"; txt "EUROPE"];
    [txt "TUR"; txt "LMI"];
    [txt "UKR"; txt "EE"];
    [txt "STAN"; txt "LMI"];
    [txt "RUS"; txt "RUSSIA"];
    [txt "ME"; txt "HIO"];
    [txt "INDIA"; txt "INDIA"];
    [txt "KOR"; txt "MI"];
    [txt "CHN"; txt "CHINA"];
    [txt "SEAS"; txt "LI"];
    [txt "INDO"; txt "LI"];
    [txt "JAP"; txt "JAPAN"];
    [txt "OCE"; txt "LI"];
    [txt "RSAS"; txt "LI"];
    [txt "RSAF"; txt "AFRICA"]] |}.

(** inputdata/regions/IMAGE26_ADRICE2012.csv *)
Definition image_adrice2012 : table := {|
  t_columns := ["IMAGE26"; "ADRICE2012"];
  t_rows := [
    [txt "CAN"; txt "USA"];
    [txt "USA"; txt "USA"];
    [txt "MEX"; txt "MI"];
    [txt "RCAM"; txt "MI"];
    [txt "BRA"; txt "MI"];
    [txt "RSAM"; txt "MI"];
    [txt "NAF"; txt "AFRICA"];
    [txt "WAF"; txt "AFRICA"];
    [txt "EAF"; txt "AFRICA"];
    [txt "SAF"; txt "AFRICA"];
    [txt "WEU"; txt "EUROPE"];
    [txt "CEU"; txt "EUROPE"];
    [txt "TUR"; txt "MI"];
    [txt "UKR"; txt "EE"];
    [txt "STAN"; txt "EE"];
    [txt "RUS"; txt "RUSSIA"];
    [txt "ME"; txt "OHI"];
    [txt "INDIA"; txt "INDIA"];
    [txt "KOR"; txt "MI"];
    [txt "CHN"; txt "CHINA"];
    [txt "SEAS"; txt "LI"];
    [txt "INDO"; txt "LI"];
    [txt "JAP"; txt "JAPAN"];
    [txt "OCE"; txt "LI"];
    [txt "RSAS"; txt "LI"];
    [txt "RSAF"; txt "AFRICA"]] |}.

(** inputdata/data/data_IMAGE_SSP.csv *)
Definition image_ssp : table := {|
  t_columns := ["Model"; "Scenario"; "Region"; "Variable"; "Unit"; "2010"; "2020"; "2030"; "2040"; "2050"; "2060"; "2070"; "2080"; "2090"; "2100"];
  t_rows := [
    [txt "IMAGE"; txt "SSP1-Ref-SPA0-V17"; txt "BRA"; txt "GDP|PPP"; txt "billion US$2005/yr"; num 19675780029296875 10000000000000; num 2679717041015625 1000000000000; num 3829077880859375 1000000000000; num 533147705078125 100000000000; num 691248681640625 100000000000; num 83869873046875 10000000000; num 9572494140625 1000000000; num 1047583984375 100000000; num 110436201171875 10000000000; num 112454404296875 10000000000];
    [txt "IMAGE"; txt "SSP2-Ref-SPA0-V17"; txt "BRA"; txt "GDP|PPP"; txt "billion US$2005/yr"; num 19675780029296875 10000000000000; num 2697052001953125 1000000000000; num 3618302978515625 1000000000000; num 449194482421875 100000000000; num 537843505859375 100000000000; num 62855498046875 10000000000; num 7175703125 1000000; num 808365283203125 100000000000; num 8970669921875 1000000000; num 98811103515625 10000000000];
    [txt "IMAGE"; txt "SSP3-Ref-SPA0-V17"; txt "BRA"; txt "GDP|PPP"; txt "billion US$2005/yr"; num 19675780029296875 10000000000000; num 2714888916015625 1000000000000; num 346489697265625 100000000000; num 3888867919921875 1000000000000; num 41520439453125 10000000000; num 433323876953125 100000000000; num 446293896484375 100000000000; num 45756728515625 10000000000; num 4633923828125 1000000000; num 467927294921875 100000000000];
    [txt "IMAGE"; txt "SSP4-Ref-SPA0-V17"; txt "BRA"; txt "GDP|PPP"; txt "billion US$2005/yr"; num 19675780029296875 10000000000000; num 2790748046875 1000000000; num 3693736083984375 1000000000000; num 45429619140625 10000000000; num 533231396484375 100000000000; num 608560302734375 100000000000; num 672484814453125 100000000000; num 726902783203125 100000000000; num 769910498046875 100000000000; num 807618701171875 100000000000];
    [txt "IMAGE"; txt "SSP5-Ref-SPA0-V17"; txt "BRA"; txt "GDP|PPP"; txt "billion US$2005/yr"; num 19675780029296875 10000000000000; num 2800527099609375 1000000000000; num 42390771484375 10000000000; num 64099267578125 10000000000; num 8867890625 1000000; num 11398099609375 1000000000; num 1375323046875 100000000; num 15917759765625 1000000000; num 17790919921875 1000000000; num 19261359375 1000000];
    [txt "IMAGE"; txt "SSP1-Ref-SPA0-V17"; txt "CAN"; txt "GDP|PPP"; txt "billion US$2005/yr"; num 120306298828125 100000000000; num 15424949951171875 10000000000000; num 1851198974609375 1000000000000; num 2244885009765625 1000000000000; num 2687986083984375 1000000000000; num 316647802734375 100000000000; num 3734385986328125 1000000000000; num 43142158203125 10000000000; num 484668701171875 100000000000; num 533487890625 100000000];
    [txt "IMAGE"; txt "SSP2-Ref-SPA0-V17"; txt "CAN"; txt "GDP|PPP"; txt "billion US$2005/yr"; num 120306298828125 100000000000; num 153652197265625 100000000000; num 1867406005859375 1000000000000; num 2252552978515625 1000000000000; num 265568408203125 100000000000; num 307731005859375 100000000000; num 3586656982421875 1000000000000; num 413648681640625 100000000000; num 4689546875 1000000; num 525243701171875 100000000000];
    [txt "IMAGE"; txt "SSP3-Ref-SPA0-V17"; txt "CAN"; txt "GDP|PPP"; txt "billion US$2005/yr"; num 120306298828125 100000000000; num 14931669921875 10000000000; num 1720634033203125 1000000000000; num 20105889892578125 10000000000000; num 2284490966796875 1000000000000; num 2472361083984375 1000000000000; num 26287958984375 10000000000; num 2722074951171875 1000000000000; num 2767217041015625 1000000000000; num 2794239013671875 1000000000000];
    [txt "IMAGE"; txt "SSP4-Ref-SPA0-V17"; txt "CAN"; txt "GDP|PPP"; txt "billion US$2005/yr"; num 120306298828125 100000000000; num 15231419677734375 10000000000000; num 18474200439453125 10000000000000; num 2265341064453125 1000000000000; num 2677532958984375 1000000000000; num 30824189453125 10000000000; num 35439970703125 10000000000; num 3985824951171875 1000000000000; num 4374658203125 1000000000; num 470359423828125 100000000000];
    [txt "IMAGE"; txt "SSP5-Ref-SPA0-V17"; txt "CAN"; txt "GDP|PPP"; txt "billion US$2005/yr"; num 120306298828125 100000000000; num 157768896484375 100000000000; num 21161240234375 10000000000; num 30242919921875 10000000000; num 41898740234375 10000000000; num 55687470703125 10000000000; num 730704296875 100000000; num 94024453125 10000000; num 1178301953125 100000000; num 145081201171875 10000000000];
    [txt "IMAGE"; txt "SSP1-Ref-SPA0-V17"; txt "CEU"; txt "GDP|PPP"; txt "billion US$2005/yr"; num 19296700439453125 10000000000000; num 249439501953125 100000000000; num 334369091796875 100000000000; num 427147607421875 100000000000; num 49994658203125 10000000000; num 5605962890625 1000000000; num 61883759765625 10000000000; num 66007021484375 10000000000; num 6882826171875 1000000000; num 710586181640625 100000000000];
    [txt "IMAGE"; txt "SSP2-Ref-SPA0-V17"; txt "CEU"; txt "GDP|PPP"; txt "billion US$2005/yr"; num 19296700439453125 10000000000000; num 2480989013671875 1000000000000; num 3181594970703125 1000000000000; num 3868241943359375 1000000000000; num 44652939453125 10000000000; num 504952490234375 100000000000; num 56804970703125 10000000000; num 6237291015625 1000000000; num 675190087890625 100000000000; num 728635986328125 100000000000];
    [txt "IMAGE"; txt "SSP3-Ref-SPA0-V17"; txt "CEU"; txt "GDP|PPP"; txt "billion US$2005/yr"; num 19296700439453125 10000000000000; num 2451987060546875 1000000000000; num 2978552001953125 1000000000000; num 3326949951171875 1000000000000; num 349926904296875 100000000000; num 360468408203125 100000000000; num 3715615966796875 1000000000000; num 375668896484375 100000000000; num 377177001953125 100000000000; num 380464501953125 100000000000];
    [txt "IMAGE"; txt "SSP4-Ref-SPA0-V17"; txt "CEU"; txt "GDP|PPP"; txt "billion US$2005/yr"; num 19296700439453125 10000000000000; num 25222099609375 10000000000; num 328243505859375 100000000000; num 402293505859375 100000000000; num 45809951171875 10000000000; num 50648759765625 10000000000; num 55235341796875 10000000000; num 58173408203125 10000000000; num 60174541015625 10000000000; num 619548291015625 100000000000];
    [txt "IMAGE"; txt "SSP5-Ref-SPA0-V17"; txt "CEU"; txt "GDP|PPP"; txt "billion US$2005/yr"; num 19296700439453125 10000000000000; num 2574402099609375 1000000000000; num 3668660888671875 1000000000000; num 50276318359375 10000000000; num 6332830078125 1000000000; num 771871484375 100000000; num 93380712890625 10000000000; num 1102116015625 100000000; num 12782919921875 1000000000; num 14757830078125 1000000000];
    [txt "IMAGE"; txt "SSP1-Ref-SPA0-V17"; txt "CHN"; txt "GDP|PPP"; txt "billion US$2005/yr"; num 115278203125 10000000; num 24734439453125 1000000000; num 4578276171875 100000000; num 670995625 10000; num 81580796875 1000000; num 87213828125 1000000; num 875143671875 10000000; num 84051140625 1000000; num 787917109375 10000000; num 7248046875 100000];
    [txt "IMAGE"; txt "SSP2-Ref-SPA0-V17"; txt "CHN"; txt "GDP|PPP"; txt "billion US$2005/yr"; num 115278203125 10000000; num 24533529296875 1000000000; num 4023253125 100000; num 52206109375 1000000; num 610155 10; num 6605709375 100000; num 692547265625 10000000; num 70782421875 1000000; num 7116625 100; num 71139328125 1000000];
    [txt "IMAGE"; txt "SSP3-Ref-SPA0-V17"; txt "CHN"; txt "GDP|PPP"; txt "billion US$2005/yr"; num 115278203125 10000000; num 24457380859375 1000000000; num 3727280078125 100000000; num 4338748046875 100000000; num 4603708984375 100000000; num 461240 10; num 45852359375 1000000; num 4534048046875 100000000; num 44771359375 1000000; num 44581359375 1000000];
    [txt "IMAGE"; txt "SSP4-Ref-SPA0-V17"; txt "CHN"; txt "GDP|PPP"; txt "billion US$2005/yr"; num 115278203125 10000000; num 2528775 100; num 4169373046875 100000000; num 5439062109375 100000000; num 6270301953125 100000000; num 6601009375 100000; num 6637615625 100000; num 6424533984375 100000000; num 6090337109375 100000000; num 5725758984375 100000000];
    [txt "IMAGE"; txt "SSP5-Ref-SPA0-V17"; txt "CHN"; txt "GDP|PPP"; txt "billion US$2005/yr"; num 115278203125 10000000; num 259290703125 10000000; num 5286426953125 100000000; num 832854765625 10000000; num 1053256015625 10000000; num 1170693984375 10000000; num 122982203125 1000000; num 124396296875 1000000; num 123421203125 1000000; num 1205888984375 10000000];
    [txt "IMAGE"; txt "SSP1-Ref-SPA0-V17"; txt "EAF"; txt "GDP|PPP"; txt "billion US$2005/yr"; num 3184859924316406 10000000000000; num 5256732788085938 10000000000000; num 105972900390625 100000000000; num 2248382080078125 1000000000000; num 445407177734375 100000000000; num 795964013671875 100000000000; num 1275333984375 100000000; num 18488759765625 1000000000; num 24701099609375 1000000000; num 30851390625 1000000];
    [txt "IMAGE"; txt "SSP2-Ref-SPA0-V17"; txt "EAF"; txt "GDP|PPP"; txt "billion US$2005/yr"; num 3184859924316406 10000000000000; num 5338118896484375 10000000000000; num 9688572998046875 10000000000000; num 17178409423828125 10000000000000; num 3017381103515625 1000000000000; num 513564599609375 100000000000; num 83819130859375 10000000000; num 130014501953125 10000000000; num 1912894921875 100000000; num 26791189453125 1000000000];
    [txt "IMAGE"; txt "SSP3-Ref-SPA0-V17"; txt "EAF"; txt "GDP|PPP"; txt "billion US$2005/yr"; num 3184859924316406 10000000000000; num 5416370849609375 10000000000000; num 90319970703125 100000000000; num 1372863037109375 1000000000000; num 20494951171875 10000000000; num 2989632080078125 1000000000000; num 428131201171875 100000000000; num 59748271484375 10000000000; num 80684501953125 10000000000; num 105944404296875 10000000000];
    [txt "IMAGE"; txt "SSP4-Ref-SPA0-V17"; txt "EAF"; txt "GDP|PPP"; txt "billion US$2005/yr"; num 3184859924316406 10000000000000; num 5639473266601562 10000000000000; num 9113115234375 10000000000; num 12914090576171875 10000000000000; num 17758509521484375 10000000000000; num 2382701904296875 1000000000000; num 3145611083984375 1000000000000; num 4073577880859375 1000000000000; num 5155544921875 1000000000; num 641845703125 100000000];
    [txt "IMAGE"; txt "SSP5-Ref-SPA0-V17"; txt "EAF"; txt "GDP|PPP"; txt "billion US$2005/yr"; num 3184859924316406 10000000000000; num 5508037109375 10000000000; num 12054930419921875 10000000000000; num 2872302001953125 1000000000000; num 613680908203125 100000000000; num 11558259765625 1000000000; num 19356419921875 1000000000; num 2930398046875 100000000; num 409887109375 10000000; num 5378523828125 100000000];
    [txt "IMAGE"; txt "SSP1-Ref-SPA0-V17"; txt "INDIA"; txt "GDP|PPP"; txt "billion US$2005/yr"; num 359985205078125 100000000000; num 680093408203125 100000000000; num 130703798828125 10000000000; num 23351580078125 1000000000; num 362937109375 10000000; num 5012919921875 100000000; num 6309844921875 100000000; num 735243125 10000; num 811877421875 10000000; num 856729765625 10000000];
    [txt "IMAGE"; txt "SSP2-Ref-SPA0-V17"; txt "INDIA"; txt "GDP|PPP"; txt "billion US$2005/yr"; num 359985205078125 100000000000; num 685777783203125 100000000000; num 1200816015625 100000000; num 187396796875 10000000; num 27088390625 1000000; num 368648203125 10000000; num 4771073046875 100000000; num 58899578125 1000000; num 69978328125 1000000; num 806494765625 10000000];
    [txt "IMAGE"; txt "SSP3-Ref-SPA0-V17"; txt "INDIA"; txt "GDP|PPP"; txt "billion US$2005/yr"; num 359985205078125 100000000000; num 6910623046875 1000000000; num 1110401953125 100000000; num 149350302734375 10000000000; num 18583439453125 1000000000; num 221194609375 10000000; num 25714859375 1000000; num 29303380859375 1000000000; num 327891796875 10000000; num 3633194921875 100000000];
    [txt "IMAGE"; txt "SSP4-Ref-SPA0-V17"; txt "INDIA"; txt "GDP|PPP"; txt "billion US$2005/yr"; num 359985205078125 100000000000; num 680084423828125 100000000000; num 11538509765625 1000000000; num 17254509765625 1000000000; num 2349094921875 100000000; num 29897439453125 1000000000; num 359194609375 10000000; num 4093983984375 100000000; num 4497662109375 100000000; num 48124078125 1000000];
    [txt "IMAGE"; txt "SSP5-Ref-SPA0-V17"; txt "INDIA"; txt "GDP|PPP"; txt "billion US$2005/yr"; num 359985205078125 100000000000; num 68451318359375 10000000000; num 1418848046875 100000000; num 27698869140625 1000000000; num 4582048828125 100000000; num 667990234375 10000000; num 886209609375 10000000; num 1089586015625 10000000; num 1272996015625 10000000; num 14253890625 100000];
    [txt "IMAGE"; txt "SSP1-Ref-SPA0-V17"; txt "INDO"; txt "GDP|PPP"; txt "billion US$2005/yr"; num 9494943237304688 10000000000000; num 1741300048828125 1000000000000; num 33909599609375 10000000000; num 601127978515625 100000000000; num 9050935546875 1000000000; num 12096400390625 1000000000; num 1473808984375 100000000; num 16712470703125 1000000000; num 18070990234375 1000000000; num 18839869140625 1000000000];
    [txt "IMAGE"; txt "SSP2-Ref-SPA0-V17"; txt "INDO"; txt "GDP|PPP"; txt "billion US$2005/yr"; num 9494943237304688 10000000000000; num 1740583984375 1000000000; num 30241669921875 10000000000; num 457414599609375 100000000000; num 6319119140625 1000000000; num 816614404296875 100000000000; num 100146796875 10000000; num 118202900390625 10000000000; num 13597009765625 1000000000; num 153188798828125 10000000000];
    [txt "IMAGE"; txt "SSP3-Ref-SPA0-V17"; txt "INDO"; txt "GDP|PPP"; txt "billion US$2005/yr"; num 9494943237304688 10000000000000; num 17463599853515625 10000000000000; num 282525 100; num 3750820068359375 1000000000000; num 452718408203125 100000000000; num 51428310546875 10000000000; num 563381689453125 100000000000; num 60541708984375 10000000000; num 64343369140625 10000000000; num 6806673828125 1000000000];
    [txt "IMAGE"; txt "SSP4-Ref-SPA0-V17"; txt "INDO"; txt "GDP|PPP"; txt "billion US$2005/yr"; num 9494943237304688 10000000000000; num 17690030517578125 10000000000000; num 304019091796875 100000000000; num 456643896484375 100000000000; num 616010595703125 100000000000; num 76699912109375 10000000000; num 8936380859375 1000000000; num 98881630859375 10000000000; num 105989404296875 10000000000; num 11089740234375 1000000000];
    [txt "IMAGE"; txt "SSP5-Ref-SPA0-V17"; txt "INDO"; txt "GDP|PPP"; txt "billion US$2005/yr"; num 9494943237304688 10000000000000; num 17978480224609375 10000000000000; num 379780908203125 100000000000; num 73707109375 10000000; num 11792919921875 1000000000; num 16517119140625 1000000000; num 21056109375 1000000; num 25056609375 1000000; num 28555740234375 1000000000; num 315009296875 10000000];
    [txt "IMAGE"; txt "SSP1-Ref-SPA0-V17"; txt "JAP"; txt "GDP|PPP"; txt "billion US$2005/yr"; num 39295 10; num 433130322265625 100000000000; num 49990078125 10000000; num 572672900390625 100000000000; num 64064228515625 10000000000; num 70519482421875 10000000000; num 758748681640625 100000000000; num 79564150390625 10000000000; num 82065029296875 10000000000; num 837021484375 100000000];
    [txt "IMAGE"; txt "SSP2-Ref-SPA0-V17"; txt "JAP"; txt "GDP|PPP"; txt "billion US$2005/yr"; num 39295 10; num 430036181640625 100000000000; num 474184912109375 100000000000; num 50254189453125 10000000000; num 529401611328125 100000000000; num 56041162109375 10000000000; num 591593310546875 100000000000; num 61954658203125 10000000000; num 64762861328125 10000000000; num 67630439453125 10000000000];
    [txt "IMAGE"; txt "SSP3-Ref-SPA0-V17"; txt "JAP"; txt "GDP|PPP"; txt "billion US$2005/yr"; num 39295 10; num 42417958984375 10000000000; num 448855810546875 100000000000; num 440672900390625 100000000000; num 41928720703125 10000000000; num 394843408203125 100000000000; num 3676029052734375 1000000000000; num 3381114013671875 1000000000000; num 3131930908203125 1000000000000; num 2919322998046875 1000000000000];
    [txt "IMAGE"; txt "SSP4-Ref-SPA0-V17"; txt "JAP"; txt "GDP|PPP"; txt "billion US$2005/yr"; num 39295 10; num 434184716796875 100000000000; num 49679189453125 10000000000; num 561923779296875 100000000000; num 617693798828125 100000000000; num 6670490234375 1000000000; num 702101416015625 100000000000; num 716677978515625 100000000000; num 719785107421875 100000000000; num 71377431640625 10000000000];
    [txt "IMAGE"; txt "SSP5-Ref-SPA0-V17"; txt "JAP"; txt "GDP|PPP"; txt "billion US$2005/yr"; num 39295 10; num 442952001953125 100000000000; num 5423623046875 1000000000; num 675560791015625 100000000000; num 8221671875 1000000; num 99220302734375 10000000000; num 11818919921875 1000000000; num 138684697265625 10000000000; num 160764501953125 10000000000; num 18495140625 1000000];
    [txt "IMAGE"; txt "SSP1-Ref-SPA0-V17"; txt "KOR"; txt "GDP|PPP"; txt "billion US$2005/yr"; num 134847998046875 100000000000; num 1913092041015625 1000000000000; num 2615364013671875 1000000000000; num 3222535888671875 1000000000000; num 36596650390625 10000000000; num 39520869140625 10000000000; num 414127197265625 100000000000; num 42493271484375 10000000000; num 428668896484375 100000000000; num 424696484375 100000000];
    [txt "IMAGE"; txt "SSP2-Ref-SPA0-V17"; txt "KOR"; txt "GDP|PPP"; txt "billion US$2005/yr"; num 134847998046875 100000000000; num 18992099609375 10000000000; num 2517635009765625 1000000000000; num 3013887939453125 1000000000000; num 3388263916015625 1000000000000; num 3653032958984375 1000000000000; num 3828928955078125 1000000000000; num 3964949951171875 1000000000000; num 4070302978515625 1000000000000; num 41365908203125 10000000000];
    [txt "IMAGE"; txt "SSP3-Ref-SPA0-V17"; txt "KOR"; txt "GDP|PPP"; txt "billion US$2005/yr"; num 134847998046875 100000000000; num 187310400390625 100000000000; num 2370360107421875 1000000000000; num 2644172119140625 1000000000000; num 2721385009765625 1000000000000; num 265652294921875 100000000000; num 251206201171875 100000000000; num 232639501953125 100000000000; num 211772705078125 100000000000; num 19050030517578125 10000000000000];
    [txt "IMAGE"; txt "SSP4-Ref-SPA0-V17"; txt "KOR"; txt "GDP|PPP"; txt "billion US$2005/yr"; num 134847998046875 100000000000; num 19541639404296875 10000000000000; num 2650055908203125 1000000000000; num 3223044921875 1000000000; num 3605053955078125 1000000000000; num 383105908203125 100000000000; num 3930575927734375 1000000000000; num 394594189453125 100000000000; num 3904950927734375 1000000000000; num 381589404296875 100000000000];
    [txt "IMAGE"; txt "SSP5-Ref-SPA0-V17"; txt "KOR"; txt "GDP|PPP"; txt "billion US$2005/yr"; num 134847998046875 100000000000; num 199464501953125 100000000000; num 286522607421875 100000000000; num 3732114990234375 1000000000000; num 453227001953125 100000000000; num 53218740234375 10000000000; num 613815283203125 100000000000; num 701747314453125 100000000000; num 7953541015625 1000000000; num 89241865234375 10000000000];
    [txt "IMAGE"; txt "SSP1-Ref-SPA0-V17"; txt "ME"; txt "GDP|PPP"; txt "billion US$2005/yr"; num 246722705078125 100000000000; num 365793310546875 100000000000; num 541632080078125 100000000000; num 7679783203125 1000000000; num 99798154296875 10000000000; num 123020595703125 10000000000; num 146681396484375 10000000000; num 1677923046875 100000000; num 187027109375 10000000; num 2029844921875 100000000];
    [txt "IMAGE"; txt "SSP2-Ref-SPA0-V17"; txt "ME"; txt "GDP|PPP"; txt "billion US$2005/yr"; num 246722705078125 100000000000; num 3703714111328125 1000000000000; num 539118603515625 100000000000; num 733269189453125 100000000000; num 9372998046875 1000000000; num 116064697265625 10000000000; num 141611796875 10000000; num 1691308984375 100000000; num 1989494921875 100000000; num 2309069921875 100000000];
    [txt "IMAGE"; txt "SSP3-Ref-SPA0-V17"; txt "ME"; txt "GDP|PPP"; txt "billion US$2005/yr"; num 246722705078125 100000000000; num 3691008056640625 1000000000000; num 52922841796875 10000000000; num 709832177734375 100000000000; num 85944521484375 10000000000; num 9764490234375 1000000000; num 109689697265625 10000000000; num 123523701171875 10000000000; num 139886796875 10000000; num 159022099609375 10000000000];
    [txt "IMAGE"; txt "SSP4-Ref-SPA0-V17"; txt "ME"; txt "GDP|PPP"; txt "billion US$2005/yr"; num 246722705078125 100000000000; num 3797805908203125 1000000000000; num 56939609375 10000000; num 8140703125 1000000; num 10484900390625 1000000000; num 126926103515625 10000000000; num 150859296875 10000000; num 17791380859375 1000000000; num 20961779296875 1000000000; num 247003203125 10000000];
    [txt "IMAGE"; txt "SSP5-Ref-SPA0-V17"; txt "ME"; txt "GDP|PPP"; txt "billion US$2005/yr"; num 246722705078125 100000000000; num 385081201171875 100000000000; num 6279751953125 1000000000; num 100975 10; num 143662099609375 10000000000; num 18817130859375 1000000000; num 2360158984375 100000000; num 28439560546875 1000000000; num 3356348046875 100000000; num 3880441015625 100000000];
    [txt "IMAGE"; txt "SSP1-Ref-SPA0-V17"; txt "MEX"; txt "GDP|PPP"; txt "billion US$2005/yr"; num 14123170166015625 10000000000000; num 19227349853515625 10000000000000; num 2688552001953125 1000000000000; num 374697900390625 100000000000; num 49326630859375 10000000000; num 61295751953125 10000000000; num 72433291015625 10000000000; num 8205298828125 1000000000; num 89872685546875 10000000000; num 9514251953125 1000000000];
    [txt "IMAGE"; txt "SSP2-Ref-SPA0-V17"; txt "MEX"; txt "GDP|PPP"; txt "billion US$2005/yr"; num 14123170166015625 10000000000000; num 19471739501953125 10000000000000; num 2635673095703125 1000000000000; num 343193603515625 100000000000; num 436305908203125 100000000000; num 544018798828125 100000000000; num 665722119140625 100000000000; num 801122705078125 100000000000; num 94861240234375 10000000000; num 11089830078125 1000000000];
    [txt "IMAGE"; txt "SSP3-Ref-SPA0-V17"; txt "MEX"; txt "GDP|PPP"; txt "billion US$2005/yr"; num 14123170166015625 10000000000000; num 19789539794921875 10000000000000; num 26207060546875 10000000000; num 320102392578125 100000000000; num 3738903076171875 1000000000000; num 42936171875 10000000; num 489560595703125 100000000000; num 55381630859375 10000000000; num 6177537109375 1000000000; num 682590380859375 100000000000];
    [txt "IMAGE"; txt "SSP4-Ref-SPA0-V17"; txt "MEX"; txt "GDP|PPP"; txt "billion US$2005/yr"; num 14123170166015625 10000000000000; num 195193994140625 100000000000; num 260360888671875 100000000000; num 3355802001953125 1000000000000; num 4142412109375 1000000000; num 49887958984375 10000000000; num 58519677734375 10000000000; num 668356005859375 100000000000; num 74769072265625 10000000000; num 82155078125 10000000];
    [txt "IMAGE"; txt "SSP5-Ref-SPA0-V17"; txt "MEX"; txt "GDP|PPP"; txt "billion US$2005/yr"; num 14123170166015625 10000000000000; num 193931201171875 100000000000; num 28232890625 10000000; num 420422705078125 100000000000; num 579615087890625 100000000000; num 749801318359375 100000000000; num 92339873046875 10000000000; num 109528203125 10000000; num 126493896484375 10000000000; num 1422076953125 100000000];
    [txt "IMAGE"; txt "SSP1-Ref-SPA0-V17"; txt "NAF"; txt "GDP|PPP"; txt "billion US$2005/yr"; num 9894525146484375 10000000000000; num 13757060546875 10000000000; num 23255390625 10000000; num 37211220703125 10000000000; num 53278779296875 10000000000; num 6994671875 1000000; num 860259375 100000; num 991080078125 100000000; num 109567099609375 10000000000; num 117472802734375 10000000000];
    [txt "IMAGE"; txt "SSP2-Ref-SPA0-V17"; txt "NAF"; txt "GDP|PPP"; txt "billion US$2005/yr"; num 9894525146484375 10000000000000; num 138627099609375 100000000000; num 2222720947265625 1000000000000; num 326706298828125 100000000000; num 451882080078125 100000000000; num 59910322265625 10000000000; num 76573662109375 10000000000; num 93841630859375 10000000000; num 111632099609375 10000000000; num 129789501953125 10000000000];
    [txt "IMAGE"; txt "SSP3-Ref-SPA0-V17"; txt "NAF"; txt "GDP|PPP"; txt "billion US$2005/yr"; num 9894525146484375 10000000000000; num 140079296875 100000000; num 214402294921875 100000000000; num 285639501953125 100000000000; num 35486630859375 10000000000; num 431902978515625 100000000000; num 522325 100; num 622922119140625 100000000000; num 73229599609375 10000000000; num 85308251953125 10000000000];
    [txt "IMAGE"; txt "SSP4-Ref-SPA0-V17"; txt "NAF"; txt "GDP|PPP"; txt "billion US$2005/yr"; num 9894525146484375 10000000000000; num 15099129638671875 10000000000000; num 23689970703125 10000000000; num 3366927001953125 1000000000000; num 439762890625 100000000; num 550318212890625 100000000000; num 662651123046875 100000000000; num 761367578125 100000000; num 85006640625 10000000; num 93026416015625 10000000000];
    [txt "IMAGE"; txt "SSP5-Ref-SPA0-V17"; txt "NAF"; txt "GDP|PPP"; txt "billion US$2005/yr"; num 9894525146484375 10000000000000; num 15165030517578125 10000000000000; num 270810888671875 100000000000; num 46571220703125 10000000000; num 701394189453125 100000000000; num 9641900390625 1000000000; num 1244533984375 100000000; num 151001796875 10000000; num 17669830078125 1000000000; num 20158130859375 1000000000];
    [txt "IMAGE"; txt "SSP1-Ref-SPA0-V17"; txt "OCE"; txt "GDP|PPP"; txt "billion US$2005/yr"; num 856299072265625 1000000000000; num 1170053955078125 1000000000000; num 15572919921875 10000000000; num 20371600341796875 10000000000000; num 25730869140625 10000000000; num 3136030029296875 1000000000000; num 374802587890625 100000000000; num 432709912109375 100000000000; num 483561376953125 100000000000; num 528789599609375 100000000000];
    [txt "IMAGE"; txt "SSP2-Ref-SPA0-V17"; txt "OCE"; txt "GDP|PPP"; txt "billion US$2005/yr"; num 856299072265625 1000000000000; num 1166574951171875 1000000000000; num 14998919677734375 10000000000000; num 1848262939453125 1000000000000; num 2242112060546875 1000000000000; num 26745009765625 10000000000; num 3172341064453125 1000000000000; num 368144091796875 100000000000; num 417958984375 100000000; num 467602197265625 100000000000];
    [txt "IMAGE"; txt "SSP3-Ref-SPA0-V17"; txt "OCE"; txt "GDP|PPP"; txt "billion US$2005/yr"; num 856299072265625 1000000000000; num 113158203125 100000000; num 1360843994140625 1000000000000; num 1526822021484375 1000000000000; num 16514739990234375 10000000000000; num 17409840087890625 10000000000000; num 1827373046875 1000000000; num 18727919921875 10000000000; num 1890219970703125 1000000000000; num 19003079833984375 10000000000000];
    [txt "IMAGE"; txt "SSP4-Ref-SPA0-V17"; txt "OCE"; txt "GDP|PPP"; txt "billion US$2005/yr"; num 856299072265625 1000000000000; num 11742239990234375 10000000000000; num 154810498046875 100000000000; num 200072900390625 100000000000; num 24968701171875 10000000000; num 3011674072265625 1000000000000; num 3562485107421875 1000000000000; num 406781396484375 100000000000; num 450560400390625 100000000000; num 48763369140625 10000000000];
    [txt "IMAGE"; txt "SSP5-Ref-SPA0-V17"; txt "OCE"; txt "GDP|PPP"; txt "billion US$2005/yr"; num 856299072265625 1000000000000; num 12199300537109375 10000000000000; num 17630240478515625 10000000000000; num 2563553955078125 1000000000000; num 35966220703125 10000000000; num 487998486328125 100000000000; num 651852587890625 100000000000; num 8463390625 1000000; num 10647240234375 1000000000; num 1312591015625 100000000];
    [txt "IMAGE"; txt "SSP1-Ref-SPA0-V17"; txt "RCAM"; txt "GDP|PPP"; txt "billion US$2005/yr"; num 7198309936523438 10000000000000; num 989823974609375 1000000000000; num 15234229736328125 10000000000000; num 23395029296875 10000000000; num 336643408203125 100000000000; num 451159912109375 100000000000; num 567585595703125 100000000000; num 6770994140625 1000000000; num 776780517578125 100000000000; num 8576669921875 1000000000];
    [txt "IMAGE"; txt "SSP2-Ref-SPA0-V17"; txt "RCAM"; txt "GDP|PPP"; txt "billion US$2005/yr"; num 7198309936523438 10000000000000; num 10002869873046875 10000000000000; num 1453208984375 1000000000; num 20311719970703125 10000000000000; num 2771533935546875 1000000000000; num 36867880859375 10000000000; num 479622607421875 100000000000; num 610118798828125 100000000000; num 759266796875 100000000; num 92427626953125 10000000000];
    [txt "IMAGE"; txt "SSP3-Ref-SPA0-V17"; txt "RCAM"; txt "GDP|PPP"; txt "billion US$2005/yr"; num 7198309936523438 10000000000000; num 10167230224609375 10000000000000; num 14096259765625 10000000000; num 1806366943359375 1000000000000; num 225641796875 100000000; num 2773006103515625 1000000000000; num 338948193359375 100000000000; num 41189580078125 10000000000; num 494587109375 100000000; num 58888291015625 10000000000];
    [txt "IMAGE"; txt "SSP4-Ref-SPA0-V17"; txt "RCAM"; txt "GDP|PPP"; txt "billion US$2005/yr"; num 7198309936523438 10000000000000; num 10513349609375 10000000000; num 1452862060546875 1000000000000; num 18672099609375 10000000000; num 22894619140625 10000000000; num 2712930908203125 1000000000000; num 3134117919921875 1000000000000; num 354706103515625 100000000000; num 3953583984375 1000000000; num 436985693359375 100000000000];
    [txt "IMAGE"; txt "SSP5-Ref-SPA0-V17"; txt "RCAM"; txt "GDP|PPP"; txt "billion US$2005/yr"; num 7198309936523438 10000000000000; num 104245703125 100000000; num 16795009765625 10000000000; num 276160009765625 100000000000; num 41614609375 10000000; num 577121923828125 100000000000; num 749201904296875 100000000000; num 92483095703125 10000000000; num 110609501953125 10000000000; num 128446396484375 10000000000];
    [txt "IMAGE"; txt "SSP1-Ref-SPA0-V17"; txt "RSAF"; txt "GDP|PPP"; txt "billion US$2005/yr"; num 2661046142578125 10000000000000; num 47404949951171875 100000000000000; num 836230224609375 1000000000000; num 15541639404296875 10000000000000; num 2890256103515625 1000000000000; num 503971484375 100000000; num 801081396484375 100000000000; num 1159051953125 100000000; num 1551566015625 100000000; num 1942148046875 100000000];
    [txt "IMAGE"; txt "SSP2-Ref-SPA0-V17"; txt "RSAF"; txt "GDP|PPP"; txt "billion US$2005/yr"; num 2661046142578125 10000000000000; num 4803865966796875 10000000000000; num 7770123291015625 10000000000000; num 12186109619140625 10000000000000; num 19989610595703125 10000000000000; num 3288218017578125 1000000000000; num 52598828125 10000000; num 8059794921875 1000000000; num 117988603515625 10000000000; num 16506619140625 1000000000];
    [txt "IMAGE"; txt "SSP3-Ref-SPA0-V17"; txt "RSAF"; txt "GDP|PPP"; txt "billion US$2005/yr"; num 2661046142578125 10000000000000; num 48234381103515625 100000000000000; num 7382379760742188 10000000000000; num 10134639892578125 10000000000000; num 14174150390625 10000000000; num 2012302001953125 1000000000000; num 28342880859375 10000000000; num 389997802734375 100000000000; num 5209958984375 1000000000; num 677566796875 100000000];
    [txt "IMAGE"; txt "SSP4-Ref-SPA0-V17"; txt "RSAF"; txt "GDP|PPP"; txt "billion US$2005/yr"; num 2661046142578125 10000000000000; num 47030950927734375 100000000000000; num 7153403930664062 10000000000000; num 9686179809570312 10000000000000; num 13288509521484375 10000000000000; num 18540400390625 10000000000; num 25776650390625 10000000000; num 351794091796875 100000000000; num 46738291015625 10000000000; num 60583251953125 10000000000];
    [txt "IMAGE"; txt "SSP5-Ref-SPA0-V17"; txt "RSAF"; txt "GDP|PPP"; txt "billion US$2005/yr"; num 2661046142578125 10000000000000; num 466581787109375 1000000000000; num 9010479125976562 10000000000000; num 18752979736328125 10000000000000; num 3729885009765625 1000000000000; num 681931005859375 100000000000; num 112892802734375 10000000000; num 17007369140625 1000000000; num 2377644921875 100000000; num 31201369140625 1000000000];
    [txt "IMAGE"; txt "SSP1-Ref-SPA0-V17"; txt "RSAM"; txt "GDP|PPP"; txt "billion US$2005/yr"; num 19961729736328125 10000000000000; num 29624580078125 10000000000; num 437342578125 100000000; num 625939892578125 100000000000; num 829190234375 100000000; num 102734404296875 10000000000; num 12072509765625 1000000000; num 135265703125 10000000; num 146261298828125 10000000000; num 152671201171875 10000000000];
    [txt "IMAGE"; txt "SSP2-Ref-SPA0-V17"; txt "RSAM"; txt "GDP|PPP"; txt "billion US$2005/yr"; num 19961729736328125 10000000000000; num 2988865966796875 1000000000000; num 421118896484375 100000000000; num 5618375 1000; num 722002099609375 100000000000; num 90114609375 10000000; num 10957009765625 1000000000; num 1299391015625 100000000; num 151014599609375 10000000000; num 17236189453125 1000000000];
    [txt "IMAGE"; txt "SSP3-Ref-SPA0-V17"; txt "RSAM"; txt "GDP|PPP"; txt "billion US$2005/yr"; num 19961729736328125 10000000000000; num 302914697265625 100000000000; num 4108708984375 1000000000; num 51364248046875 10000000000; num 622331103515625 100000000000; num 73652470703125 10000000000; num 85795283203125 10000000000; num 98756494140625 10000000000; num 112402998046875 10000000000; num 127221103515625 10000000000];
    [txt "IMAGE"; txt "SSP4-Ref-SPA0-V17"; txt "RSAM"; txt "GDP|PPP"; txt "billion US$2005/yr"; num 19961729736328125 10000000000000; num 3031929931640625 1000000000000; num 41867109375 10000000; num 545080078125 100000000; num 67347431640625 10000000000; num 8062884765625 1000000000; num 937625390625 100000000; num 106207099609375 10000000000; num 1183208984375 100000000; num 13036599609375 1000000000];
    [txt "IMAGE"; txt "SSP5-Ref-SPA0-V17"; txt "RSAM"; txt "GDP|PPP"; txt "billion US$2005/yr"; num 19961729736328125 10000000000000; num 302451806640625 100000000000; num 471697802734375 100000000000; num 732001220703125 100000000000; num 103001796875 10000000; num 134521201171875 10000000000; num 16620359375 1000000; num 1959023046875 100000000; num 223659296875 10000000; num 247570 10];
    [txt "IMAGE"; txt "SSP1-Ref-SPA0-V17"; txt "RSAS"; txt "GDP|PPP"; txt "billion US$2005/yr"; num 8206414794921875 10000000000000; num 1329802001953125 1000000000000; num 2422537109375 1000000000; num 44458828125 10000000; num 74321748046875 10000000000; num 112037197265625 10000000000; num 154513896484375 10000000000; num 1973526953125 100000000; num 23729169921875 1000000000; num 272401796875 10000000];
    [txt "IMAGE"; txt "SSP2-Ref-SPA0-V17"; txt "RSAS"; txt "GDP|PPP"; txt "billion US$2005/yr"; num 8206414794921875 10000000000000; num 13450040283203125 10000000000000; num 2246162109375 1000000000; num 3561449951171875 1000000000000; num 546005810546875 100000000000; num 807819677734375 100000000000; num 1157223046875 100000000; num 159732802734375 10000000000; num 212098203125 10000000; num 272935703125 10000000];
    [txt "IMAGE"; txt "SSP3-Ref-SPA0-V17"; txt "RSAS"; txt "GDP|PPP"; txt "billion US$2005/yr"; num 8206414794921875 10000000000000; num 13614219970703125 10000000000000; num 212364599609375 100000000000; num 294460302734375 100000000000; num 3909031982421875 1000000000000; num 5057490234375 1000000000; num 648768017578125 100000000000; num 8232958984375 1000000000; num 10261169921875 1000000000; num 12651169921875 1000000000];
    [txt "IMAGE"; txt "SSP4-Ref-SPA0-V17"; txt "RSAS"; txt "GDP|PPP"; txt "billion US$2005/yr"; num 8206414794921875 10000000000000; num 1345593994140625 1000000000000; num 205308203125 100000000; num 2725162109375 1000000000; num 3402507080078125 1000000000000; num 410227294921875 100000000000; num 48649560546875 10000000000; num 56919580078125 10000000000; num 658759912109375 100000000000; num 7611591796875 1000000000];
    [txt "IMAGE"; txt "SSP5-Ref-SPA0-V17"; txt "RSAS"; txt "GDP|PPP"; txt "billion US$2005/yr"; num 8206414794921875 10000000000000; num 13330250244140625 10000000000000; num 2601552001953125 1000000000000; num 525080810546875 100000000000; num 93399482421875 10000000000; num 147441201171875 10000000000; num 21196939453125 1000000000; num 28256419921875 1000000000; num 356139609375 10000000; num 4308608984375 100000000];
    [txt "IMAGE"; txt "SSP1-Ref-SPA0-V17"; txt "RUS"; txt "GDP|PPP"; txt "billion US$2005/yr"; num 2135132080078125 1000000000000; num 2964389892578125 1000000000000; num 42790390625 10000000; num 57372919921875 10000000000; num 66364912109375 10000000000; num 726573583984375 100000000000; num 782793212890625 100000000000; num 799325 100; num 804694384765625 100000000000; num 802131982421875 100000000000];
    [txt "IMAGE"; txt "SSP2-Ref-SPA0-V17"; txt "RUS"; txt "GDP|PPP"; txt "billion US$2005/yr"; num 2135132080078125 1000000000000; num 2955131103515625 1000000000000; num 4002156005859375 1000000000000; num 497073095703125 100000000000; num 566452783203125 100000000000; num 64119228515625 10000000000; num 730564404296875 100000000000; num 806235888671875 100000000000; num 876898046875 100000000; num 94693212890625 10000000000];
    [txt "IMAGE"; txt "SSP3-Ref-SPA0-V17"; txt "RUS"; txt "GDP|PPP"; txt "billion US$2005/yr"; num 2135132080078125 1000000000000; num 294039599609375 100000000000; num 380235302734375 100000000000; num 44711220703125 10000000000; num 47311640625 10000000; num 49746728515625 10000000000; num 546568603515625 100000000000; num 599742919921875 100000000000; num 65105068359375 10000000000; num 70423271484375 10000000000];
    [txt "IMAGE"; txt "SSP4-Ref-SPA0-V17"; txt "RUS"; txt "GDP|PPP"; txt "billion US$2005/yr"; num 2135132080078125 1000000000000; num 3077430908203125 1000000000000; num 420730615234375 100000000000; num 538897314453125 100000000000; num 614364111328125 100000000000; num 681085400390625 100000000000; num 748644287109375 100000000000; num 787127978515625 100000000000; num 81100419921875 10000000000; num 82383349609375 10000000000];
    [txt "IMAGE"; txt "SSP5-Ref-SPA0-V17"; txt "RUS"; txt "GDP|PPP"; txt "billion US$2005/yr"; num 2135132080078125 1000000000000; num 313839990234375 100000000000; num 49820048828125 10000000000; num 739746484375 100000000; num 9239294921875 1000000000; num 10853650390625 1000000000; num 125365 10; num 13778990234375 1000000000; num 1494726953125 100000000; num 160196904296875 10000000000];
    [txt "IMAGE"; txt "SSP1-Ref-SPA0-V17"; txt "SAF"; txt "GDP|PPP"; txt "billion US$2005/yr"; num 4665701904296875 10000000000000; num 6709224853515625 10000000000000; num 102593603515625 100000000000; num 14842979736328125 10000000000000; num 1958343017578125 1000000000000; num 239764404296875 100000000000; num 2754860107421875 1000000000000; num 2998656005859375 1000000000000; num 314151806640625 100000000000; num 319848388671875 100000000000];
    [txt "IMAGE"; txt "SSP2-Ref-SPA0-V17"; txt "SAF"; txt "GDP|PPP"; txt "billion US$2005/yr"; num 4665701904296875 10000000000000; num 6694298706054688 10000000000000; num 9668568725585938 10000000000000; num 12929200439453125 10000000000000; num 16389549560546875 10000000000000; num 20127900390625 10000000000; num 240644091796875 100000000000; num 2796138916015625 1000000000000; num 31657041015625 10000000000; num 350327294921875 100000000000];
    [txt "IMAGE"; txt "SSP3-Ref-SPA0-V17"; txt "SAF"; txt "GDP|PPP"; txt "billion US$2005/yr"; num 4665701904296875 10000000000000; num 657590576171875 1000000000000; num 8814520874023438 10000000000000; num 10602469482421875 10000000000000; num 121568505859375 100000000000; num 1373740966796875 1000000000000; num 15457039794921875 10000000000000; num 1723531005859375 1000000000000; num 190052197265625 100000000000; num 2078763916015625 1000000000000];
    [txt "IMAGE"; txt "SSP4-Ref-SPA0-V17"; txt "SAF"; txt "GDP|PPP"; txt "billion US$2005/yr"; num 4665701904296875 10000000000000; num 6878800048828125 10000000000000; num 9678292846679688 10000000000000; num 12545830078125 10000000000; num 15222879638671875 10000000000000; num 1777446044921875 1000000000000; num 20044630126953125 10000000000000; num 2187509033203125 1000000000000; num 2323123046875 1000000000; num 2410114013671875 1000000000000];
    [txt "IMAGE"; txt "SSP5-Ref-SPA0-V17"; txt "SAF"; txt "GDP|PPP"; txt "billion US$2005/yr"; num 4665701904296875 10000000000000; num 7040894775390625 10000000000000; num 1136530029296875 1000000000000; num 17819580078125 10000000000; num 253293994140625 100000000000; num 3326152099609375 1000000000000; num 4086114990234375 1000000000000; num 47385458984375 10000000000; num 52808779296875 10000000000; num 571702978515625 100000000000];
    [txt "IMAGE"; txt "SSP1-Ref-SPA0-V17"; txt "SEAS"; txt "GDP|PPP"; txt "billion US$2005/yr"; num 186256005859375 100000000000; num 2978044921875 1000000000; num 486839990234375 100000000000; num 753261376953125 100000000000; num 105584404296875 10000000000; num 1363741015625 100000000; num 165121796875 10000000; num 1888244921875 100000000; num 207025703125 10000000; num 21929890625 1000000];
    [txt "IMAGE"; txt "SSP2-Ref-SPA0-V17"; txt "SEAS"; txt "GDP|PPP"; txt "billion US$2005/yr"; num 186256005859375 100000000000; num 2992283935546875 1000000000000; num 4570083984375 1000000000; num 64186591796875 10000000000; num 85839775390625 10000000000; num 110434501953125 10000000000; num 1376558984375 100000000; num 16638580078125 1000000000; num 195720 10; num 2254533984375 100000000];
    [txt "IMAGE"; txt "SSP3-Ref-SPA0-V17"; txt "SEAS"; txt "GDP|PPP"; txt "billion US$2005/yr"; num 186256005859375 100000000000; num 299977197265625 100000000000; num 43018291015625 10000000000; num 54509111328125 10000000000; num 66040400390625 10000000000; num 783660986328125 100000000000; num 92456630859375 10000000000; num 108435400390625 10000000000; num 1257325 100; num 144897900390625 10000000000];
    [txt "IMAGE"; txt "SSP4-Ref-SPA0-V17"; txt "SEAS"; txt "GDP|PPP"; txt "billion US$2005/yr"; num 186256005859375 100000000000; num 299735009765625 100000000000; num 440876318359375 100000000000; num 58245458984375 10000000000; num 7217740234375 1000000000; num 85743857421875 10000000000; num 98482109375 10000000; num 10938169921875 1000000000; num 118576201171875 10000000000; num 126666904296875 10000000000];
    [txt "IMAGE"; txt "SSP5-Ref-SPA0-V17"; txt "SEAS"; txt "GDP|PPP"; txt "billion US$2005/yr"; num 186256005859375 100000000000; num 3028169921875 1000000000; num 530022119140625 100000000000; num 889718359375 100000000; num 1328266015625 100000000; num 18127580078125 1000000000; num 2314851953125 100000000; num 27908939453125 1000000000; num 32321220703125 1000000000; num 3625796875 100000];
    [txt "IMAGE"; txt "SSP1-Ref-SPA0-V17"; txt "STAN"; txt "GDP|PPP"; txt "billion US$2005/yr"; num 3140869140625 10000000000; num 5854874877929688 10000000000000; num 103152197265625 100000000000; num 15497359619140625 10000000000000; num 196718701171875 100000000000; num 2272534912109375 1000000000000; num 2546470947265625 1000000000000; num 2712735107421875 1000000000000; num 2818139892578125 1000000000000; num 2883471923828125 1000000000000];
    [txt "IMAGE"; txt "SSP2-Ref-SPA0-V17"; txt "STAN"; txt "GDP|PPP"; txt "billion US$2005/yr"; num 3140869140625 10000000000; num 5890911254882812 10000000000000; num 9923073120117188 10000000000000; num 13957550048828125 10000000000000; num 17263079833984375 10000000000000; num 20102769775390625 10000000000000; num 2333986083984375 1000000000000; num 2642133056640625 1000000000000; num 295458203125 100000000; num 3278948974609375 1000000000000];
    [txt "IMAGE"; txt "SSP3-Ref-SPA0-V17"; txt "STAN"; txt "GDP|PPP"; txt "billion US$2005/yr"; num 3140869140625 10000000000; num 5949649047851562 10000000000000; num 9836806030273438 10000000000000; num 1357115966796875 1000000000000; num 16085909423828125 10000000000000; num 17687969970703125 10000000000000; num 199360400390625 100000000000; num 2244443115234375 1000000000000; num 250730810546875 100000000000; num 2792743896484375 1000000000000];
    [txt "IMAGE"; txt "SSP4-Ref-SPA0-V17"; txt "STAN"; txt "GDP|PPP"; txt "billion US$2005/yr"; num 3140869140625 10000000000; num 5748754272460938 10000000000000; num 974634521484375 1000000000000; num 14139830322265625 10000000000000; num 17293360595703125 10000000000000; num 1926843994140625 1000000000000; num 21182060546875 10000000000; num 22506279296875 10000000000; num 2351674072265625 1000000000000; num 24328291015625 10000000000];
    [txt "IMAGE"; txt "SSP5-Ref-SPA0-V17"; txt "STAN"; txt "GDP|PPP"; txt "billion US$2005/yr"; num 3140869140625 10000000000; num 5782003784179688 10000000000000; num 10907559814453125 10000000000000; num 17750050048828125 10000000000000; num 234360693359375 100000000000; num 27626708984375 10000000000; num 3176071044921875 1000000000000; num 350858203125 100000000; num 38191240234375 10000000000; num 413310302734375 100000000000];
    [txt "IMAGE"; txt "SSP1-Ref-SPA0-V17"; txt "TUR"; txt "GDP|PPP"; txt "billion US$2005/yr"; num 8794927978515625 10000000000000; num 13421090087890625 10000000000000; num 19514639892578125 10000000000000; num 268806298828125 100000000000; num 34107529296875 10000000000; num 4051632080078125 1000000000000; num 458472900390625 100000000000; num 496522216796875 100000000000; num 5241796875 1000000; num 540589306640625 100000000000];
    [txt "IMAGE"; txt "SSP2-Ref-SPA0-V17"; txt "TUR"; txt "GDP|PPP"; txt "billion US$2005/yr"; num 8794927978515625 10000000000000; num 13550460205078125 10000000000000; num 18946409912109375 10000000000000; num 2477205078125 1000000000; num 310947705078125 100000000000; num 3782596923828125 1000000000000; num 4486125 1000; num 518552490234375 100000000000; num 58767080078125 10000000000; num 655652880859375 100000000000];
    [txt "IMAGE"; txt "SSP3-Ref-SPA0-V17"; txt "TUR"; txt "GDP|PPP"; txt "billion US$2005/yr"; num 8794927978515625 10000000000000; num 137179296875 100000000; num 1823343017578125 1000000000000; num 2199403076171875 1000000000000; num 2553841064453125 1000000000000; num 2903700927734375 1000000000000; num 3273427978515625 1000000000000; num 3670092041015625 1000000000000; num 40684541015625 10000000000; num 447906103515625 100000000000];
    [txt "IMAGE"; txt "SSP4-Ref-SPA0-V17"; txt "TUR"; txt "GDP|PPP"; txt "billion US$2005/yr"; num 8794927978515625 10000000000000; num 1358302978515625 1000000000000; num 18472779541015625 10000000000000; num 232668408203125 100000000000; num 27715458984375 10000000000; num 3178385986328125 1000000000000; num 353551806640625 100000000000; num 38275830078125 10000000000; num 4073570068359375 1000000000000; num 4300283203125 1000000000];
    [txt "IMAGE"; txt "SSP5-Ref-SPA0-V17"; txt "TUR"; txt "GDP|PPP"; txt "billion US$2005/yr"; num 8794927978515625 10000000000000; num 13523609619140625 10000000000000; num 205723388671875 100000000000; num 30227109375 10000000; num 406523193359375 100000000000; num 51175341796875 10000000000; num 61475908203125 10000000000; num 7079958984375 1000000000; num 796297509765625 100000000000; num 8762390625 1000000];
    [txt "IMAGE"; txt "SSP1-Ref-SPA0-V17"; txt "UKR"; txt "GDP|PPP"; txt "billion US$2005/yr"; num 40508990478515625 100000000000000; num 5179434204101562 10000000000000; num 7899025268554688 10000000000000; num 11542459716796875 10000000000000; num 1477031005859375 1000000000000; num 1764404052734375 1000000000000; num 201801904296875 100000000000; num 216056005859375 100000000000; num 2241803955078125 1000000000000; num 2273550048828125 1000000000000];
    [txt "IMAGE"; txt "SSP2-Ref-SPA0-V17"; txt "UKR"; txt "GDP|PPP"; txt "billion US$2005/yr"; num 40508990478515625 100000000000000; num 514805908203125 1000000000000; num 7183909301757812 10000000000000; num 9436234741210938 10000000000000; num 116222705078125 100000000000; num 14081910400390625 10000000000000; num 168993603515625 100000000000; num 19480560302734375 10000000000000; num 219560693359375 100000000000; num 243539892578125 100000000000];
    [txt "IMAGE"; txt "SSP3-Ref-SPA0-V17"; txt "UKR"; txt "GDP|PPP"; txt "billion US$2005/yr"; num 40508990478515625 100000000000000; num 51274658203125 100000000000; num 6654136962890625 10000000000000; num 7803411865234375 10000000000000; num 8681038208007812 10000000000000; num 97523388671875 100000000000; num 11245150146484375 10000000000000; num 12790260009765625 10000000000000; num 14455810546875 10000000000; num 1631237060546875 1000000000000];
    [txt "IMAGE"; txt "SSP4-Ref-SPA0-V17"; txt "UKR"; txt "GDP|PPP"; txt "billion US$2005/yr"; num 40508990478515625 100000000000000; num 581818603515625 1000000000000; num 8074066162109375 10000000000000; num 10573919677734375 10000000000000; num 1288427978515625 1000000000000; num 15366669921875 10000000000; num 179231298828125 100000000000; num 19789549560546875 10000000000000; num 212285595703125 100000000000; num 22276240234375 10000000000];
    [txt "IMAGE"; txt "SSP5-Ref-SPA0-V17"; txt "UKR"; txt "GDP|PPP"; txt "billion US$2005/yr"; num 40508990478515625 100000000000000; num 59340087890625 100000000000; num 9848776245117188 10000000000000; num 1569447998046875 1000000000000; num 21523359375 10000000; num 2751177001953125 1000000000000; num 335326611328125 100000000000; num 3826653076171875 1000000000000; num 42314501953125 10000000000; num 456380078125 100000000];
    [txt "IMAGE"; txt "SSP1-Ref-SPA0-V17"; txt "USA"; txt "GDP|PPP"; txt "billion US$2005/yr"; num 128222802734375 10000000000; num 16532279296875 1000000000; num 21180740234375 1000000000; num 25804259765625 1000000000; num 29880140625 1000000; num 337620390625 10000000; num 3785921875 100000; num 418435703125 10000000; num 4567375 100; num 4923862109375 100000000];
    [txt "IMAGE"; txt "SSP2-Ref-SPA0-V17"; txt "USA"; txt "GDP|PPP"; txt "billion US$2005/yr"; num 128222802734375 10000000000; num 16413240234375 1000000000; num 2020358984375 100000000; num 23436060546875 1000000000; num 26289880859375 1000000000; num 291133203125 10000000; num 32080599609375 1000000000; num 34850390625 1000000; num 3743962109375 100000000; num 398404609375 10000000];
    [txt "IMAGE"; txt "SSP3-Ref-SPA0-V17"; txt "USA"; txt "GDP|PPP"; txt "billion US$2005/yr"; num 128222802734375 10000000000; num 160372998046875 10000000000; num 18768869140625 1000000000; num 205496796875 10000000; num 21655439453125 1000000000; num 2225498046875 100000000; num 224379609375 10000000; num 21963359375 1000000; num 21140599609375 1000000000; num 20148060546875 1000000000];
    [txt "IMAGE"; txt "SSP4-Ref-SPA0-V17"; txt "USA"; txt "GDP|PPP"; txt "billion US$2005/yr"; num 128222802734375 10000000000; num 166289609375 10000000; num 21123380859375 1000000000; num 25374779296875 1000000000; num 2885076953125 100000000; num 32089669921875 1000000000; num 353770390625 10000000; num 3827323046875 100000000; num 40930890625 1000000; num 43384359375 1000000];
    [txt "IMAGE"; txt "SSP5-Ref-SPA0-V17"; txt "USA"; txt "GDP|PPP"; txt "billion US$2005/yr"; num 128222802734375 10000000000; num 1715975 100; num 23504720703125 1000000000; num 310966796875 10000000; num 3949698046875 100000000; num 4960837109375 100000000; num 6235066015625 100000000; num 779217109375 10000000; num 964024375 10000; num 1180790 10];
    [txt "IMAGE"; txt "SSP1-Ref-SPA0-V17"; txt "WAF"; txt "GDP|PPP"; txt "billion US$2005/yr"; num 6616680297851562 10000000000000; num 11722900390625 10000000000; num 2442030029296875 1000000000000; num 5132259765625 1000000000; num 9927263671875 1000000000; num 17393150390625 1000000000; num 27602990234375 1000000000; num 39889609375 1000000; num 5340037109375 100000000; num 66958859375 1000000];
    [txt "IMAGE"; txt "SSP2-Ref-SPA0-V17"; txt "WAF"; txt "GDP|PPP"; txt "billion US$2005/yr"; num 6616680297851562 10000000000000; num 1185137939453125 1000000000000; num 2229722900390625 1000000000000; num 399985498046875 100000000000; num 699485400390625 100000000000; num 118448896484375 10000000000; num 19183439453125 1000000000; num 29437779296875 1000000000; num 4276169921875 100000000; num 590219609375 10000000];
    [txt "IMAGE"; txt "SSP3-Ref-SPA0-V17"; txt "WAF"; txt "GDP|PPP"; txt "billion US$2005/yr"; num 6616680297851562 10000000000000; num 12001209716796875 10000000000000; num 2087326904296875 1000000000000; num 3231510009765625 1000000000000; num 477652783203125 100000000000; num 691043896484375 100000000000; num 980880859375 100000000; num 135977099609375 10000000000; num 18254259765625 1000000000; num 23717640625 1000000];
    [txt "IMAGE"; txt "SSP4-Ref-SPA0-V17"; txt "WAF"; txt "GDP|PPP"; txt "billion US$2005/yr"; num 6616680297851562 10000000000000; num 12261929931640625 10000000000000; num 207656201171875 100000000000; num 3051583984375 1000000000; num 42558251953125 10000000000; num 580010009765625 100000000000; num 774718408203125 100000000000; num 101398701171875 10000000000; num 129365703125 10000000; num 161101103515625 10000000000];
    [txt "IMAGE"; txt "SSP5-Ref-SPA0-V17"; txt "WAF"; txt "GDP|PPP"; txt "billion US$2005/yr"; num 6616680297851562 10000000000000; num 12063509521484375 10000000000000; num 2718385009765625 1000000000000; num 635919091796875 100000000000; num 131139697265625 10000000000; num 2410005078125 100000000; num 399840390625 10000000; num 6053469921875 100000000; num 852325625 10000; num 1128468984375 10000000];
    [txt "IMAGE"; txt "SSP1-Ref-SPA0-V17"; txt "WEU"; txt "GDP|PPP"; txt "billion US$2005/yr"; num 12613009765625 1000000000; num 14405919921875 1000000000; num 1720030078125 100000000; num 20820849609375 1000000000; num 24645990234375 1000000000; num 285935 10; num 32783859375 1000000; num 36754171875 1000000; num 404700 10; num 4397808984375 100000000];
    [txt "IMAGE"; txt "SSP2-Ref-SPA0-V17"; txt "WEU"; txt "GDP|PPP"; txt "billion US$2005/yr"; num 12613009765625 1000000000; num 143299599609375 10000000000; num 16637640625 1000000; num 1936244921875 100000000; num 224735 10; num 2595305078125 100000000; num 29867509765625 1000000000; num 338879296875 10000000; num 38024921875 1000000; num 4226155078125 100000000];
    [txt "IMAGE"; txt "SSP3-Ref-SPA0-V17"; txt "WEU"; txt "GDP|PPP"; txt "billion US$2005/yr"; num 12613009765625 1000000000; num 140419404296875 10000000000; num 154640302734375 10000000000; num 1651926953125 100000000; num 1720066015625 100000000; num 176166796875 10000000; num 1792898046875 100000000; num 17912400390625 1000000000; num 177506796875 10000000; num 1751766015625 100000000];
    [txt "IMAGE"; txt "SSP4-Ref-SPA0-V17"; txt "WEU"; txt "GDP|PPP"; txt "billion US$2005/yr"; num 12613009765625 1000000000; num 146447998046875 10000000000; num 172672109375 10000000; num 2048455078125 100000000; num 23713099609375 1000000000; num 2692498046875 100000000; num 30144330078125 1000000000; num 3293348046875 100000000; num 3545494921875 100000000; num 3771916015625 100000000];
    [txt "IMAGE"; txt "SSP5-Ref-SPA0-V17"; txt "WEU"; txt "GDP|PPP"; txt "billion US$2005/yr"; num 12613009765625 1000000000; num 150363798828125 10000000000; num 19085509765625 1000000000; num 25148369140625 1000000000; num 3269125 100; num 421342890625 10000000; num 5414344921875 100000000; num 6859353125 100000; num 8546896875 100000; num 1052385 10];
    [txt "IMAGE"; txt "SSP1-Ref-SPA0-V17"; txt "BRA"; txt "Population"; txt "million"; num 1950384063720703 10000000000000; num 20835870361328125 100000000000000; num 2159423065185547 10000000000000; num 2180762939453125 10000000000000; num 2149947967529297 10000000000000; num 2069010009765625 10000000000000; num 19477220153808594 100000000000000; num 17966909790039062 100000000000000; num 16186669921875 100000000000; num 14147900390625 100000000000];
    [txt "IMAGE"; txt "SSP2-Ref-SPA0-V17"; txt "BRA"; txt "Population"; txt "million"; num 1950384063720703 10000000000000; num 21084280395507812 100000000000000; num 2229246063232422 10000000000000; num 2299499053955078 10000000000000; num 2319779052734375 10000000000000; num 22877330017089844 100000000000000; num 22168600463867188 100000000000000; num 21168319702148438 100000000000000; num 20021780395507812 100000000000000; num 18850430297851562 100000000000000];
    [txt "IMAGE"; txt "SSP3-Ref-SPA0-V17"; txt "BRA"; txt "Population"; txt "million"; num 1950384063720703 10000000000000; num 21335299682617188 100000000000000; num 2305612030029297 10000000000000; num 24376939392089844 100000000000000; num 25377420043945312 100000000000000; num 2600812072753906 10000000000000; num 2638559875488281 10000000000000; num 2669324035644531 10000000000000; num 2708203125 10000000; num 2764169006347656 10000000000000];
    [txt "IMAGE"; txt "SSP4-Ref-SPA0-V17"; txt "BRA"; txt "Population"; txt "million"; num 1950384063720703 10000000000000; num 20921910095214844 100000000000000; num 21741700744628906 100000000000000; num 21915379333496094 100000000000000; num 2146967010498047 10000000000000; num 2046208953857422 10000000000000; num 19013400268554688 100000000000000; num 17258670043945312 100000000000000; num 153726806640625 1000000000000; num 13511500549316406 100000000000000];
    [txt "IMAGE"; txt "SSP5-Ref-SPA0-V17"; txt "BRA"; txt "Population"; txt "million"; num 1950384063720703 10000000000000; num 20808949279785156 100000000000000; num 2151219024658203 10000000000000; num 21672760009765625 100000000000000; num 2131779022216797 10000000000000; num 20468589782714844 100000000000000; num 1922960968017578 10000000000000; num 1770928955078125 10000000000000; num 15934750366210938 100000000000000; num 1391678924560547 10000000000000];
    [txt "IMAGE"; txt "SSP1-Ref-SPA0-V17"; txt "CAN"; txt "Population"; txt "million"; num 3404153823852539 100000000000000; num 37925331115722656 1000000000000000; num 4185116958618164 100000000000000; num 4547677993774414 100000000000000; num 4900431823730469 100000000000000; num 52277679443359375 1000000000000000; num 5480649948120117 100000000000000; num 5621152114868164 100000000000000; num 5604039001464844 100000000000000; num 545082893371582 10000000000000];
    [txt "IMAGE"; txt "SSP2-Ref-SPA0-V17"; txt "CAN"; txt "Population"; txt "million"; num 3404153823852539 100000000000000; num 3779124069213867 100000000000000; num 41413848876953125 1000000000000000; num 4457212829589844 100000000000000; num 47619319915771484 1000000000000000; num 50501399993896484 1000000000000000; num 528000602722168 10000000000000; num 5436117935180664 100000000000000; num 549846305847168 10000000000000; num 54463260650634766 1000000000000000];
    [txt "IMAGE"; txt "SSP3-Ref-SPA0-V17"; txt "CAN"; txt "Population"; txt "million"; num 3404153823852539 100000000000000; num 3669544982910156 100000000000000; num 3783927917480469 100000000000000; num 37990379333496094 1000000000000000; num 374830207824707 10000000000000; num 36471290588378906 1000000000000000; num 34970211029052734 1000000000000000; num 32964759826660156 1000000000000000; num 30533010482788086 1000000000000000; num 27866090774536133 1000000000000000];
    [txt "IMAGE"; txt "SSP4-Ref-SPA0-V17"; txt "CAN"; txt "Population"; txt "million"; num 3404153823852539 100000000000000; num 3752204895019531 100000000000000; num 4051620101928711 100000000000000; num 4284088134765625 100000000000000; num 4464017105102539 100000000000000; num 4592509841918945 100000000000000; num 4644947814941406 100000000000000; num 4600815963745117 100000000000000; num 44508079528808594 1000000000000000; num 4192021942138672 100000000000000];
    [txt "IMAGE"; txt "SSP5-Ref-SPA0-V17"; txt "CAN"; txt "Population"; txt "million"; num 3404153823852539 100000000000000; num 389040412902832 10000000000000; num 4513954162597656 100000000000000; num 5161320114135742 100000000000000; num 5885942077636719 100000000000000; num 6664502716064453 100000000000000; num 739803237915039 10000000000000; num 8039293670654297 100000000000000; num 851623764038086 10000000000000; num 8816455078125 100000000000];
    [txt "IMAGE"; txt "SSP1-Ref-SPA0-V17"; txt "CEU"; txt "Population"; txt "million"; num 1267499008178711 10000000000000; num 12606510162353516 100000000000000; num 12447930145263672 100000000000000; num 12187169647216797 100000000000000; num 11864420318603516 100000000000000; num 11439109802246094 100000000000000; num 10864179992675781 100000000000000; num 10159870147705078 100000000000000; num 9339533233642578 100000000000000; num 8482221221923828 100000000000000];
    [txt "IMAGE"; txt "SSP2-Ref-SPA0-V17"; txt "CEU"; txt "Population"; txt "million"; num 1267499008178711 10000000000000; num 12596240234375 100000000000; num 12427100372314453 100000000000000; num 12125869750976562 100000000000000; num 1177959976196289 10000000000000; num 11369129943847656 100000000000000; num 10812349700927734 100000000000000; num 101872802734375 1000000000000; num 9604572296142578 100000000000000; num 9069711303710938 100000000000000];
    [txt "IMAGE"; txt "SSP3-Ref-SPA0-V17"; txt "CEU"; txt "Population"; txt "million"; num 1267499008178711 10000000000000; num 12532150268554688 100000000000000; num 12189669799804688 100000000000000; num 11658390045166016 100000000000000; num 11083660125732422 100000000000000; num 104643798828125 1000000000000; num 9772625732421875 100000000000000; num 9162808227539062 100000000000000; num 870589370727539 10000000000000; num 832283935546875 10000000000000];
    [txt "IMAGE"; txt "SSP4-Ref-SPA0-V17"; txt "CEU"; txt "Population"; txt "million"; num 1267499008178711 10000000000000; num 12532350158691406 100000000000000; num 12216780090332031 100000000000000; num 11735639953613281 100000000000000; num 1115792007446289 10000000000000; num 10473650360107422 100000000000000; num 9624806213378906 100000000000000; num 8695826721191406 100000000000000; num 7811502075195312 100000000000000; num 6995256042480469 100000000000000];
    [txt "IMAGE"; txt "SSP5-Ref-SPA0-V17"; txt "CEU"; txt "Population"; txt "million"; num 1267499008178711 10000000000000; num 12676280212402344 100000000000000; num 1268584976196289 10000000000000; num 1263302993774414 10000000000000; num 12583979797363281 100000000000000; num 12477729797363281 100000000000000; num 12214790344238281 100000000000000; num 11824749755859375 100000000000000; num 11320089721679688 100000000000000; num 10759120178222656 100000000000000];
    [txt "IMAGE"; txt "SSP1-Ref-SPA0-V17"; txt "CHN"; txt "Population"; txt "million"; num 13797869873046875 10000000000000; num 1411241943359375 1000000000000; num 14001600341796875 10000000000000; num 13492349853515625 10000000000000; num 126347705078125 100000000000; num 11540379638671875 10000000000000; num 10331009521484375 10000000000000; num 9109683837890625 10000000000000; num 78868212890625 100000000000; num 6670521850585938 10000000000000];
    [txt "IMAGE"; txt "SSP2-Ref-SPA0-V17"; txt "CHN"; txt "Population"; txt "million"; num 13797869873046875 10000000000000; num 1419541015625 1000000000; num 1421949951171875 1000000000000; num 1380873046875 1000000000; num 13034940185546875 10000000000000; num 120247802734375 100000000000; num 10936920166015625 10000000000000; num 9859840698242188 10000000000000; num 88391552734375 100000000000; num 7963328857421875 10000000000000];
    [txt "IMAGE"; txt "SSP3-Ref-SPA0-V17"; txt "CHN"; txt "Population"; txt "million"; num 13797869873046875 10000000000000; num 14260810546875 10000000000; num 14402989501953125 10000000000000; num 140985595703125 100000000000; num 1347946044921875 1000000000000; num 12706180419921875 10000000000000; num 1195511962890625 1000000000000; num 11310830078125 10000000000; num 10867099609375 10000000000; num 10641719970703125 10000000000000];
    [txt "IMAGE"; txt "SSP4-Ref-SPA0-V17"; txt "CHN"; txt "Population"; txt "million"; num 13797869873046875 10000000000000; num 14088189697265625 10000000000000; num 1390404052734375 1000000000000; num 132560302734375 100000000000; num 12213599853515625 10000000000000; num 10910849609375 10000000000; num 9523674926757812 10000000000000; num 8156768798828125 10000000000000; num 6872371826171875 10000000000000; num 5769013061523438 10000000000000];
    [txt "IMAGE"; txt "SSP5-Ref-SPA0-V17"; txt "CHN"; txt "Population"; txt "million"; num 13797869873046875 10000000000000; num 141114404296875 100000000000; num 14002939453125 10000000000; num 13498719482421875 10000000000000; num 1264741943359375 1000000000000; num 1155887939453125 1000000000000; num 10353089599609375 10000000000000; num 9133120727539062 10000000000000; num 7909697265625 10000000000; num 669110107421875 1000000000000];
    [txt "IMAGE"; txt "SSP1-Ref-SPA0-V17"; txt "EAF"; txt "Population"; txt "million"; num 2594359130859375 10000000000000; num 3205098876953125 10000000000000; num 3768174133300781 10000000000000; num 42680780029296875 100000000000000; num 4662846984863281 10000000000000; num 4940035095214844 10000000000000; num 5106477966308594 10000000000000; num 5155180053710938 10000000000000; num 5091536865234375 10000000000000; num 4933157958984375 10000000000000];
    [txt "IMAGE"; txt "SSP2-Ref-SPA0-V17"; txt "EAF"; txt "Population"; txt "million"; num 2594359130859375 10000000000000; num 3295181884765625 10000000000000; num 40265631103515625 100000000000000; num 4746346130371094 10000000000000; num 5418524169921875 10000000000000; num 5998674926757812 10000000000000; num 6475380859375 10000000000; num 6840477905273438 10000000000000; num 7080463256835938 10000000000000; num 721073974609375 1000000000000];
    [txt "IMAGE"; txt "SSP3-Ref-SPA0-V17"; txt "EAF"; txt "Population"; txt "million"; num 2594359130859375 10000000000000; num 3379617004394531 10000000000000; num 4313869934082031 10000000000000; num 5329185180664062 10000000000000; num 6431624145507812 10000000000000; num 7534876708984375 10000000000000; num 8598037719726562 10000000000000; num 9621710205078125 10000000000000; num 10561669921875 10000000000; num 11430400390625 10000000000];
    [txt "IMAGE"; txt "SSP4-Ref-SPA0-V17"; txt "EAF"; txt "Population"; txt "million"; num 2594359130859375 10000000000000; num 33781170654296875 100000000000000; num 4304446105957031 10000000000000; num 5305131225585938 10000000000000; num 6388328247070312 10000000000000; num 7471475219726562 10000000000000; num 8518295288085938 10000000000000; num 9533267211914062 10000000000000; num 104723095703125 100000000000; num 1134887939453125 1000000000000];
    [txt "IMAGE"; txt "SSP5-Ref-SPA0-V17"; txt "EAF"; txt "Population"; txt "million"; num 2594359130859375 10000000000000; num 3201534118652344 10000000000000; num 3748035888671875 10000000000000; num 42250750732421875 100000000000000; num 4591129150390625 10000000000000; num 4837174072265625 10000000000000; num 4977016906738281 10000000000000; num 50075750732421875 100000000000000; num 49355938720703125 100000000000000; num 4778887023925781 10000000000000];
    [txt "IMAGE"; txt "SSP1-Ref-SPA0-V17"; txt "INDIA"; txt "Population"; txt "million"; num 1214489990234375 1000000000000; num 13500269775390625 10000000000000; num 14468680419921875 10000000000000; num 151106396484375 100000000000; num 15375799560546875 10000000000000; num 1523552001953125 1000000000000; num 14691949462890625 10000000000000; num 137927294921875 100000000000; num 12618919677734375 10000000000000; num 11290250244140625 10000000000000];
    [txt "IMAGE"; txt "SSP2-Ref-SPA0-V17"; txt "INDIA"; txt "Population"; txt "million"; num 1214489990234375 1000000000000; num 1376614013671875 1000000000000; num 15159580078125 10000000000; num 16322779541015625 10000000000000; num 17194620361328125 10000000000000; num 17645849609375 10000000000; num 17665260009765625 10000000000000; num 17333480224609375 10000000000000; num 1670509033203125 1000000000000; num 15896839599609375 10000000000000];
    [txt "IMAGE"; txt "SSP3-Ref-SPA0-V17"; txt "INDIA"; txt "Population"; txt "million"; num 1214489990234375 1000000000000; num 1400416015625 1000000000; num 15904510498046875 10000000000000; num 17731209716796875 10000000000000; num 1954259033203125 1000000000000; num 21138330078125 10000000000; num 2249590087890625 1000000000000; num 2372844970703125 1000000000000; num 2484279052734375 1000000000000; num 2587052978515625 1000000000000];
    [txt "IMAGE"; txt "SSP4-Ref-SPA0-V17"; txt "INDIA"; txt "Population"; txt "million"; num 1214489990234375 1000000000000; num 13649560546875 10000000000; num 14768330078125 10000000000; num 15522900390625 10000000000; num 15877039794921875 10000000000000; num 15743809814453125 10000000000000; num 151335498046875 100000000000; num 14143680419921875 10000000000000; num 1291865966796875 1000000000000; num 1159593994140625 1000000000000];
    [txt "IMAGE"; txt "SSP5-Ref-SPA0-V17"; txt "INDIA"; txt "Population"; txt "million"; num 1214489990234375 1000000000000; num 134945703125 100000000; num 14453780517578125 10000000000000; num 150860595703125 100000000000; num 15342110595703125 10000000000000; num 15194010009765625 10000000000000; num 146456298828125 100000000000; num 137452294921875 100000000000; num 125735595703125 100000000000; num 11249620361328125 10000000000000];
    [txt "IMAGE"; txt "SSP1-Ref-SPA0-V17"; txt "INDO"; txt "Population"; txt "million"; num 23825230407714844 100000000000000; num 2583254089355469 10000000000000; num 2701758117675781 10000000000000; num 2748830871582031 10000000000000; num 2719869079589844 10000000000000; num 2620617980957031 10000000000000; num 24685650634765625 100000000000000; num 22818780517578125 100000000000000; num 2075782928466797 10000000000000; num 1861824951171875 10000000000000];
    [txt "IMAGE"; txt "SSP2-Ref-SPA0-V17"; txt "INDO"; txt "Population"; txt "million"; num 23825230407714844 100000000000000; num 26081219482421875 100000000000000; num 2773804931640625 10000000000000; num 2872815856933594 10000000000000; num 28942230224609375 100000000000000; num 284802490234375 1000000000000; num 275043701171875 1000000000000; num 262098388671875 1000000000000; num 24764480590820312 100000000000000; num 23266729736328125 100000000000000];
    [txt "IMAGE"; txt "SSP3-Ref-SPA0-V17"; txt "INDO"; txt "Population"; txt "million"; num 23825230407714844 100000000000000; num 263414306640625 1000000000000; num 2855176086425781 10000000000000; num 30113720703125 100000000000; num 3103518981933594 10000000000000; num 3135942077636719 10000000000000; num 31258489990234375 100000000000000; num 309681884765625 1000000000000; num 3062694091796875 10000000000000; num 3028905944824219 10000000000000];
    [txt "IMAGE"; txt "SSP4-Ref-SPA0-V17"; txt "INDO"; txt "Population"; txt "million"; num 23825230407714844 100000000000000; num 25791778564453125 100000000000000; num 2687569885253906 10000000000000; num 2714956970214844 10000000000000; num 26585400390625 100000000000; num 25258090209960938 100000000000000; num 23382760620117188 100000000000000; num 21209530639648438 100000000000000; num 18939889526367188 100000000000000; num 16727920532226562 100000000000000];
    [txt "IMAGE"; txt "SSP5-Ref-SPA0-V17"; txt "INDO"; txt "Population"; txt "million"; num 23825230407714844 100000000000000; num 2579014892578125 10000000000000; num 2689541015625 10000000000; num 2728337097167969 10000000000000; num 26915399169921875 100000000000000; num 2585215148925781 10000000000000; num 24281829833984375 100000000000000; num 2239073028564453 10000000000000; num 20330169677734375 100000000000000; num 1821230926513672 10000000000000];
    [txt "IMAGE"; txt "SSP1-Ref-SPA0-V17"; txt "JAP"; txt "Population"; txt "million"; num 1275927963256836 10000000000000; num 12653099822998047 100000000000000; num 12339409637451172 100000000000000; num 11928199768066406 100000000000000; num 1146636962890625 10000000000000; num 1094666976928711 10000000000000; num 10244650268554688 100000000000000; num 9443115234375 100000000000; num 858662109375 10000000000; num 7757856750488281 100000000000000];
    [txt "IMAGE"; txt "SSP2-Ref-SPA0-V17"; txt "JAP"; txt "Population"; txt "million"; num 1275927963256836 10000000000000; num 12585540008544922 100000000000000; num 12141570281982422 100000000000000; num 11571240234375 100000000000; num 10951609802246094 100000000000000; num 10327040100097656 100000000000000; num 9641761016845703 100000000000000; num 8943074035644531 100000000000000; num 8236824035644531 100000000000000; num 7556690979003906 100000000000000];
    [txt "IMAGE"; txt "SSP3-Ref-SPA0-V17"; txt "JAP"; txt "Population"; txt "million"; num 1275927963256836 10000000000000; num 12424009704589844 100000000000000; num 11643840026855469 100000000000000; num 10672799682617188 100000000000000; num 9629962921142578 100000000000000; num 8551934051513672 100000000000000; num 7440630340576172 100000000000000; num 6409387969970703 100000000000000; num 5497132110595703 100000000000000; num 46717960357666016 1000000000000000];
    [txt "IMAGE"; txt "SSP4-Ref-SPA0-V17"; txt "JAP"; txt "Population"; txt "million"; num 1275927963256836 10000000000000; num 12518389892578125 100000000000000; num 11938790130615234 100000000000000; num 11207530212402344 100000000000000; num 10395909881591797 100000000000000; num 9551815795898438 100000000000000; num 8631291198730469 100000000000000; num 7690397644042969 100000000000000; num 6743051147460938 100000000000000; num 58381568908691406 1000000000000000];
    [txt "IMAGE"; txt "SSP5-Ref-SPA0-V17"; txt "JAP"; txt "Population"; txt "million"; num 1275927963256836 10000000000000; num 12748190307617188 100000000000000; num 12641609954833984 100000000000000; num 12481680297851562 100000000000000; num 12333149719238281 100000000000000; num 1219490966796875 10000000000000; num 11895929718017578 100000000000000; num 11499849700927734 100000000000000; num 11052339935302734 100000000000000; num 1062218017578125 10000000000000];
    [txt "IMAGE"; txt "SSP1-Ref-SPA0-V17"; txt "KOR"; txt "Population"; txt "million"; num 728427734375 10000000000; num 7496829986572266 100000000000000; num 7601595306396484 100000000000000; num 754429931640625 10000000000000; num 7309523010253906 100000000000000; num 6941560363769531 100000000000000; num 6488031005859375 100000000000000; num 5942586898803711 100000000000000; num 5391550064086914 100000000000000; num 48281158447265625 1000000000000000];
    [txt "IMAGE"; txt "SSP2-Ref-SPA0-V17"; txt "KOR"; txt "Population"; txt "million"; num 728427734375 10000000000; num 7464779663085938 100000000000000; num 7507563781738281 100000000000000; num 7351701354980469 100000000000000; num 6981773376464844 100000000000000; num 6486367797851562 100000000000000; num 5955134963989258 100000000000000; num 54385650634765625 1000000000000000; num 4966896057128906 100000000000000; num 4541939163208008 100000000000000];
    [txt "IMAGE"; txt "SSP3-Ref-SPA0-V17"; txt "KOR"; txt "Population"; txt "million"; num 728427734375 10000000000; num 739372787475586 10000000000000; num 7257518005371094 100000000000000; num 6866425323486328 100000000000000; num 6222111892700195 100000000000000; num 54467288970947266 1000000000000000; num 46743690490722656 1000000000000000; num 3960969161987305 100000000000000; num 3323760986328125 100000000000000; num 27896549224853516 1000000000000000];
    [txt "IMAGE"; txt "SSP4-Ref-SPA0-V17"; txt "KOR"; txt "Population"; txt "million"; num 728427734375 10000000000; num 7427893829345703 100000000000000; num 7384053039550781 100000000000000; num 713687973022461 10000000000000; num 6667931365966797 100000000000000; num 60520389556884766 1000000000000000; num 53906429290771484 1000000000000000; num 4746329116821289 100000000000000; num 4148881149291992 100000000000000; num 3607217025756836 100000000000000];
    [txt "IMAGE"; txt "SSP5-Ref-SPA0-V17"; txt "KOR"; txt "Population"; txt "million"; num 728427734375 10000000000; num 7544450378417969 100000000000000; num 775912094116211 10000000000000; num 7833499908447266 100000000000000; num 7760784149169922 100000000000000; num 759690933227539 10000000000000; num 7364399719238281 100000000000000; num 7045719909667969 100000000000000; num 6737019348144531 100000000000000; num 6422572326660156 100000000000000];
    [txt "IMAGE"; txt "SSP1-Ref-SPA0-V17"; txt "ME"; txt "Population"; txt "million"; num 215460205078125 1000000000000; num 25839581298828125 100000000000000; num 2925083923339844 10000000000000; num 3207445068359375 10000000000000; num 3401604919433594 10000000000000; num 3496875915527344 10000000000000; num 3505054931640625 10000000000000; num 3428652038574219 10000000000000; num 3275047912597656 10000000000000; num 3054360046386719 10000000000000];
    [txt "IMAGE"; txt "SSP2-Ref-SPA0-V17"; txt "ME"; txt "Population"; txt "million"; num 215460205078125 1000000000000; num 2630653076171875 10000000000000; num 3063028869628906 10000000000000; num 3458988952636719 10000000000000; num 3792265930175781 10000000000000; num 4037210998535156 10000000000000; num 4193244934082031 10000000000000; num 42667279052734375 100000000000000; num 4275487060546875 10000000000000; num 4240790100097656 10000000000000];
    [txt "IMAGE"; txt "SSP3-Ref-SPA0-V17"; txt "ME"; txt "Population"; txt "million"; num 215460205078125 1000000000000; num 2663609924316406 10000000000000; num 3188316955566406 10000000000000; num 3714502868652344 10000000000000; num 42485089111328125 100000000000000; num 4757528076171875 10000000000000; num 5235308837890625 10000000000000; num 5712880859375 10000000000; num 6197442016601562 10000000000000; num 667332275390625 1000000000000];
    [txt "IMAGE"; txt "SSP4-Ref-SPA0-V17"; txt "ME"; txt "Population"; txt "million"; num 215460205078125 1000000000000; num 2656250915527344 10000000000000; num 3162439880371094 10000000000000; num 3655788879394531 10000000000000; num 4134211120605469 10000000000000; num 4572997131347656 10000000000000; num 495855712890625 1000000000000; num 5307991943359375 10000000000000; num 5635767822265625 10000000000000; num 59424267578125 100000000000];
    [txt "IMAGE"; txt "SSP5-Ref-SPA0-V17"; txt "ME"; txt "Population"; txt "million"; num 215460205078125 1000000000000; num 25991668701171875 100000000000000; num 29649798583984375 100000000000000; num 3270987854003906 10000000000000; num 3486017150878906 10000000000000; num 3598905029296875 10000000000000; num 3622773132324219 10000000000000; num 3561448974609375 10000000000000; num 3424753112792969 10000000000000; num 3224713134765625 10000000000000];
    [txt "IMAGE"; txt "SSP1-Ref-SPA0-V17"; txt "MEX"; txt "Population"; txt "million"; num 1121937026977539 10000000000000; num 12288359832763672 100000000000000; num 129585205078125 1000000000000; num 13267230224609375 100000000000000; num 1320749053955078 10000000000000; num 12847630310058594 100000000000000; num 12325450134277344 100000000000000; num 1169813003540039 10000000000000; num 10886119842529297 100000000000000; num 986639633178711 10000000000000];
    [txt "IMAGE"; txt "SSP2-Ref-SPA0-V17"; txt "MEX"; txt "Population"; txt "million"; num 1121937026977539 10000000000000; num 12481539916992188 100000000000000; num 135264892578125 1000000000000; num 14273410034179688 100000000000000; num 14710719299316406 100000000000000; num 14840699768066406 100000000000000; num 1480626983642578 10000000000000; num 14681239318847656 100000000000000; num 1444156951904297 10000000000000; num 1415155029296875 10000000000000];
    [txt "IMAGE"; txt "SSP3-Ref-SPA0-V17"; txt "MEX"; txt "Population"; txt "million"; num 1121937026977539 10000000000000; num 1274030990600586 10000000000000; num 14394090270996094 100000000000000; num 1591136016845703 10000000000000; num 17325869750976562 100000000000000; num 18604849243164062 100000000000000; num 1982458953857422 10000000000000; num 21044520568847656 100000000000000; num 22254559326171875 100000000000000; num 23507339477539062 100000000000000];
    [txt "IMAGE"; txt "SSP4-Ref-SPA0-V17"; txt "MEX"; txt "Population"; txt "million"; num 1121937026977539 10000000000000; num 12346520233154297 100000000000000; num 1309936981201172 10000000000000; num 13458639526367188 100000000000000; num 1341324005126953 10000000000000; num 13035369873046875 100000000000000; num 12476300048828125 100000000000000; num 11797640228271484 100000000000000; num 11019560241699219 100000000000000; num 1017698974609375 10000000000000];
    [txt "IMAGE"; txt "SSP5-Ref-SPA0-V17"; txt "MEX"; txt "Population"; txt "million"; num 1121937026977539 10000000000000; num 1218864974975586 10000000000000; num 12637629699707031 100000000000000; num 12711129760742188 100000000000000; num 12422090148925781 100000000000000; num 11853720092773438 100000000000000; num 11187319946289062 100000000000000; num 10494319915771484 100000000000000; num 9701998138427734 100000000000000; num 8785044860839844 100000000000000];
    [txt "IMAGE"; txt "SSP1-Ref-SPA0-V17"; txt "NAF"; txt "Population"; txt "million"; num 1692978057861328 10000000000000; num 1905675048828125 10000000000000; num 2049425048828125 10000000000000; num 21424400329589844 100000000000000; num 21828970336914062 100000000000000; num 21676229858398438 100000000000000; num 21089239501953125 100000000000000; num 20121009826660156 100000000000000; num 18868699645996094 100000000000000; num 1741634979248047 10000000000000];
    [txt "IMAGE"; txt "SSP2-Ref-SPA0-V17"; txt "NAF"; txt "Population"; txt "million"; num 1692978057861328 10000000000000; num 19329269409179688 100000000000000; num 2130166015625 10000000000; num 2283845977783203 10000000000000; num 2394550018310547 10000000000000; num 24528610229492188 100000000000000; num 24645620727539062 100000000000000; num 24396139526367188 100000000000000; num 23945399475097656 100000000000000; num 23355740356445312 100000000000000];
    [txt "IMAGE"; txt "SSP3-Ref-SPA0-V17"; txt "NAF"; txt "Population"; txt "million"; num 1692978057861328 10000000000000; num 19682350158691406 100000000000000; num 2244022979736328 10000000000000; num 24931129455566406 100000000000000; num 2732489013671875 10000000000000; num 294522705078125 1000000000000; num 3125953063964844 10000000000000; num 3301182861328125 10000000000000; num 34821649169921875 100000000000000; num 36578961181640625 100000000000000];
    [txt "IMAGE"; txt "SSP4-Ref-SPA0-V17"; txt "NAF"; txt "Population"; txt "million"; num 1692978057861328 10000000000000; num 1911029052734375 10000000000000; num 20610440063476562 100000000000000; num 2154365997314453 10000000000000; num 21904420471191406 100000000000000; num 21644290161132812 100000000000000; num 20853880310058594 100000000000000; num 1967989044189453 10000000000000; num 1832335968017578 10000000000000; num 16885760498046875 100000000000000];
    [txt "IMAGE"; txt "SSP5-Ref-SPA0-V17"; txt "NAF"; txt "Population"; txt "million"; num 1692978057861328 10000000000000; num 1898018035888672 10000000000000; num 2025030059814453 10000000000000; num 21004269409179688 100000000000000; num 21234300231933594 100000000000000; num 2092104034423828 10000000000000; num 20216209411621094 100000000000000; num 1918594970703125 10000000000000; num 17926060485839844 100000000000000; num 1651446075439453 10000000000000];
    [txt "IMAGE"; txt "SSP1-Ref-SPA0-V17"; txt "OCE"; txt "Population"; txt "million"; num 2955954933166504 100000000000000; num 3415752029418945 100000000000000; num 38519691467285156 1000000000000000; num 4255867004394531 100000000000000; num 4635271072387695 100000000000000; num 4968125915527344 100000000000000; num 5203411102294922 100000000000000; num 5314904022216797 100000000000000; num 5270692825317383 100000000000000; num 51065528869628906 1000000000000000];
    [txt "IMAGE"; txt "SSP2-Ref-SPA0-V17"; txt "OCE"; txt "Population"; txt "million"; num 2955954933166504 100000000000000; num 3415752029418945 100000000000000; num 3849631881713867 100000000000000; num 4242145919799805 100000000000000; num 4610877990722656 100000000000000; num 4938753128051758 100000000000000; num 51843040466308594 1000000000000000; num 53400089263916016 1000000000000000; num 5393672180175781 100000000000000; num 5334519958496094 100000000000000];
    [txt "IMAGE"; txt "SSP3-Ref-SPA0-V17"; txt "OCE"; txt "Population"; txt "million"; num 2955954933166504 100000000000000; num 33239749908447266 1000000000000000; num 35578369140625 1000000000000; num 371151008605957 10000000000000; num 380166015625 10000000000; num 3820158004760742 100000000000000; num 3765782928466797 100000000000000; num 36479881286621094 1000000000000000; num 3476325988769531 100000000000000; num 326939697265625 10000000000000];
    [txt "IMAGE"; txt "SSP4-Ref-SPA0-V17"; txt "OCE"; txt "Population"; txt "million"; num 2955954933166504 100000000000000; num 33927818298339844 1000000000000000; num 3777165985107422 100000000000000; num 4104533004760742 100000000000000; num 43808780670166016 1000000000000000; num 4594921875 100000000; num 47143428802490234 1000000000000000; num 4729792022705078 100000000000000; num 4634965896606445 100000000000000; num 44296630859375 1000000000000];
    [txt "IMAGE"; txt "SSP5-Ref-SPA0-V17"; txt "OCE"; txt "Population"; txt "million"; num 2955954933166504 100000000000000; num 35039710998535156 1000000000000000; num 4140715026855469 100000000000000; num 4789044952392578 100000000000000; num 5485042190551758 100000000000000; num 62014678955078125 1000000000000000; num 6844410705566406 100000000000000; num 7377485656738281 100000000000000; num 7745507049560547 100000000000000; num 796280288696289 10000000000000];
    [txt "IMAGE"; txt "SSP1-Ref-SPA0-V17"; txt "RCAM"; txt "Population"; txt "million"; num 8455695343017578 100000000000000; num 9163218688964844 100000000000000; num 956810531616211 10000000000000; num 9717986297607422 100000000000000; num 961871566772461 10000000000000; num 931751480102539 10000000000000; num 8897947692871094 100000000000000; num 8381163787841797 100000000000000; num 7764595794677734 100000000000000; num 7041776275634766 100000000000000];
    [txt "IMAGE"; txt "SSP2-Ref-SPA0-V17"; txt "RCAM"; txt "Population"; txt "million"; num 8455695343017578 100000000000000; num 933414535522461 10000000000000; num 10033760070800781 100000000000000; num 1052354965209961 10000000000000; num 10794259643554688 100000000000000; num 10850309753417969 100000000000000; num 10777529907226562 100000000000000; num 10612349700927734 100000000000000; num 10370079803466797 100000000000000; num 10086019897460938 100000000000000];
    [txt "IMAGE"; txt "SSP3-Ref-SPA0-V17"; txt "RCAM"; txt "Population"; txt "million"; num 8455695343017578 100000000000000; num 9613480377197266 100000000000000; num 10910060119628906 100000000000000; num 12124720001220703 100000000000000; num 13287950134277344 100000000000000; num 14358880615234375 100000000000000; num 15365550231933594 100000000000000; num 16342250061035156 100000000000000; num 17304879760742188 100000000000000; num 18271929931640625 100000000000000];
    [txt "IMAGE"; txt "SSP4-Ref-SPA0-V17"; txt "RCAM"; txt "Population"; txt "million"; num 8455695343017578 100000000000000; num 9407135772705078 100000000000000; num 10243910217285156 100000000000000; num 10904409790039062 100000000000000; num 11412470245361328 100000000000000; num 11760379791259766 100000000000000; num 12026270294189453 100000000000000; num 12259100341796875 100000000000000; num 12477349853515625 100000000000000; num 12694170379638672 100000000000000];
    [txt "IMAGE"; txt "SSP5-Ref-SPA0-V17"; txt "RCAM"; txt "Population"; txt "million"; num 8455695343017578 100000000000000; num 9067540740966797 100000000000000; num 9257459259033203 100000000000000; num 9181902313232422 100000000000000; num 8860272216796875 100000000000000; num 8356114959716797 100000000000000; num 779220962524414 10000000000000; num 7203154754638672 100000000000000; num 6586585998535156 100000000000000; num 59324440002441406 1000000000000000];
    [txt "IMAGE"; txt "SSP1-Ref-SPA0-V17"; txt "RSAF"; txt "Population"; txt "million"; num 13690269470214844 100000000000000; num 16768319702148438 100000000000000; num 1972675018310547 10000000000000; num 223798095703125 1000000000000; num 2444311981201172 10000000000000; num 2590354919433594 10000000000000; num 2681958923339844 10000000000000; num 2716335144042969 10000000000000; num 26964349365234375 100000000000000; num 2624822998046875 10000000000000];
    [txt "IMAGE"; txt "SSP2-Ref-SPA0-V17"; txt "RSAF"; txt "Population"; txt "million"; num 13690269470214844 100000000000000; num 17261990356445312 100000000000000; num 21105560302734375 100000000000000; num 2496165008544922 10000000000000; num 2854620056152344 10000000000000; num 31636468505859375 100000000000000; num 3422720031738281 10000000000000; num 3626706848144531 10000000000000; num 3776153869628906 10000000000000; num 386447509765625 1000000000000];
    [txt "IMAGE"; txt "SSP3-Ref-SPA0-V17"; txt "RSAF"; txt "Population"; txt "million"; num 13690269470214844 100000000000000; num 1763455047607422 10000000000000; num 22471539306640625 100000000000000; num 277514892578125 1000000000000; num 33350048828125 100000000000; num 3887538146972656 10000000000000; num 4416523132324219 10000000000000; num 49247491455078125 100000000000000; num 5405537719726562 10000000000000; num 5851192016601562 10000000000000];
    [txt "IMAGE"; txt "SSP4-Ref-SPA0-V17"; txt "RSAF"; txt "Population"; txt "million"; num 13690269470214844 100000000000000; num 17584140014648438 100000000000000; num 22295159912109375 100000000000000; num 27396710205078125 100000000000000; num 32770098876953125 100000000000000; num 3801217041015625 10000000000000; num 4300481872558594 10000000000000; num 4779422912597656 10000000000000; num 522986572265625 1000000000000; num 564340576171875 1000000000000];
    [txt "IMAGE"; txt "SSP5-Ref-SPA0-V17"; txt "RSAF"; txt "Population"; txt "million"; num 13690269470214844 100000000000000; num 16701539611816406 100000000000000; num 1950229034423828 10000000000000; num 21963009643554688 100000000000000; num 2380124969482422 10000000000000; num 25023370361328125 100000000000000; num 2574403991699219 10000000000000; num 2596224060058594 10000000000000; num 2571211853027344 10000000000000; num 2501387939453125 10000000000000];
    [txt "IMAGE"; txt "SSP1-Ref-SPA0-V17"; txt "RSAM"; txt "Population"; txt "million"; num 19770730590820312 100000000000000; num 21616619873046875 100000000000000; num 22815829467773438 100000000000000; num 23455099487304688 100000000000000; num 23497970581054688 100000000000000; num 23033990478515625 100000000000000; num 22193890380859375 100000000000000; num 21019219970703125 100000000000000; num 1947303009033203 10000000000000; num 17568240356445312 100000000000000];
    [txt "IMAGE"; txt "SSP2-Ref-SPA0-V17"; txt "RSAM"; txt "Population"; txt "million"; num 19770730590820312 100000000000000; num 2193404998779297 10000000000000; num 23731959533691406 100000000000000; num 25054379272460938 100000000000000; num 258660400390625 1000000000000; num 2617204895019531 10000000000000; num 26087811279296875 100000000000000; num 25672509765625 100000000000; num 25006100463867188 100000000000000; num 24199349975585938 100000000000000];
    [txt "IMAGE"; txt "SSP3-Ref-SPA0-V17"; txt "RSAM"; txt "Population"; txt "million"; num 19770730590820312 100000000000000; num 22381500244140625 100000000000000; num 2510717010498047 10000000000000; num 2758301086425781 10000000000000; num 2986763916015625 10000000000000; num 319206787109375 1000000000000; num 33770880126953125 100000000000000; num 3551640930175781 10000000000000; num 3725823059082031 10000000000000; num 3905133056640625 10000000000000];
    [txt "IMAGE"; txt "SSP4-Ref-SPA0-V17"; txt "RSAM"; txt "Population"; txt "million"; num 19770730590820312 100000000000000; num 21851109313964844 100000000000000; num 23388890075683594 100000000000000; num 24331370544433594 100000000000000; num 24665330505371094 100000000000000; num 2444875946044922 10000000000000; num 2380789031982422 10000000000000; num 22841470336914062 100000000000000; num 2166739959716797 10000000000000; num 2039857940673828 10000000000000];
    [txt "IMAGE"; txt "SSP5-Ref-SPA0-V17"; txt "RSAM"; txt "Population"; txt "million"; num 19770730590820312 100000000000000; num 2153468017578125 10000000000000; num 22551480102539062 100000000000000; num 22999740600585938 100000000000000; num 2285760040283203 10000000000000; num 2222333984375 10000000000; num 21259019470214844 100000000000000; num 2001833953857422 10000000000000; num 18464840698242188 100000000000000; num 16610130310058594 100000000000000];
    [txt "IMAGE"; txt "SSP1-Ref-SPA0-V17"; txt "RSAS"; txt "Population"; txt "million"; num 4230950012207031 10000000000000; num 48359991455078125 100000000000000; num 5315869140625 10000000000; num 564952880859375 1000000000000; num 5820839233398438 10000000000000; num 5831856079101562 10000000000000; num 57173291015625 100000000000; num 5491873779296875 10000000000000; num 5174854125976562 10000000000000; num 47965740966796875 100000000000000];
    [txt "IMAGE"; txt "SSP2-Ref-SPA0-V17"; txt "RSAS"; txt "Population"; txt "million"; num 4230950012207031 10000000000000; num 4940729064941406 10000000000000; num 561927490234375 1000000000000; num 6201162719726562 10000000000000; num 66719677734375 100000000000; num 6986389770507812 10000000000000; num 715986083984375 1000000000000; num 7229257202148438 10000000000000; num 7208328857421875 10000000000000; num 7116149291992188 10000000000000];
    [txt "IMAGE"; txt "SSP3-Ref-SPA0-V17"; txt "RSAS"; txt "Population"; txt "million"; num 4230950012207031 10000000000000; num 50481829833984375 100000000000000; num 598277099609375 1000000000000; num 6892249145507812 10000000000000; num 782334228515625 1000000000000; num 8695418090820312 10000000000000; num 9486331176757812 10000000000000; num 10260479736328125 10000000000000; num 11018409423828125 10000000000000; num 11742919921875 10000000000];
    [txt "IMAGE"; txt "SSP4-Ref-SPA0-V17"; txt "RSAS"; txt "Population"; txt "million"; num 4230950012207031 10000000000000; num 4978035888671875 10000000000000; num 5760175170898438 10000000000000; num 6483109741210938 10000000000000; num 718423095703125 1000000000000; num 77974267578125 100000000000; num 8318463745117188 10000000000000; num 8804771118164062 10000000000000; num 9258612060546875 10000000000000; num 9670421752929688 10000000000000];
    [txt "IMAGE"; txt "SSP5-Ref-SPA0-V17"; txt "RSAS"; txt "Population"; txt "million"; num 4230950012207031 10000000000000; num 4812755126953125 10000000000000; num 5242747802734375 10000000000000; num 5520980224609375 10000000000000; num 563291015625 1000000000; num 5586140747070312 10000000000000; num 5427860717773438 10000000000000; num 5178161010742188 10000000000000; num 4857406005859375 10000000000000; num 4494159851074219 10000000000000];
    [txt "IMAGE"; txt "SSP1-Ref-SPA0-V17"; txt "RUS"; txt "Population"; txt "million"; num 15877040100097656 100000000000000; num 1575756072998047 10000000000000; num 1540269012451172 10000000000000; num 15049110412597656 100000000000000; num 14593069458007812 100000000000000; num 13990679931640625 100000000000000; num 13250799560546875 100000000000000; num 12325669860839844 100000000000000; num 11284750366210938 100000000000000; num 10204219818115234 100000000000000];
    [txt "IMAGE"; txt "SSP2-Ref-SPA0-V17"; txt "RUS"; txt "Population"; txt "million"; num 15877040100097656 100000000000000; num 1584550018310547 10000000000000; num 1562176055908203 10000000000000; num 1542487030029297 10000000000000; num 152739501953125 1000000000000; num 1507895965576172 10000000000000; num 14808360290527344 100000000000000; num 14449009704589844 100000000000000; num 1400718994140625 10000000000000; num 1350946044921875 10000000000000];
    [txt "IMAGE"; txt "SSP3-Ref-SPA0-V17"; txt "RUS"; txt "Population"; txt "million"; num 15877040100097656 100000000000000; num 15849180603027344 100000000000000; num 15545750427246094 100000000000000; num 1527216033935547 10000000000000; num 15188589477539062 100000000000000; num 15216050720214844 100000000000000; num 15389059448242188 100000000000000; num 15766510009765625 100000000000000; num 16246929931640625 100000000000000; num 167414794921875 1000000000000];
    [txt "IMAGE"; txt "SSP4-Ref-SPA0-V17"; txt "RUS"; txt "Population"; txt "million"; num 15877040100097656 100000000000000; num 15720150756835938 100000000000000; num 1527772979736328 10000000000000; num 147773193359375 1000000000000; num 14185069274902344 100000000000000; num 13495339965820312 100000000000000; num 1268104019165039 10000000000000; num 11737110137939453 100000000000000; num 10736869812011719 100000000000000; num 9712960052490234 100000000000000];
    [txt "IMAGE"; txt "SSP5-Ref-SPA0-V17"; txt "RUS"; txt "Population"; txt "million"; num 15877040100097656 100000000000000; num 15823919677734375 100000000000000; num 15666229248046875 100000000000000; num 15538189697265625 100000000000000; num 1527863006591797 10000000000000; num 14844769287109375 100000000000000; num 14212429809570312 100000000000000; num 133097900390625 1000000000000; num 12228469848632812 100000000000000; num 11063590240478516 100000000000000];
    [txt "IMAGE"; txt "SSP1-Ref-SPA0-V17"; txt "SAF"; txt "Population"; txt "million"; num 5042721176147461 100000000000000; num 5503007125854492 100000000000000; num 5881113052368164 100000000000000; num 613931884765625 10000000000000; num 62709869384765625 1000000000000000; num 6258012008666992 100000000000000; num 6093552017211914 100000000000000; num 57877681732177734 1000000000000000; num 53840118408203125 1000000000000000; num 492221794128418 10000000000000];
    [txt "IMAGE"; txt "SSP2-Ref-SPA0-V17"; txt "SAF"; txt "Population"; txt "million"; num 5042721176147461 100000000000000; num 5511857986450195 100000000000000; num 58928810119628906 1000000000000000; num 6161347961425781 100000000000000; num 6341498947143555 100000000000000; num 6441783905029297 100000000000000; num 6440376281738281 100000000000000; num 632530403137207 10000000000000; num 6135799026489258 100000000000000; num 5882722091674805 100000000000000];
    [txt "IMAGE"; txt "SSP3-Ref-SPA0-V17"; txt "SAF"; txt "Population"; txt "million"; num 5042721176147461 100000000000000; num 54325958251953125 1000000000000000; num 57341548919677734 1000000000000000; num 59771728515625 1000000000000; num 6198664855957031 100000000000000; num 6400643920898438 100000000000000; num 6591658020019531 100000000000000; num 6775430297851562 100000000000000; num 696895980834961 10000000000000; num 7159673309326172 100000000000000];
    [txt "IMAGE"; txt "SSP4-Ref-SPA0-V17"; txt "SAF"; txt "Population"; txt "million"; num 5042721176147461 100000000000000; num 5444968032836914 100000000000000; num 5678630828857422 100000000000000; num 574049186706543 10000000000000; num 5657809829711914 100000000000000; num 5476049041748047 100000000000000; num 51864601135253906 1000000000000000; num 48018150329589844 1000000000000000; num 4365972900390625 100000000000000; num 3899953842163086 100000000000000];
    [txt "IMAGE"; txt "SSP5-Ref-SPA0-V17"; txt "SAF"; txt "Population"; txt "million"; num 5042721176147461 100000000000000; num 5543844985961914 100000000000000; num 600694694519043 10000000000000; num 6350954055786133 100000000000000; num 6565807342529297 100000000000000; num 661871566772461 10000000000000; num 6488858795166016 100000000000000; num 61871978759765625 1000000000000000; num 57641300201416016 1000000000000000; num 52678340911865234 1000000000000000];
    [txt "IMAGE"; txt "SSP1-Ref-SPA0-V17"; txt "SEAS"; txt "Population"; txt "million"; num 35592919921875 100000000000; num 38980120849609375 100000000000000; num 4114841003417969 10000000000000; num 4217604064941406 10000000000000; num 4201767883300781 10000000000000; num 4089966125488281 10000000000000; num 3909465026855469 10000000000000; num 3669075012207031 10000000000000; num 3375741882324219 10000000000000; num 3045939025878906 10000000000000];
    [txt "IMAGE"; txt "SSP2-Ref-SPA0-V17"; txt "SEAS"; txt "Population"; txt "million"; num 35592919921875 100000000000; num 3948186950683594 10000000000000; num 42586590576171875 100000000000000; num 4466094970703125 10000000000000; num 4567687072753906 10000000000000; num 4581705017089844 10000000000000; num 45248541259765625 100000000000000; num 4409455871582031 10000000000000; num 4256235046386719 10000000000000; num 4085804138183594 10000000000000];
    [txt "IMAGE"; txt "SSP3-Ref-SPA0-V17"; txt "SEAS"; txt "Population"; txt "million"; num 35592919921875 100000000000; num 4000401916503906 10000000000000; num 4430201110839844 10000000000000; num 4775950927734375 10000000000000; num 506606201171875 1000000000000; num 5315925903320312 10000000000000; num 5528380737304688 10000000000000; num 5731353149414062 10000000000000; num 5944152221679688 10000000000000; num 6162615966796875 10000000000000];
    [txt "IMAGE"; txt "SSP4-Ref-SPA0-V17"; txt "SEAS"; txt "Population"; txt "million"; num 35592919921875 100000000000; num 39438848876953125 100000000000000; num 4255397033691406 10000000000000; num 4464660949707031 10000000000000; num 4582956848144531 10000000000000; num 4624194030761719 10000000000000; num 46048541259765625 100000000000000; num 45467401123046875 100000000000000; num 44708819580078125 100000000000000; num 4390993957519531 10000000000000];
    [txt "IMAGE"; txt "SSP5-Ref-SPA0-V17"; txt "SEAS"; txt "Population"; txt "million"; num 35592919921875 100000000000; num 3892195129394531 10000000000000; num 4096701965332031 10000000000000; num 418735595703125 1000000000000; num 4160148010253906 10000000000000; num 4037608947753906 10000000000000; num 38483428955078125 100000000000000; num 3602528076171875 10000000000000; num 3307499084472656 10000000000000; num 297952392578125 1000000000000];
    [txt "IMAGE"; txt "SSP1-Ref-SPA0-V17"; txt "STAN"; txt "Population"; txt "million"; num 61520870208740234 1000000000000000; num 6662177276611328 100000000000000; num 6914234161376953 100000000000000; num 6984136962890625 100000000000000; num 6880599212646484 100000000000000; num 661871566772461 10000000000000; num 6273860168457031 100000000000000; num 58595069885253906 1000000000000000; num 53949039459228516 1000000000000000; num 4926451110839844 100000000000000];
    [txt "IMAGE"; txt "SSP2-Ref-SPA0-V17"; txt "STAN"; txt "Population"; txt "million"; num 61520870208740234 1000000000000000; num 676044692993164 10000000000000; num 7181891632080078 100000000000000; num 7435569763183594 100000000000000; num 7545691680908203 100000000000000; num 7490682220458984 100000000000000; num 7348139953613281 100000000000000; num 7138227844238281 100000000000000; num 6890933227539062 100000000000000; num 6646575927734375 100000000000000];
    [txt "IMAGE"; txt "SSP3-Ref-SPA0-V17"; txt "STAN"; txt "Population"; txt "million"; num 61520870208740234 1000000000000000; num 6905825805664062 100000000000000; num 7646597290039062 100000000000000; num 8245736694335938 100000000000000; num 8784194946289062 100000000000000; num 9201587677001953 100000000000000; num 9516758728027344 100000000000000; num 9793940734863281 100000000000000; num 10047010040283203 100000000000000; num 10280120086669922 100000000000000];
    [txt "IMAGE"; txt "SSP4-Ref-SPA0-V17"; txt "STAN"; txt "Population"; txt "million"; num 61520870208740234 1000000000000000; num 668608627319336 10000000000000; num 6976943969726562 100000000000000; num 7068122100830078 100000000000000; num 698231430053711 10000000000000; num 6730256652832031 100000000000000; num 638297004699707 10000000000000; num 5977531051635742 100000000000000; num 5549298858642578 100000000000000; num 51335269927978516 1000000000000000];
    [txt "IMAGE"; txt "SSP5-Ref-SPA0-V17"; txt "STAN"; txt "Population"; txt "million"; num 61520870208740234 1000000000000000; num 6594908142089844 100000000000000; num 6704930114746094 100000000000000; num 6631481170654297 100000000000000; num 6384387969970703 100000000000000; num 6002048110961914 100000000000000; num 5574726867675781 100000000000000; num 5121268081665039 100000000000000; num 46611228942871094 1000000000000000; num 42304588317871094 1000000000000000];
    [txt "IMAGE"; txt "SSP1-Ref-SPA0-V17"; txt "TUR"; txt "Population"; txt "million"; num 7598284149169922 100000000000000; num 8335427856445312 100000000000000; num 8810006713867188 100000000000000; num 908531265258789 10000000000000; num 9122913360595703 100000000000000; num 8940245056152344 100000000000000; num 8595381164550781 100000000000000; num 8109522247314453 100000000000000; num 7524445343017578 100000000000000; num 6857067108154297 100000000000000];
    [txt "IMAGE"; txt "SSP2-Ref-SPA0-V17"; txt "TUR"; txt "Population"; txt "million"; num 7598284149169922 100000000000000; num 8460965728759766 100000000000000; num 9166673278808594 100000000000000; num 9686788940429688 100000000000000; num 10013790130615234 100000000000000; num 10133689880371094 100000000000000; num 10097550201416016 100000000000000; num 9925018310546875 100000000000000; num 9663603210449219 100000000000000; num 9366155242919922 100000000000000];
    [txt "IMAGE"; txt "SSP3-Ref-SPA0-V17"; txt "TUR"; txt "Population"; txt "million"; num 7598284149169922 100000000000000; num 8628801727294922 100000000000000; num 9652845764160156 100000000000000; num 105489501953125 1000000000000; num 11407769775390625 100000000000000; num 12206009674072266 100000000000000; num 12955059814453125 100000000000000; num 1375915069580078 10000000000000; num 14628619384765625 100000000000000; num 15539129638671875 100000000000000];
    [txt "IMAGE"; txt "SSP4-Ref-SPA0-V17"; txt "TUR"; txt "Population"; txt "million"; num 7598284149169922 100000000000000; num 8453550720214844 100000000000000; num 9080613708496094 100000000000000; num 94598388671875 1000000000000; num 9590702819824219 100000000000000; num 9479055786132812 100000000000000; num 9170118713378906 100000000000000; num 8722277069091797 100000000000000; num 8200282287597656 100000000000000; num 7642149353027344 100000000000000];
    [txt "IMAGE"; txt "SSP5-Ref-SPA0-V17"; txt "TUR"; txt "Population"; txt "million"; num 7598284149169922 100000000000000; num 8332398986816406 100000000000000; num 8801129913330078 100000000000000; num 9073512268066406 100000000000000; num 9110588073730469 100000000000000; num 8930845642089844 100000000000000; num 8592144012451172 100000000000000; num 811443099975586 10000000000000; num 7537812805175781 100000000000000; num 6878687286376953 100000000000000];
    [txt "IMAGE"; txt "SSP1-Ref-SPA0-V17"; txt "UKR"; txt "Population"; txt "million"; num 5861281967163086 100000000000000; num 5522999954223633 100000000000000; num 52336158752441406 1000000000000000; num 4995729064941406 100000000000000; num 47555419921875 1000000000000; num 44936561584472656 1000000000000000; num 4195671844482422 100000000000000; num 38509910583496094 1000000000000000; num 348241081237793 10000000000000; num 31079309463500977 1000000000000000];
    [txt "IMAGE"; txt "SSP2-Ref-SPA0-V17"; txt "UKR"; txt "Population"; txt "million"; num 5861281967163086 100000000000000; num 5540298843383789 100000000000000; num 5285612869262695 100000000000000; num 50884239196777344 1000000000000000; num 4926633071899414 100000000000000; num 47806400299072266 1000000000000000; num 46165489196777344 1000000000000000; num 44280601501464844 1000000000000000; num 4226171112060547 100000000000000; num 4017182159423828 100000000000000];
    [txt "IMAGE"; txt "SSP3-Ref-SPA0-V17"; txt "UKR"; txt "Population"; txt "million"; num 5861281967163086 100000000000000; num 5562097930908203 100000000000000; num 53078121185302734 1000000000000000; num 50952239990234375 1000000000000000; num 49654300689697266 1000000000000000; num 4889434051513672 100000000000000; num 4860935974121094 100000000000000; num 48983341217041016 1000000000000000; num 4973429870605469 100000000000000; num 5053226089477539 100000000000000];
    [txt "IMAGE"; txt "SSP4-Ref-SPA0-V17"; txt "UKR"; txt "Population"; txt "million"; num 5861281967163086 100000000000000; num 5503200912475586 100000000000000; num 5174119186401367 100000000000000; num 4881135177612305 100000000000000; num 4589950942993164 100000000000000; num 4295267105102539 100000000000000; num 3972483825683594 100000000000000; num 36202030181884766 1000000000000000; num 3262622833251953 100000000000000; num 2910141944885254 100000000000000];
    [txt "IMAGE"; txt "SSP5-Ref-SPA0-V17"; txt "UKR"; txt "Population"; txt "million"; num 5861281967163086 100000000000000; num 5521500015258789 100000000000000; num 52678138732910156 1000000000000000; num 5086824035644531 100000000000000; num 4901333999633789 100000000000000; num 46908451080322266 1000000000000000; num 4426359939575195 100000000000000; num 4091477966308594 100000000000000; num 3714297866821289 100000000000000; num 33174198150634766 1000000000000000];
    [txt "IMAGE"; txt "SSP1-Ref-SPA0-V17"; txt "USA"; txt "Population"; txt "million"; num 316580810546875 1000000000000; num 3434447021484375 10000000000000; num 3709469909667969 10000000000000; num 3965633850097656 10000000000000; num 4192648010253906 10000000000000; num 4405790100097656 10000000000000; num 45996551513671875 100000000000000; num 4745448913574219 10000000000000; num 4799975891113281 10000000000000; num 4758208923339844 10000000000000];
    [txt "IMAGE"; txt "SSP2-Ref-SPA0-V17"; txt "USA"; txt "Population"; txt "million"; num 316580810546875 1000000000000; num 3424543151855469 10000000000000; num 36823699951171875 100000000000000; num 3908843078613281 10000000000000; num 41033709716796875 100000000000000; num 4293338928222656 10000000000000; num 44637548828125 100000000000; num 45852020263671875 100000000000000; num 4653203125 10000000; num 4677152099609375 10000000000000];
    [txt "IMAGE"; txt "SSP3-Ref-SPA0-V17"; txt "USA"; txt "Population"; txt "million"; num 316580810546875 1000000000000; num 3353380126953125 10000000000000; num 34408221435546875 100000000000000; num 34568450927734375 100000000000000; num 3409049987792969 10000000000000; num 3326188049316406 10000000000000; num 3216081848144531 10000000000000; num 30657501220703125 100000000000000; num 2878667907714844 10000000000000; num 26700030517578125 100000000000000];
    [txt "IMAGE"; txt "SSP4-Ref-SPA0-V17"; txt "USA"; txt "Population"; txt "million"; num 316580810546875 1000000000000; num 3402950134277344 10000000000000; num 3608279113769531 10000000000000; num 3765669860839844 10000000000000; num 3867237854003906 10000000000000; num 3938594970703125 10000000000000; num 3974324951171875 10000000000000; num 39485809326171875 100000000000000; num 38577020263671875 100000000000000; num 3718629150390625 10000000000000];
    [txt "IMAGE"; txt "SSP5-Ref-SPA0-V17"; txt "USA"; txt "Population"; txt "million"; num 316580810546875 1000000000000; num 3497908935546875 10000000000000; num 3925060119628906 10000000000000; num 4372611083984375 10000000000000; num 48521270751953125 100000000000000; num 5383101196289062 10000000000000; num 5927415161132812 10000000000000; num 6450872192382812 10000000000000; num 6908438110351562 10000000000000; num 7274105224609375 10000000000000];
    [txt "IMAGE"; txt "SSP1-Ref-SPA0-V17"; txt "WAF"; txt "Population"; txt "million"; num 4170736999511719 10000000000000; num 5178756103515625 10000000000000; num 6187341918945312 10000000000000; num 7152423706054688 10000000000000; num 7973560180664062 10000000000000; num 8607617797851562 10000000000000; num 9061314086914062 10000000000000; num 9318333740234375 10000000000000; num 9385523071289062 10000000000000; num 9280501708984375 10000000000000];
    [txt "IMAGE"; txt "SSP2-Ref-SPA0-V17"; txt "WAF"; txt "Population"; txt "million"; num 4170736999511719 10000000000000; num 53042431640625 100000000000; num 6557576293945312 10000000000000; num 785934326171875 1000000000000; num 9131135864257812 10000000000000; num 10243709716796875 10000000000000; num 1120095947265625 1000000000000; num 1197843994140625 1000000000000; num 12552099609375 10000000000; num 1294468017578125 1000000000000];
    [txt "IMAGE"; txt "SSP3-Ref-SPA0-V17"; txt "WAF"; txt "Population"; txt "million"; num 4170736999511719 10000000000000; num 543052978515625 1000000000000; num 698290771484375 1000000000000; num 8741925048828125 10000000000000; num 1064553955078125 1000000000000; num 12544139404296875 10000000000000; num 14355069580078125 10000000000000; num 16062530517578125 10000000000000; num 1763095947265625 1000000000000; num 190414599609375 100000000000];
    [txt "IMAGE"; txt "SSP4-Ref-SPA0-V17"; txt "WAF"; txt "Population"; txt "million"; num 4170736999511719 10000000000000; num 5423786010742188 10000000000000; num 6956102905273438 10000000000000; num 867782470703125 1000000000000; num 10527640380859375 10000000000000; num 123560498046875 100000000000; num 140885302734375 100000000000; num 1571490966796875 1000000000000; num 1719739990234375 1000000000000; num 18513310546875 10000000000];
    [txt "IMAGE"; txt "SSP5-Ref-SPA0-V17"; txt "WAF"; txt "Population"; txt "million"; num 4170736999511719 10000000000000; num 516990478515625 1000000000000; num 6153458862304688 10000000000000; num 7084395141601562 10000000000000; num 7862675170898438 10000000000000; num 8447943725585938 10000000000000; num 8858754272460938 10000000000000; num 908548583984375 1000000000000; num 9137374267578125 10000000000000; num 9033112182617188 10000000000000];
    [txt "IMAGE"; txt "SSP1-Ref-SPA0-V17"; txt "WEU"; txt "Population"; txt "million"; num 4098966979980469 10000000000000; num 4281326904296875 10000000000000; num 4444028015136719 10000000000000; num 45981878662109375 100000000000000; num 4731803894042969 10000000000000; num 4823743896484375 10000000000000; num 4849330139160156 10000000000000; num 4804523010253906 10000000000000; num 46796978759765625 100000000000000; num 4495318908691406 10000000000000];
    [txt "IMAGE"; txt "SSP2-Ref-SPA0-V17"; txt "WEU"; txt "Population"; txt "million"; num 4098966979980469 10000000000000; num 4263229064941406 10000000000000; num 4395671081542969 10000000000000; num 4507489929199219 10000000000000; num 4591913146972656 10000000000000; num 4639722900390625 10000000000000; num 46505218505859375 100000000000000; num 46375750732421875 100000000000000; num 45935040283203125 100000000000000; num 4504267883300781 10000000000000];
    [txt "IMAGE"; txt "SSP3-Ref-SPA0-V17"; txt "WEU"; txt "Population"; txt "million"; num 4098966979980469 10000000000000; num 41834100341796875 100000000000000; num 41442510986328125 100000000000000; num 40437579345703125 100000000000000; num 3878243103027344 10000000000000; num 3653362121582031 10000000000000; num 34062078857421875 100000000000000; num 315831787109375 1000000000000; num 29073748779296875 100000000000000; num 2651877136230469 10000000000000];
    [txt "IMAGE"; txt "SSP4-Ref-SPA0-V17"; txt "WEU"; txt "Population"; txt "million"; num 4098966979980469 10000000000000; num 4236788024902344 10000000000000; num 43086529541015625 100000000000000; num 43426611328125 100000000000; num 4325259094238281 10000000000000; num 42468218994140625 100000000000000; num 4115989990234375 10000000000000; num 3949590148925781 10000000000000; num 3744219970703125 10000000000000; num 34943499755859375 100000000000000];
    [txt "IMAGE"; txt "SSP5-Ref-SPA0-V17"; txt "WEU"; txt "Population"; txt "million"; num 4098966979980469 10000000000000; num 4344580078125 10000000000; num 4649667053222656 10000000000000; num 49831439208984375 100000000000000; num 5350192260742188 10000000000000; num 5731181030273438 10000000000000; num 6070703735351562 10000000000000; num 6354213256835938 10000000000000; num 6566326293945312 10000000000000; num 6714199829101562 10000000000000];
    [txt "IMAGE"; txt "SSP1-Ref-SPA0-V17"; txt "BRA"; txt "Emissions|CO2"; txt "Mt CO2/yr"; num 12436512452302466 10000000000000; num 12292298585101855 10000000000000; num 11136422425328808 10000000000000; num 16245562338716452 10000000000000; num 14023064169569095 10000000000000; num 11444649354067767 10000000000000; num 9771442871982063 10000000000000; num 7484429474557355 10000000000000; num 5454951070645644 10000000000000; num 1679115524444639 10000000000000];
    [txt "IMAGE"; txt "SSP2-Ref-SPA0-V17"; txt "BRA"; txt "Emissions|CO2"; txt "Mt CO2/yr"; num 12466490988275243 10000000000000; num 15774296978159286 10000000000000; num 17020179241456142 10000000000000; num 21424612632156027 10000000000000; num 21972976686567854 10000000000000; num 17030038555421884 10000000000000; num 14649829408070084 10000000000000; num 17185175884537548 10000000000000; num 14516640829770215 10000000000000; num 14485470582371547 10000000000000];
    [txt "IMAGE"; txt "SSP3-Ref-SPA0-V17"; txt "BRA"; txt "Emissions|CO2"; txt "Mt CO2/yr"; num 12473197022618301 10000000000000; num 19687236126464227 10000000000000; num 229176267517579 100000000000; num 20328421632707414 10000000000000; num 2801405619558059 1000000000000; num 24545468752231404 10000000000000; num 18114165854511325 10000000000000; num 17685777487773162 10000000000000; num 18104397177752624 10000000000000; num 17093274232510964 10000000000000];
    [txt "IMAGE"; txt "SSP4-Ref-SPA0-V17"; txt "BRA"; txt "Emissions|CO2"; txt "Mt CO2/yr"; num 12448219198722802 10000000000000; num 15692940573529495 10000000000000; num 17490773215294496 10000000000000; num 2284371154992826 1000000000000; num 23703574424355393 10000000000000; num 1315569519162566 1000000000000; num 1104062673033312 1000000000000; num 15010196229391906 10000000000000; num 8736262462138607 10000000000000; num 5989657440730061 10000000000000];
    [txt "IMAGE"; txt "SSP5-Ref-SPA0-V17"; txt "BRA"; txt "Emissions|CO2"; txt "Mt CO2/yr"; num 12555176697918723 10000000000000; num 18732714438551932 10000000000000; num 2579058227773522 1000000000000; num 30783647260285493 10000000000000; num 37645705162927543 10000000000000; num 255111153180744 100000000000; num 22558148398860635 10000000000000; num 2225008036497846 1000000000000; num 2276496236372319 1000000000000; num 17878080547686477 10000000000000];
    [txt "IMAGE"; txt "SSP1-Ref-SPA0-V17"; txt "CAN"; txt "Emissions|CO2"; txt "Mt CO2/yr"; num 551995025684947 1000000000000; num 47646832788348456 100000000000000; num 4589196218272017 10000000000000; num 46522447463132306 100000000000000; num 3516081899326805 10000000000000; num 36587487796294886 100000000000000; num 401162292516938 1000000000000; num 2839952392836302 10000000000000; num 14650540798247556 100000000000000; num 2750645930222389 10000000000000];
    [txt "IMAGE"; txt "SSP2-Ref-SPA0-V17"; txt "CAN"; txt "Emissions|CO2"; txt "Mt CO2/yr"; num 5532779897557016 10000000000000; num 5115769857235903 10000000000000; num 5477626038095622 10000000000000; num 5943058167044184 10000000000000; num 5429281158940836 10000000000000; num 6002065786271554 10000000000000; num 6474456838560592 10000000000000; num 6059140930726612 10000000000000; num 5736313019320311 10000000000000; num 6214296163488112 10000000000000];
    [txt "IMAGE"; txt "SSP3-Ref-SPA0-V17"; txt "CAN"; txt "Emissions|CO2"; txt "Mt CO2/yr"; num 552610295663844 1000000000000; num 5101759694881114 10000000000000; num 5463755188484986 10000000000000; num 5910714111865462 10000000000000; num 5397410431398877 10000000000000; num 5584025167337065 10000000000000; num 5657853648382189 10000000000000; num 49535751347276687 100000000000000; num 3522631556513273 10000000000000; num 3686066945728977 10000000000000];
    [txt "IMAGE"; txt "SSP4-Ref-SPA0-V17"; txt "CAN"; txt "Emissions|CO2"; txt "Mt CO2/yr"; num 5523675893649938 10000000000000; num 47286359664129486 100000000000000; num 50458980819203066 100000000000000; num 5198981527165342 10000000000000; num 41101391350985836 100000000000000; num 44434132643606523 100000000000000; num 49421425378841815 100000000000000; num 4349297434884323 10000000000000; num 330693598459425 1000000000000; num 434176979104412 1000000000000];
    [txt "IMAGE"; txt "SSP5-Ref-SPA0-V17"; txt "CAN"; txt "Emissions|CO2"; txt "Mt CO2/yr"; num 5597573751322673 10000000000000; num 5604265238953489 10000000000000; num 6954680176413493 10000000000000; num 8351999309027501 10000000000000; num 87051140348083 100000000000; num 1047149780368633 1000000000000; num 12637313030120201 10000000000000; num 12267009685359974 10000000000000; num 12277657878720318 10000000000000; num 14514463298845537 10000000000000];
    [txt "IMAGE"; txt "SSP1-Ref-SPA0-V17"; txt "CEU"; txt "Emissions|CO2"; txt "Mt CO2/yr"; num 6784598338426026 10000000000000; num 7462157898627596 10000000000000; num 6426658580092706 10000000000000; num 6227085520992531 10000000000000; num 5938694712860845 10000000000000; num 5640543060815511 10000000000000; num 44677745314527107 100000000000000; num 3374541270244927 10000000000000; num 18942293677462587 100000000000000; num 1881082496814074 10000000000000];
    [txt "IMAGE"; txt "SSP2-Ref-SPA0-V17"; txt "CEU"; txt "Emissions|CO2"; txt "Mt CO2/yr"; num 680272242290033 1000000000000; num 7849328715720086 10000000000000; num 7453680522324743 10000000000000; num 7972594757804859 10000000000000; num 8424115194450724 10000000000000; num 8809595795478607 10000000000000; num 8717833456196175 10000000000000; num 823541412428383 1000000000000; num 7420874888776839 10000000000000; num 720733586694753 1000000000000];
    [txt "IMAGE"; txt "SSP3-Ref-SPA0-V17"; txt "CEU"; txt "Emissions|CO2"; txt "Mt CO2/yr"; num 6787018128058407 10000000000000; num 812224238151638 1000000000000; num 7915816142483942 10000000000000; num 8549944255334559 10000000000000; num 8985514781497203 10000000000000; num 879662292560438 1000000000000; num 8550347646854779 10000000000000; num 8220274353774641 10000000000000; num 7826613465066979 10000000000000; num 7742548015026784 10000000000000];
    [txt "IMAGE"; txt "SSP4-Ref-SPA0-V17"; txt "CEU"; txt "Emissions|CO2"; txt "Mt CO2/yr"; num 6811475067757897 10000000000000; num 7603929596638532 10000000000000; num 7153725077961536 10000000000000; num 7170951182699431 10000000000000; num 7003777008693347 10000000000000; num 7023753001533705 10000000000000; num 6308224843916573 10000000000000; num 5980315094537806 10000000000000; num 49179312138259905 100000000000000; num 51140684513926493 100000000000000];
    [txt "IMAGE"; txt "SSP5-Ref-SPA0-V17"; txt "CEU"; txt "Emissions|CO2"; txt "Mt CO2/yr"; num 683884694479489 1000000000000; num 8138111725593344 10000000000000; num 8747475179831683 10000000000000; num 10314307150188965 10000000000000; num 11721068218025187 10000000000000; num 1290378418086057 1000000000000; num 13138000794651396 10000000000000; num 13058246766323832 10000000000000; num 12614495952481407 10000000000000; num 12544612427898232 10000000000000];
    [txt "IMAGE"; txt "SSP1-Ref-SPA0-V17"; txt "CHN"; txt "Emissions|CO2"; txt "Mt CO2/yr"; num 88143954272336 10000000000; num 10537090495749584 1000000000000; num 10945898764015914 1000000000000; num 1018410042410291 100000000000; num 8704409750140268 1000000000000; num 6913807943336861 1000000000000; num 498821040898212 100000000000; num 28719166669277497 10000000000000; num 205873352069497 100000000000; num 18721256105217558 10000000000000];
    [txt "IMAGE"; txt "SSP2-Ref-SPA0-V17"; txt "CHN"; txt "Emissions|CO2"; txt "Mt CO2/yr"; num 89278015958637 10000000000; num 113913137217387 10000000000; num 12977036947794313 1000000000000; num 13249965495996208 1000000000000; num 12804971273950547 1000000000000; num 11696178793380997 1000000000000; num 10082823975525995 1000000000000; num 8287719401795095 1000000000000; num 7073575602856594 1000000000000; num 6438468831965523 1000000000000];
    [txt "IMAGE"; txt "SSP3-Ref-SPA0-V17"; txt "CHN"; txt "Emissions|CO2"; txt "Mt CO2/yr"; num 8972861491701131 1000000000000; num 11477784750392393 1000000000000; num 12832123048041556 1000000000000; num 13474244467370765 1000000000000; num 1382596606571003 100000000000; num 13086201742726113 1000000000000; num 12288749187315076 1000000000000; num 11305341309621508 1000000000000; num 10261379720984936 1000000000000; num 9777687663649296 1000000000000];
    [txt "IMAGE"; txt "SSP4-Ref-SPA0-V17"; txt "CHN"; txt "Emissions|CO2"; txt "Mt CO2/yr"; num 8837275391428388 1000000000000; num 10336464926069886 1000000000000; num 12230140707492039 1000000000000; num 1154052181094497 100000000000; num 10599717448880278 1000000000000; num 10163772624621895 1000000000000; num 9124855388199323 1000000000000; num 6959351685202981 1000000000000; num 55151178390430405 10000000000000; num 50990353194739655 10000000000000];
    [txt "IMAGE"; txt "SSP5-Ref-SPA0-V17"; txt "CHN"; txt "Emissions|CO2"; txt "Mt CO2/yr"; num 8987194255374308 1000000000000; num 11823881918392606 1000000000000; num 14822559083378756 1000000000000; num 16614026531458283 1000000000000; num 15944405112126575 1000000000000; num 14371118653650215 1000000000000; num 12601878581874791 1000000000000; num 10561170004215315 1000000000000; num 8962884685059598 1000000000000; num 8069556315837763 1000000000000];
    [txt "IMAGE"; txt "SSP1-Ref-SPA0-V17"; txt "EAF"; txt "Emissions|CO2"; txt "Mt CO2/yr"; num 14119665528627357 100000000000000; num 22567423886125476 100000000000000; num 35540099337947714 100000000000000; num 4086584371302497 10000000000000; num 5448296509284362 10000000000000; num 6857169088351243 10000000000000; num 8658987529270254 10000000000000; num 9938312684008952 10000000000000; num 10623161825510012 10000000000000; num 8047016856607198 10000000000000];
    [txt "IMAGE"; txt "SSP2-Ref-SPA0-V17"; txt "EAF"; txt "Emissions|CO2"; txt "Mt CO2/yr"; num 13981450781503787 100000000000000; num 2835259959160746 10000000000000; num 583739196830411 1000000000000; num 5711496887726258 10000000000000; num 5594083099873787 10000000000000; num 6534780935245764 10000000000000; num 9404439392944793 10000000000000; num 15256963298913038 10000000000000; num 2298461771856086 1000000000000; num 29354419354882125 10000000000000];
    [txt "IMAGE"; txt "SSP3-Ref-SPA0-V17"; txt "EAF"; txt "Emissions|CO2"; txt "Mt CO2/yr"; num 1411591555405833 10000000000000; num 37290586347791094 100000000000000; num 6331929830490994 10000000000000; num 6367118886890678 10000000000000; num 6202258199619831 10000000000000; num 5784819590776543 10000000000000; num 782114669870906 1000000000000; num 11179751486205143 10000000000000; num 16640920716844842 10000000000000; num 19988388877142647 10000000000000];
    [txt "IMAGE"; txt "SSP4-Ref-SPA0-V17"; txt "EAF"; txt "Emissions|CO2"; txt "Mt CO2/yr"; num 13974051540373557 100000000000000; num 35337416079872645 100000000000000; num 5868661245243801 10000000000000; num 5661157430527671 10000000000000; num 4345751673775602 10000000000000; num 2882431869768875 10000000000000; num 3169926936119881 10000000000000; num 37891552992132836 100000000000000; num 5849440562462106 10000000000000; num 6097431793767203 10000000000000];
    [txt "IMAGE"; txt "SSP5-Ref-SPA0-V17"; txt "EAF"; txt "Emissions|CO2"; txt "Mt CO2/yr"; num 13994306438446688 100000000000000; num 295095723496879 1000000000000; num 708380574608669 1000000000000; num 9302590027701159 10000000000000; num 14947712505427892 10000000000000; num 232253769959265 100000000000; num 35190734866480407 10000000000000; num 4571721029061444 1000000000000; num 5287721842928619 1000000000000; num 5220680745917315 1000000000000];
    [txt "IMAGE"; txt "SSP1-Ref-SPA0-V17"; txt "INDIA"; txt "Emissions|CO2"; txt "Mt CO2/yr"; num 17425379029904436 10000000000000; num 2756290893805259 1000000000000; num 3855687093449475 1000000000000; num 5034406738738923 1000000000000; num 5796384115110277 1000000000000; num 6599479452097348 1000000000000; num 70673715419836335 10000000000000; num 5930103760304725 1000000000000; num 4744941488061567 1000000000000; num 4224832519915326 1000000000000];
    [txt "IMAGE"; txt "SSP2-Ref-SPA0-V17"; txt "INDIA"; txt "Emissions|CO2"; txt "Mt CO2/yr"; num 17473393251100208 10000000000000; num 2777194966886587 1000000000000; num 3976140584671363 1000000000000; num 5057536011201963 1000000000000; num 6654475871373182 1000000000000; num 8369324219510847 1000000000000; num 9969512696218819 1000000000000; num 1094638216245346 100000000000; num 11676111491946882 1000000000000; num 12013602377394229 1000000000000];
    [txt "IMAGE"; txt "SSP3-Ref-SPA0-V17"; txt "INDIA"; txt "Emissions|CO2"; txt "Mt CO2/yr"; num 17573607789683538 10000000000000; num 3005271077747165 1000000000000; num 4202516968155484 1000000000000; num 493131083215403 100000000000; num 592224585014776 100000000000; num 6988846151351495 1000000000000; num 8047115886148223 1000000000000; num 8994362875166627 1000000000000; num 10017795248306542 1000000000000; num 11194956381226057 1000000000000];
    [txt "IMAGE"; txt "SSP4-Ref-SPA0-V17"; txt "INDIA"; txt "Emissions|CO2"; txt "Mt CO2/yr"; num 1755491414547611 1000000000000; num 2737716980229352 1000000000000; num 3782394043312604 1000000000000; num 4601501505952172 1000000000000; num 5660423828639584 1000000000000; num 6741925781862902 1000000000000; num 7568589925818262 1000000000000; num 78386583665980215 10000000000000; num 8006334961665349 1000000000000; num 7547840495477833 1000000000000];
    [txt "IMAGE"; txt "SSP5-Ref-SPA0-V17"; txt "INDIA"; txt "Emissions|CO2"; txt "Mt CO2/yr"; num 17631522727026043 10000000000000; num 29096942548218094 10000000000000; num 4932220337362446 1000000000000; num 7851719076234625 1000000000000; num 11583649008214517 1000000000000; num 14931462485081363 1000000000000; num 17434398439084944 1000000000000; num 1797011312012323 100000000000; num 17206907553647598 1000000000000; num 15763528158985131 1000000000000];
    [txt "IMAGE"; txt "SSP1-Ref-SPA0-V17"; txt "INDO"; txt "Emissions|CO2"; txt "Mt CO2/yr"; num 132619074515637 100000000000; num 14912758993868727 10000000000000; num 16633353069545976 10000000000000; num 15770029196583378 10000000000000; num 16009216310049133 10000000000000; num 170164384984545 100000000000; num 16282613933771904 10000000000000; num 13778947958609401 10000000000000; num 1234243215037334 1000000000000; num 9709406739163923 10000000000000];
    [txt "IMAGE"; txt "SSP2-Ref-SPA0-V17"; txt "INDO"; txt "Emissions|CO2"; txt "Mt CO2/yr"; num 13292062786039098 10000000000000; num 1635057281642782 1000000000000; num 17621934205703556 10000000000000; num 18944008790784683 10000000000000; num 18473649802297912 10000000000000; num 1967133992691851 1000000000000; num 21017752280556538 10000000000000; num 20965102134067374 10000000000000; num 2140793538606076 1000000000000; num 21909839479530865 10000000000000];
    [txt "IMAGE"; txt "SSP3-Ref-SPA0-V17"; txt "INDO"; txt "Emissions|CO2"; txt "Mt CO2/yr"; num 13262253215723888 10000000000000; num 18222405702340175 10000000000000; num 19874682822444809 10000000000000; num 19287675986453946 10000000000000; num 1929880981620756 1000000000000; num 19688249920409633 10000000000000; num 20023847047718787 10000000000000; num 2112685709827479 1000000000000; num 2224851827187936 1000000000000; num 22827573651163775 10000000000000];
    [txt "IMAGE"; txt "SSP4-Ref-SPA0-V17"; txt "INDO"; txt "Emissions|CO2"; txt "Mt CO2/yr"; num 13319749655345001 10000000000000; num 16401348674993635 10000000000000; num 17147269390393478 10000000000000; num 17856784160965792 10000000000000; num 18124307150898965 10000000000000; num 19281203818484607 10000000000000; num 20429382529526488 10000000000000; num 19527643027491386 10000000000000; num 18443927512256148 10000000000000; num 1714268941399332 1000000000000];
    [txt "IMAGE"; txt "SSP5-Ref-SPA0-V17"; txt "INDO"; txt "Emissions|CO2"; txt "Mt CO2/yr"; num 13350288799227985 10000000000000; num 17678715618469134 10000000000000; num 2172386759637594 1000000000000; num 2844153707127049 1000000000000; num 32097457074858053 10000000000000; num 34467147830281815 10000000000000; num 369085203077173 100000000000; num 35002325849536196 10000000000000; num 32767612918017935 10000000000000; num 3090341817500992 1000000000000];
    [txt "IMAGE"; txt "SSP1-Ref-SPA0-V17"; txt "JAP"; txt "Emissions|CO2"; txt "Mt CO2/yr"; num 11764954529878135 10000000000000; num 10504347636859889 10000000000000; num 9273212942330649 10000000000000; num 9236256460393696 10000000000000; num 9502731527556592 10000000000000; num 9413055522502867 10000000000000; num 8505082754272538 10000000000000; num 7237255656582412 10000000000000; num 6199182129469812 10000000000000; num 5395162404868724 10000000000000];
    [txt "IMAGE"; txt "SSP2-Ref-SPA0-V17"; txt "JAP"; txt "Emissions|CO2"; txt "Mt CO2/yr"; num 11544339092032558 10000000000000; num 10646236268057683 10000000000000; num 9765935262932082 10000000000000; num 9542049052788032 10000000000000; num 9786333110427427 10000000000000; num 10043935242612304 10000000000000; num 9647715251528107 10000000000000; num 8912731425777696 10000000000000; num 8609326172657666 10000000000000; num 8391214447784322 10000000000000];
    [txt "IMAGE"; txt "SSP3-Ref-SPA0-V17"; txt "JAP"; txt "Emissions|CO2"; txt "Mt CO2/yr"; num 1155092427676623 1000000000000; num 10942268576027304 10000000000000; num 10576107687322142 10000000000000; num 10549411113426486 10000000000000; num 10456309917128958 10000000000000; num 9921699219651972 10000000000000; num 9029405009772678 10000000000000; num 8056777700520845 10000000000000; num 7104786581049535 10000000000000; num 633677724260081 1000000000000];
    [txt "IMAGE"; txt "SSP4-Ref-SPA0-V17"; txt "JAP"; txt "Emissions|CO2"; txt "Mt CO2/yr"; num 11782986858167535 10000000000000; num 1072396606542803 1000000000000; num 9639772746644571 10000000000000; num 8788908132716309 10000000000000; num 8586171163703738 10000000000000; num 8719810130594142 10000000000000; num 7954587606517415 10000000000000; num 6612415060008681 10000000000000; num 5845007731651156 10000000000000; num 5528090261326121 10000000000000];
    [txt "IMAGE"; txt "SSP5-Ref-SPA0-V17"; txt "JAP"; txt "Emissions|CO2"; txt "Mt CO2/yr"; num 11644405925537749 10000000000000; num 11139168397008746 10000000000000; num 11864409282491342 10000000000000; num 1397045878219452 1000000000000; num 15908012595033422 10000000000000; num 1731776580967981 1000000000000; num 17655703838681886 10000000000000; num 17128892416921756 10000000000000; num 17087451071703144 10000000000000; num 1788903645995961 1000000000000];
    [txt "IMAGE"; txt "SSP1-Ref-SPA0-V17"; txt "KOR"; txt "Emissions|CO2"; txt "Mt CO2/yr"; num 694234568341107 1000000000000; num 735222783473414 1000000000000; num 732374872910004 1000000000000; num 6453157094906312 10000000000000; num 5551171977229912 10000000000000; num 4575288722136313 10000000000000; num 39753193668164704 100000000000000; num 31336798861491377 100000000000000; num 24727799481414647 100000000000000; num 20552686057369726 100000000000000];
    [txt "IMAGE"; txt "SSP2-Ref-SPA0-V17"; txt "KOR"; txt "Emissions|CO2"; txt "Mt CO2/yr"; num 6963106079734572 10000000000000; num 7845717214661814 10000000000000; num 8610873159555592 10000000000000; num 839708460566246 1000000000000; num 7952505188711236 10000000000000; num 7391790975606876 10000000000000; num 6673989614457638 10000000000000; num 5779128469356756 10000000000000; num 50866126510158045 100000000000000; num 4721137695741694 10000000000000];
    [txt "IMAGE"; txt "SSP3-Ref-SPA0-V17"; txt "KOR"; txt "Emissions|CO2"; txt "Mt CO2/yr"; num 6980306447981578 10000000000000; num 790759948802356 1000000000000; num 8457133433792918 10000000000000; num 8284041545349448 10000000000000; num 779823003204031 1000000000000; num 7013629608791899 10000000000000; num 6159974264069112 10000000000000; num 5241063487211486 10000000000000; num 4356432597238487 10000000000000; num 36835993197928804 100000000000000];
    [txt "IMAGE"; txt "SSP4-Ref-SPA0-V17"; txt "KOR"; txt "Emissions|CO2"; txt "Mt CO2/yr"; num 697329940859292 1000000000000; num 7433649699569015 10000000000000; num 7966640117097937 10000000000000; num 73140208950334 100000000000; num 650509948789606 1000000000000; num 5760183055129772 10000000000000; num 50286758936049387 100000000000000; num 4202770080948476 10000000000000; num 37425557457829404 100000000000000; num 36003400933041917 100000000000000];
    [txt "IMAGE"; txt "SSP5-Ref-SPA0-V17"; txt "KOR"; txt "Emissions|CO2"; txt "Mt CO2/yr"; num 7010904897691391 10000000000000; num 8115008189621192 10000000000000; num 906542994263728 1000000000000; num 9272791087675663 10000000000000; num 9245709025905622 10000000000000; num 9114592794611151 10000000000000; num 8939575145262559 10000000000000; num 8533730266075272 10000000000000; num 7975337372551202 10000000000000; num 7937739156808852 10000000000000];
    [txt "IMAGE"; txt "SSP1-Ref-SPA0-V17"; txt "ME"; txt "Emissions|CO2"; txt "Mt CO2/yr"; num 15476105042910824 10000000000000; num 19891369020362993 10000000000000; num 22376097414143564 10000000000000; num 24532956341748495 10000000000000; num 25842084352935217 10000000000000; num 26895734051924233 10000000000000; num 2656272623939396 1000000000000; num 2327181681526666 1000000000000; num 20675582277270223 10000000000000; num 18202613221869626 10000000000000];
    [txt "IMAGE"; txt "SSP2-Ref-SPA0-V17"; txt "ME"; txt "Emissions|CO2"; txt "Mt CO2/yr"; num 15511386414984345 10000000000000; num 20062675579623358 10000000000000; num 22172087607809913 10000000000000; num 25861136070059347 10000000000000; num 29076814374388136 10000000000000; num 32679041344116654 10000000000000; num 3532864441239138 1000000000000; num 375679720086236 100000000000; num 40756468102663466 10000000000000; num 43456051436242215 10000000000000];
    [txt "IMAGE"; txt "SSP3-Ref-SPA0-V17"; txt "ME"; txt "Emissions|CO2"; txt "Mt CO2/yr"; num 15592723796990435 10000000000000; num 2102668619982818 1000000000000; num 241244264751749 100000000000; num 2972732768011134 1000000000000; num 3394455607404941 1000000000000; num 3681205098804707 1000000000000; num 3911735799509258 1000000000000; num 43836356205157 10000000000; num 4980678792770497 1000000000000; num 5657985799668008 1000000000000];
    [txt "IMAGE"; txt "SSP4-Ref-SPA0-V17"; txt "ME"; txt "Emissions|CO2"; txt "Mt CO2/yr"; num 15565007834260052 10000000000000; num 21013990276975464 10000000000000; num 26734131268706415 10000000000000; num 3241209350880593 1000000000000; num 3668258077319155 1000000000000; num 39361666670245 10000000000; num 40158835452869553 10000000000000; num 3966838297886663 1000000000000; num 431405354856927 100000000000; num 4552760620531075 1000000000000];
    [txt "IMAGE"; txt "SSP5-Ref-SPA0-V17"; txt "ME"; txt "Emissions|CO2"; txt "Mt CO2/yr"; num 15749278871060658 10000000000000; num 21754198610376093 10000000000000; num 28595036216792255 10000000000000; num 3735413086277083 1000000000000; num 4420283935948719 1000000000000; num 5007416545051574 1000000000000; num 5458959025561373 1000000000000; num 5772319824743506 1000000000000; num 5912565796435943 1000000000000; num 58940458175931135 10000000000000];
    [txt "IMAGE"; txt "SSP1-Ref-SPA0-V17"; txt "MEX"; txt "Emissions|CO2"; txt "Mt CO2/yr"; num 5380026550782062 10000000000000; num 5211887817856621 10000000000000; num 5252463074207965 10000000000000; num 5720759227001189 10000000000000; num 564829086355059 1000000000000; num 5251421865304876 10000000000000; num 5026002655486206 10000000000000; num 36988599399114554 100000000000000; num 266731956506182 1000000000000; num 21891635388139235 100000000000000];
    [txt "IMAGE"; txt "SSP2-Ref-SPA0-V17"; txt "MEX"; txt "Emissions|CO2"; txt "Mt CO2/yr"; num 5383946330242054 10000000000000; num 5728777822379521 10000000000000; num 6214292247065587 10000000000000; num 7264418284758709 10000000000000; num 7637981771527695 10000000000000; num 8241082866146324 10000000000000; num 9028576406663879 10000000000000; num 9319416097852428 10000000000000; num 9577535197810789 10000000000000; num 1035594991142322 1000000000000];
    [txt "IMAGE"; txt "SSP3-Ref-SPA0-V17"; txt "MEX"; txt "Emissions|CO2"; txt "Mt CO2/yr"; num 5390934906495944 10000000000000; num 714308807437984 1000000000000; num 7896830445053831 10000000000000; num 9583262126522247 10000000000000; num 9647058411521537 10000000000000; num 10401229350717701 10000000000000; num 11485554708889192 10000000000000; num 12622137452319341 10000000000000; num 13617614849056974 10000000000000; num 15195557150632717 10000000000000];
    [txt "IMAGE"; txt "SSP4-Ref-SPA0-V17"; txt "MEX"; txt "Emissions|CO2"; txt "Mt CO2/yr"; num 538042994230228 1000000000000; num 5562160899350051 10000000000000; num 6099576874333803 10000000000000; num 6383332876149964 10000000000000; num 6856751150118783 10000000000000; num 6337459259609335 10000000000000; num 6195196330315804 10000000000000; num 5537183634943484 10000000000000; num 5220420583563777 10000000000000; num 4695327911803801 10000000000000];
    [txt "IMAGE"; txt "SSP5-Ref-SPA0-V17"; txt "MEX"; txt "Emissions|CO2"; txt "Mt CO2/yr"; num 5453880768318073 10000000000000; num 6343798828701708 10000000000000; num 7588936412229616 10000000000000; num 9789152934646434 10000000000000; num 11735885722909347 10000000000000; num 12587772523116998 10000000000000; num 12741123963560628 10000000000000; num 11858329875752509 10000000000000; num 11058428549182395 10000000000000; num 10562035421695862 10000000000000];
    [txt "IMAGE"; txt "SSP1-Ref-SPA0-V17"; txt "NAF"; txt "Emissions|CO2"; txt "Mt CO2/yr"; num 4304197311792658 10000000000000; num 565558044485008 1000000000000; num 6987511546452286 10000000000000; num 7870012462059857 10000000000000; num 7951438243317259 10000000000000; num 8231226909114179 10000000000000; num 8611122691619418 10000000000000; num 8145324097420171 10000000000000; num 6994896240870274 10000000000000; num 5925769399545868 10000000000000];
    [txt "IMAGE"; txt "SSP2-Ref-SPA0-V17"; txt "NAF"; txt "Emissions|CO2"; txt "Mt CO2/yr"; num 43547569278861215 100000000000000; num 5832680512004853 10000000000000; num 714994517073463 1000000000000; num 786485677154832 1000000000000; num 8374519857532154 10000000000000; num 1011374491465641 1000000000000; num 1194148223985512 1000000000000; num 13078002320524847 10000000000000; num 14373014425948563 10000000000000; num 15850949199845943 10000000000000];
    [txt "IMAGE"; txt "SSP3-Ref-SPA0-V17"; txt "NAF"; txt "Emissions|CO2"; txt "Mt CO2/yr"; num 44008616133558075 100000000000000; num 6308624878503199 10000000000000; num 8278684438822269 10000000000000; num 9580134583390452 10000000000000; num 10692924500483803 10000000000000; num 12640983277516368 10000000000000; num 15071679587144893 10000000000000; num 17966780804042198 10000000000000; num 205518345152147 100000000000; num 23115144248520646 10000000000000];
    [txt "IMAGE"; txt "SSP4-Ref-SPA0-V17"; txt "NAF"; txt "Emissions|CO2"; txt "Mt CO2/yr"; num 4402460352979976 10000000000000; num 6361333211841323 10000000000000; num 8126851451341018 10000000000000; num 9322254385206202 10000000000000; num 10181156617136497 10000000000000; num 11859312338317702 10000000000000; num 13032125347050624 10000000000000; num 13214677633851074 10000000000000; num 13304242860096194 10000000000000; num 1325982950966898 1000000000000];
    [txt "IMAGE"; txt "SSP5-Ref-SPA0-V17"; txt "NAF"; txt "Emissions|CO2"; txt "Mt CO2/yr"; num 4407923762404301 10000000000000; num 6554643351832856 10000000000000; num 9328388621860405 10000000000000; num 12878942872264563 10000000000000; num 16002462159657894 10000000000000; num 19686220094563093 10000000000000; num 2267320841677474 1000000000000; num 23586130983589505 10000000000000; num 2284066121626913 1000000000000; num 2184318420608731 1000000000000];
    [txt "IMAGE"; txt "SSP1-Ref-SPA0-V17"; txt "OCE"; txt "Emissions|CO2"; txt "Mt CO2/yr"; num 23780693819300552 100000000000000; num 3079740397415393 10000000000000; num 24652313234662992 100000000000000; num 3482449620881365 10000000000000; num 1969342155635574 10000000000000; num 24392651623718163 100000000000000; num 3000696360542973 10000000000000; num 15336442058685887 100000000000000; num 24279769136728734 100000000000000; num 15538956071358922 100000000000000];
    [txt "IMAGE"; txt "SSP2-Ref-SPA0-V17"; txt "OCE"; txt "Emissions|CO2"; txt "Mt CO2/yr"; num 2360462544973702 10000000000000; num 3883960698798725 10000000000000; num 36753163658940156 100000000000000; num 4894570872433893 10000000000000; num 5214110107895884 10000000000000; num 45380169681859843 100000000000000; num 5268548940501745 10000000000000; num 4762655131455104 10000000000000; num 50099682621742016 100000000000000; num 5321143697586605 10000000000000];
    [txt "IMAGE"; txt "SSP3-Ref-SPA0-V17"; txt "OCE"; txt "Emissions|CO2"; txt "Mt CO2/yr"; num 23392772168060858 100000000000000; num 4364433288970985 10000000000000; num 4795409851510165 10000000000000; num 560536183726088 1000000000000; num 591276743624716 1000000000000; num 4936202443889501 10000000000000; num 5201214447494322 10000000000000; num 39324339806634833 100000000000000; num 42533333337199997 100000000000000; num 3560508957232862 10000000000000];
    [txt "IMAGE"; txt "SSP4-Ref-SPA0-V17"; txt "OCE"; txt "Emissions|CO2"; txt "Mt CO2/yr"; num 2362417679047773 10000000000000; num 3032254613516219 10000000000000; num 2855101954401807 10000000000000; num 45225546523073 100000000000; num 388984568313357 1000000000000; num 33788437401346414 100000000000000; num 387609931981038 1000000000000; num 38696277113299743 100000000000000; num 3965335007074352 10000000000000; num 40248998772783347 100000000000000];
    [txt "IMAGE"; txt "SSP5-Ref-SPA0-V17"; txt "OCE"; txt "Emissions|CO2"; txt "Mt CO2/yr"; num 24028740440009952 100000000000000; num 44186779789173227 100000000000000; num 46063269301469467 100000000000000; num 6858247223523867 10000000000000; num 886224146605631 1000000000000; num 9131231995459018 10000000000000; num 10747506002767411 10000000000000; num 10361666769333897 10000000000000; num 12164580689582433 10000000000000; num 12698994446955235 10000000000000];
    [txt "IMAGE"; txt "SSP1-Ref-SPA0-V17"; txt "RCAM"; txt "Emissions|CO2"; txt "Mt CO2/yr"; num 30941752118698304 100000000000000; num 2728574931074875 10000000000000; num 3072730560582073 10000000000000; num 3347481028543249 10000000000000; num 36506110131085666 100000000000000; num 4341333389676893 10000000000000; num 3962163264316902 10000000000000; num 31785360720663016 100000000000000; num 25910497540604194 100000000000000; num 17223331071512047 100000000000000];
    [txt "IMAGE"; txt "SSP2-Ref-SPA0-V17"; txt "RCAM"; txt "Emissions|CO2"; txt "Mt CO2/yr"; num 30876062523151967 100000000000000; num 3023335800445747 10000000000000; num 33974551394690155 100000000000000; num 3847847646427278 10000000000000; num 49463442997660735 100000000000000; num 6620973562206724 10000000000000; num 8062937673665937 10000000000000; num 9091881460380571 10000000000000; num 9968955892833352 10000000000000; num 1070576141454747 1000000000000];
    [txt "IMAGE"; txt "SSP3-Ref-SPA0-V17"; txt "RCAM"; txt "Emissions|CO2"; txt "Mt CO2/yr"; num 3102630208615391 10000000000000; num 32956281537826754 100000000000000; num 43518235274138493 100000000000000; num 5155124308736877 10000000000000; num 6060079753155082 10000000000000; num 7507723796255436 10000000000000; num 9262909394152629 10000000000000; num 11150227255245427 10000000000000; num 13351356304110896 10000000000000; num 15905582175111326 10000000000000];
    [txt "IMAGE"; txt "SSP4-Ref-SPA0-V17"; txt "RCAM"; txt "Emissions|CO2"; txt "Mt CO2/yr"; num 3099979909542884 10000000000000; num 3073792750320126 10000000000000; num 3818525390972139 10000000000000; num 40483337914650355 100000000000000; num 441291776061439 1000000000000; num 5299587148512379 10000000000000; num 5732078247591411 10000000000000; num 6380891266449221 10000000000000; num 6951009929017326 10000000000000; num 7321171163588738 10000000000000];
    [txt "IMAGE"; txt "SSP5-Ref-SPA0-V17"; txt "RCAM"; txt "Emissions|CO2"; txt "Mt CO2/yr"; num 3125797806070296 10000000000000; num 31852594505662614 100000000000000; num 45105060581493035 100000000000000; num 674619389913217 1000000000000; num 8965285899659427 10000000000000; num 10825825501472448 10000000000000; num 10981740520204069 10000000000000; num 10496709493955548 10000000000000; num 9713561503975499 10000000000000; num 9668398438378945 10000000000000];
    [txt "IMAGE"; txt "SSP1-Ref-SPA0-V17"; txt "RSAF"; txt "Emissions|CO2"; txt "Mt CO2/yr"; num 2928508021303012 10000000000000; num 4905684560585945 10000000000000; num 4846511892123535 10000000000000; num 7099455211013243 10000000000000; num 4578170649626809 10000000000000; num 5528974253839223 10000000000000; num 7316210175225657 10000000000000; num 739708206244004 1000000000000; num 6346625926276836 10000000000000; num 6255670929523775 10000000000000];
    [txt "IMAGE"; txt "SSP2-Ref-SPA0-V17"; txt "RSAF"; txt "Emissions|CO2"; txt "Mt CO2/yr"; num 2931827748883066 10000000000000; num 7865278626203307 10000000000000; num 7876436513981014 10000000000000; num 14362590028161158 10000000000000; num 11058586325061315 10000000000000; num 909927342815468 1000000000000; num 12238728638807925 10000000000000; num 1723569102126089 1000000000000; num 21538242596359064 10000000000000; num 2649995605709659 1000000000000];
    [txt "IMAGE"; txt "SSP3-Ref-SPA0-V17"; txt "RSAF"; txt "Emissions|CO2"; txt "Mt CO2/yr"; num 2930362727113727 10000000000000; num 1019898417247666 1000000000000; num 1018210551036575 1000000000000; num 13615264995541136 10000000000000; num 15869033001117118 10000000000000; num 8416444601188308 10000000000000; num 11007021587100899 10000000000000; num 13460857239993245 10000000000000; num 16572027487671912 10000000000000; num 2255430359091758 1000000000000];
    [txt "IMAGE"; txt "SSP4-Ref-SPA0-V17"; txt "RSAF"; txt "Emissions|CO2"; txt "Mt CO2/yr"; num 29316498314025813 100000000000000; num 8602553559131659 10000000000000; num 7317232920993979 10000000000000; num 18212615765002047 10000000000000; num 8920783590491969 10000000000000; num 5063523661755893 10000000000000; num 4870305277949265 10000000000000; num 8648489838432711 10000000000000; num 8784328715805085 10000000000000; num 1075517995296342 1000000000000];
    [txt "IMAGE"; txt "SSP5-Ref-SPA0-V17"; txt "RSAF"; txt "Emissions|CO2"; txt "Mt CO2/yr"; num 2942980601260382 10000000000000; num 9779747925693755 10000000000000; num 9796218160884055 10000000000000; num 17438813478147847 10000000000000; num 19288412273888907 10000000000000; num 19391570843234224 10000000000000; num 26259129641059067 10000000000000; num 31172541303289595 10000000000000; num 366885203076973 100000000000; num 36966966759545526 10000000000000];
    [txt "IMAGE"; txt "SSP1-Ref-SPA0-V17"; txt "RSAM"; txt "Emissions|CO2"; txt "Mt CO2/yr"; num 11198226929728958 10000000000000; num 12918469646356698 10000000000000; num 14330073650391275 10000000000000; num 1299726582963209 1000000000000; num 14313225200682712 10000000000000; num 13222604473044503 10000000000000; num 9435788676801809 10000000000000; num 6758550212202955 10000000000000; num 5170905813051462 10000000000000; num 41406603753357336 100000000000000];
    [txt "IMAGE"; txt "SSP2-Ref-SPA0-V17"; txt "RSAM"; txt "Emissions|CO2"; txt "Mt CO2/yr"; num 11199411927287658 10000000000000; num 1383484314090615 1000000000000; num 1633860422918715 1000000000000; num 1711800252434264 1000000000000; num 21657156374039146 10000000000000; num 19622552492018242 10000000000000; num 20382848716045694 10000000000000; num 22109919435603742 10000000000000; num 21763528647811836 10000000000000; num 22174900718161734 10000000000000];
    [txt "IMAGE"; txt "SSP3-Ref-SPA0-V17"; txt "RSAM"; txt "Emissions|CO2"; txt "Mt CO2/yr"; num 11244449667363367 10000000000000; num 15409548239519356 10000000000000; num 19175984091912542 10000000000000; num 2030601521994496 1000000000000; num 25655344850965116 10000000000000; num 2822533935803469 1000000000000; num 30009715171998987 10000000000000; num 3272741923311845 1000000000000; num 34571881920460605 10000000000000; num 36148611250031026 10000000000000];
    [txt "IMAGE"; txt "SSP4-Ref-SPA0-V17"; txt "RSAM"; txt "Emissions|CO2"; txt "Mt CO2/yr"; num 1124989797058652 1000000000000; num 14127699789695794 10000000000000; num 16306696575375656 10000000000000; num 16715698650608151 10000000000000; num 2253958008017405 1000000000000; num 17265640463809186 10000000000000; num 14530255433449838 10000000000000; num 16907733155833942 10000000000000; num 12722988689307676 10000000000000; num 12713070069515109 10000000000000];
    [txt "IMAGE"; txt "SSP5-Ref-SPA0-V17"; txt "RSAM"; txt "Emissions|CO2"; txt "Mt CO2/yr"; num 11349892070530507 10000000000000; num 15323059083424255 10000000000000; num 20417532553939473 10000000000000; num 24779655153619883 10000000000000; num 32863974815813153 10000000000000; num 29455677899813204 10000000000000; num 2942542521426358 1000000000000; num 2847092142999712 1000000000000; num 25181162315114716 10000000000000; num 22685317995226364 10000000000000];
    [txt "IMAGE"; txt "SSP1-Ref-SPA0-V17"; txt "RSAS"; txt "Emissions|CO2"; txt "Mt CO2/yr"; num 24151274111082287 100000000000000; num 41985974124910655 100000000000000; num 6613878123566756 10000000000000; num 9704206849026732 10000000000000; num 13213717550843173 10000000000000; num 16936022035231044 10000000000000; num 19106929729927097 10000000000000; num 19735522259281117 10000000000000; num 20146829428914862 10000000000000; num 2094969380887066 1000000000000];
    [txt "IMAGE"; txt "SSP2-Ref-SPA0-V17"; txt "RSAS"; txt "Emissions|CO2"; txt "Mt CO2/yr"; num 24161848451903563 100000000000000; num 41704411319709277 100000000000000; num 6685191142372067 10000000000000; num 9449223125045218 10000000000000; num 13526402487395037 10000000000000; num 1935712199069203 1000000000000; num 25486757407915934 10000000000000; num 32580578005891557 10000000000000; num 405970406124146 100000000000; num 4951063477012596 1000000000000];
    [txt "IMAGE"; txt "SSP3-Ref-SPA0-V17"; txt "RSAS"; txt "Emissions|CO2"; txt "Mt CO2/yr"; num 24266724652271168 100000000000000; num 4756810710067854 10000000000000; num 7681116689744507 10000000000000; num 10200751038524996 10000000000000; num 13911171977989911 10000000000000; num 18619377646549442 10000000000000; num 23049227500467778 10000000000000; num 28661868288738438 10000000000000; num 3528380920730918 1000000000000; num 4403732462965443 1000000000000];
    [txt "IMAGE"; txt "SSP4-Ref-SPA0-V17"; txt "RSAS"; txt "Emissions|CO2"; txt "Mt CO2/yr"; num 24266193137785444 100000000000000; num 4521579463098227 10000000000000; num 61791619370038 100000000000; num 750942520209869 1000000000000; num 8506560364542854 10000000000000; num 10289609070759636 10000000000000; num 11609110006751987 10000000000000; num 12772228191265278 10000000000000; num 138823415133063 100000000000; num 1483850921765755 1000000000000];
    [txt "IMAGE"; txt "SSP5-Ref-SPA0-V17"; txt "RSAS"; txt "Emissions|CO2"; txt "Mt CO2/yr"; num 24657357027388062 100000000000000; num 4487574565023847 10000000000000; num 8538262126427247 10000000000000; num 15408920492937268 10000000000000; num 25243654990901646 10000000000000; num 37776674808121743 10000000000000; num 50843391117903375 10000000000000; num 6177893351798605 1000000000000; num 67344201259377405 10000000000000; num 68799575201567 10000000000];
    [txt "IMAGE"; txt "SSP1-Ref-SPA0-V17"; txt "RUS"; txt "Emissions|CO2"; txt "Mt CO2/yr"; num 16897271831777 10000000000; num 18501237082573857 10000000000000; num 19672774456541038 10000000000000; num 18786004640379692 10000000000000; num 1636800761053748 1000000000000; num 14035743307753842 10000000000000; num 12684808045586758 10000000000000; num 8777376506331797 10000000000000; num 7715553793019122 10000000000000; num 4744710642928082 10000000000000];
    [txt "IMAGE"; txt "SSP2-Ref-SPA0-V17"; txt "RUS"; txt "Emissions|CO2"; txt "Mt CO2/yr"; num 16922935589103552 10000000000000; num 18781987509845474 10000000000000; num 20846246543236257 10000000000000; num 2118768025908761 1000000000000; num 2069212524602173 1000000000000; num 2078530029485832 1000000000000; num 21359056194975587 10000000000000; num 19789915773283458 10000000000000; num 19469212241353262 10000000000000; num 18842170615319694 10000000000000];
    [txt "IMAGE"; txt "SSP3-Ref-SPA0-V17"; txt "RUS"; txt "Emissions|CO2"; txt "Mt CO2/yr"; num 16945203248610785 10000000000000; num 1992008423032654 1000000000000; num 2387723531304305 1000000000000; num 25174175417327624 10000000000000; num 2458609212463093 1000000000000; num 24250188397386855 10000000000000; num 2576789164459514 1000000000000; num 24981017458325687 10000000000000; num 25826573081774955 10000000000000; num 2752838623297133 1000000000000];
    [txt "IMAGE"; txt "SSP4-Ref-SPA0-V17"; txt "RUS"; txt "Emissions|CO2"; txt "Mt CO2/yr"; num 1691126800690848 1000000000000; num 17833896587721524 10000000000000; num 20279164227103977 10000000000000; num 20014011232288206 10000000000000; num 18333660076536487 10000000000000; num 16520104676794797 10000000000000; num 1681952748769441 1000000000000; num 1453915466440768 1000000000000; num 13828730164831375 10000000000000; num 1231605448516912 1000000000000];
    [txt "IMAGE"; txt "SSP5-Ref-SPA0-V17"; txt "RUS"; txt "Emissions|CO2"; txt "Mt CO2/yr"; num 17102697145109478 10000000000000; num 2006391540709743 1000000000000; num 24457919924098446 10000000000000; num 26465316978317396 10000000000000; num 2623873962640878 1000000000000; num 26339123130649673 10000000000000; num 26635961102681867 10000000000000; num 2375385009981569 1000000000000; num 22609840700297627 10000000000000; num 21582502646818816 10000000000000];
    [txt "IMAGE"; txt "SSP1-Ref-SPA0-V17"; txt "SAF"; txt "Emissions|CO2"; txt "Mt CO2/yr"; num 344702613861903 1000000000000; num 4085686111821621 10000000000000; num 5062251383923746 10000000000000; num 5270855153880862 10000000000000; num 5680711568713043 10000000000000; num 5231192983467099 10000000000000; num 4456705042926314 10000000000000; num 34584620923961114 100000000000000; num 2830273514051243 10000000000000; num 19066820527856393 100000000000000];
    [txt "IMAGE"; txt "SSP2-Ref-SPA0-V17"; txt "SAF"; txt "Emissions|CO2"; txt "Mt CO2/yr"; num 34315699771186013 100000000000000; num 5071513163709744 10000000000000; num 5735095571403533 10000000000000; num 5956822713757675 10000000000000; num 6948355154033361 10000000000000; num 7646609650353349 10000000000000; num 7773487193496394 10000000000000; num 7740993195283804 10000000000000; num 7778052063695377 10000000000000; num 7862649587710229 10000000000000];
    [txt "IMAGE"; txt "SSP3-Ref-SPA0-V17"; txt "SAF"; txt "Emissions|CO2"; txt "Mt CO2/yr"; num 34377498121207907 100000000000000; num 5782938588986008 10000000000000; num 556043375701591 1000000000000; num 6149597422840956 10000000000000; num 7247639771166689 10000000000000; num 785875218780753 1000000000000; num 8385006918079981 10000000000000; num 8969422201336236 10000000000000; num 9524321086477826 10000000000000; num 10126449789332045 10000000000000];
    [txt "IMAGE"; txt "SSP4-Ref-SPA0-V17"; txt "SAF"; txt "Emissions|CO2"; txt "Mt CO2/yr"; num 34420433301875875 100000000000000; num 49193500777584114 100000000000000; num 5390971832765479 10000000000000; num 482723637942647 1000000000000; num 50905799870350455 100000000000000; num 5147307129374187 10000000000000; num 4593508199473581 10000000000000; num 39980782576063 100000000000; num 3475660782176321 10000000000000; num 2639570312739961 10000000000000];
    [txt "IMAGE"; txt "SSP5-Ref-SPA0-V17"; txt "SAF"; txt "Emissions|CO2"; txt "Mt CO2/yr"; num 3478848750112808 10000000000000; num 561437800140558 1000000000000; num 7009240418117672 10000000000000; num 9067153168548896 10000000000000; num 11371499533097574 10000000000000; num 12605424398932405 10000000000000; num 1301790201941261 1000000000000; num 12500729472978878 10000000000000; num 11561704509514605 10000000000000; num 10207237753206576 10000000000000];
    [txt "IMAGE"; txt "SSP1-Ref-SPA0-V17"; txt "SEAS"; txt "Emissions|CO2"; txt "Mt CO2/yr"; num 1180395314641814 1000000000000; num 13976292013803125 10000000000000; num 17693859864889782 10000000000000; num 19565527142078163 10000000000000; num 2118012492054526 1000000000000; num 23296134442221996 10000000000000; num 2322602376513229 1000000000000; num 19644529217280658 10000000000000; num 17389540406854305 10000000000000; num 14680746766471332 10000000000000];
    [txt "IMAGE"; txt "SSP2-Ref-SPA0-V17"; txt "SEAS"; txt "Emissions|CO2"; txt "Mt CO2/yr"; num 11804590963801008 10000000000000; num 1514173095840777 1000000000000; num 20705915529226104 10000000000000; num 22825895184366746 10000000000000; num 2334169250700478 1000000000000; num 2649147868079373 1000000000000; num 2907087036397093 1000000000000; num 32161015017572163 10000000000000; num 32042058718733224 10000000000000; num 34671907351784803 10000000000000];
    [txt "IMAGE"; txt "SSP3-Ref-SPA0-V17"; txt "SEAS"; txt "Emissions|CO2"; txt "Mt CO2/yr"; num 11850934551044804 10000000000000; num 15868317974261583 10000000000000; num 22659731447372474 10000000000000; num 27149795738145244 10000000000000; num 2620671224196576 1000000000000; num 2955447469344198 1000000000000; num 32707573041710393 10000000000000; num 3582595174479336 1000000000000; num 4098512003953321 1000000000000; num 4475001505940672 1000000000000];
    [txt "IMAGE"; txt "SSP4-Ref-SPA0-V17"; txt "SEAS"; txt "Emissions|CO2"; txt "Mt CO2/yr"; num 11862217204854426 10000000000000; num 15188565776934163 10000000000000; num 19807013755055846 10000000000000; num 2472849548564648 1000000000000; num 2066231119979506 1000000000000; num 2293055542200647 1000000000000; num 24296153770112387 10000000000000; num 2814159281668593 1000000000000; num 25628809409881974 10000000000000; num 25401446535512346 10000000000000];
    [txt "IMAGE"; txt "SSP5-Ref-SPA0-V17"; txt "SEAS"; txt "Emissions|CO2"; txt "Mt CO2/yr"; num 11941251730414995 10000000000000; num 16074178569983424 10000000000000; num 24933763023100037 10000000000000; num 33904066978993646 10000000000000; num 4130478068409352 1000000000000; num 46155375166956355 10000000000000; num 5133564290831271 1000000000000; num 5253079183420261 1000000000000; num 5036185018361481 1000000000000; num 4725057251406113 1000000000000];
    [txt "IMAGE"; txt "SSP1-Ref-SPA0-V17"; txt "STAN"; txt "Emissions|CO2"; txt "Mt CO2/yr"; num 46893769077749397 100000000000000; num 49505387882918455 100000000000000; num 541427342781968 1000000000000; num 5168251038067497 10000000000000; num 4758178101018499 10000000000000; num 45849136102394016 100000000000000; num 3590169983236535 10000000000000; num 4101350123460415 10000000000000; num 3690833791432535 10000000000000; num 2893777745827849 10000000000000];
    [txt "IMAGE"; txt "SSP2-Ref-SPA0-V17"; txt "STAN"; txt "Emissions|CO2"; txt "Mt CO2/yr"; num 46957497664587873 100000000000000; num 48514107772151254 100000000000000; num 5462306671639151 10000000000000; num 5433626149989409 10000000000000; num 5065756582084872 10000000000000; num 5577326406350129 10000000000000; num 5634925791934792 10000000000000; num 6999795125961865 10000000000000; num 7060496877676368 10000000000000; num 6998753917058776 10000000000000];
    [txt "IMAGE"; txt "SSP3-Ref-SPA0-V17"; txt "STAN"; txt "Emissions|CO2"; txt "Mt CO2/yr"; num 4691463242003645 10000000000000; num 5447837728359841 10000000000000; num 679672749899028 1000000000000; num 7567361959509557 10000000000000; num 8321606191755858 10000000000000; num 9255267894314695 10000000000000; num 9898020529057371 10000000000000; num 10880569255546434 10000000000000; num 11384988811256353 10000000000000; num 11519229228749025 10000000000000];
    [txt "IMAGE"; txt "SSP4-Ref-SPA0-V17"; txt "STAN"; txt "Emissions|CO2"; txt "Mt CO2/yr"; num 46956468204952364 100000000000000; num 4527662226770655 10000000000000; num 5554776204932062 10000000000000; num 5430402934250184 10000000000000; num 49756408187303253 100000000000000; num 513905354864427 1000000000000; num 46519146478431486 100000000000000; num 5753997345493793 10000000000000; num 5308530579095875 10000000000000; num 4912896932412773 10000000000000];
    [txt "IMAGE"; txt "SSP5-Ref-SPA0-V17"; txt "STAN"; txt "Emissions|CO2"; txt "Mt CO2/yr"; num 4750357564722215 10000000000000; num 5158317871562688 10000000000000; num 6167018229727305 10000000000000; num 6490817413920153 10000000000000; num 6465939179054609 10000000000000; num 6954973908102974 10000000000000; num 682563908956908 1000000000000; num 7332365418147048 10000000000000; num 6798249308886252 10000000000000; num 6360533702157006 10000000000000];
    [txt "IMAGE"; txt "SSP1-Ref-SPA0-V17"; txt "TUR"; txt "Emissions|CO2"; txt "Mt CO2/yr"; num 3158953959434313 10000000000000; num 41659126285525474 100000000000000; num 47157363895888597 100000000000000; num 4700307363301649 10000000000000; num 4720712484153114 10000000000000; num 4578379618743039 10000000000000; num 34264766696230214 100000000000000; num 28945699821560464 100000000000000; num 26823765312090217 100000000000000; num 2193523636063669 10000000000000];
    [txt "IMAGE"; txt "SSP2-Ref-SPA0-V17"; txt "TUR"; txt "Emissions|CO2"; txt "Mt CO2/yr"; num 31733462527298923 100000000000000; num 4357826004424486 10000000000000; num 5299602254713552 10000000000000; num 545496226042429 1000000000000; num 5857668406701135 10000000000000; num 6626502431836133 10000000000000; num 7102986145665257 10000000000000; num 7415950826683292 10000000000000; num 7705543976530582 10000000000000; num 7569660899532552 10000000000000];
    [txt "IMAGE"; txt "SSP3-Ref-SPA0-V17"; txt "TUR"; txt "Emissions|CO2"; txt "Mt CO2/yr"; num 3185846354456289 10000000000000; num 4725093841982288 10000000000000; num 5890005188523736 10000000000000; num 6478706716490666 10000000000000; num 7178922781007446 10000000000000; num 7978578491936263 10000000000000; num 8664307709527899 10000000000000; num 9500420838266018 10000000000000; num 10529105022116046 10000000000000; num 11413218384826628 10000000000000];
    [txt "IMAGE"; txt "SSP4-Ref-SPA0-V17"; txt "TUR"; txt "Emissions|CO2"; txt "Mt CO2/yr"; num 3179343974084604 10000000000000; num 4237507909524225 10000000000000; num 46661119592458067 100000000000000; num 4554770025031583 10000000000000; num 4754218597844311 10000000000000; num 499527216638836 1000000000000; num 49036496993390153 100000000000000; num 47721921797958146 100000000000000; num 50646275334194047 100000000000000; num 4651423416560552 10000000000000];
    [txt "IMAGE"; txt "SSP5-Ref-SPA0-V17"; txt "TUR"; txt "Emissions|CO2"; txt "Mt CO2/yr"; num 3204901988002943 10000000000000; num 44555648044822 100000000000; num 5577319132994008 10000000000000; num 6602515462839812 10000000000000; num 7597263845498603 10000000000000; num 8527566935996588 10000000000000; num 9140710297461833 10000000000000; num 9171422323424911 10000000000000; num 8947355957844645 10000000000000; num 8456495616410048 10000000000000];
    [txt "IMAGE"; txt "SSP1-Ref-SPA0-V17"; txt "UKR"; txt "Emissions|CO2"; txt "Mt CO2/yr"; num 34811124423330665 100000000000000; num 38948103081747115 100000000000000; num 38757401279158165 100000000000000; num 4490383199464206 10000000000000; num 37601116692464507 100000000000000; num 3727012583753533 10000000000000; num 2638158722163661 10000000000000; num 17399609249425205 100000000000000; num 13585666912042353 100000000000000; num 1389772326277873 10000000000000];
    [txt "IMAGE"; txt "SSP2-Ref-SPA0-V17"; txt "UKR"; txt "Emissions|CO2"; txt "Mt CO2/yr"; num 3483859532990868 10000000000000; num 4038642603923464 10000000000000; num 4154505768199948 10000000000000; num 5040097300669779 10000000000000; num 5182638855451618 10000000000000; num 5508777822359522 10000000000000; num 5285510966463573 10000000000000; num 50879179386949596 100000000000000; num 49917154952454587 100000000000000; num 50691957605519815 100000000000000];
    [txt "IMAGE"; txt "SSP3-Ref-SPA0-V17"; txt "UKR"; txt "Emissions|CO2"; txt "Mt CO2/yr"; num 3484149068513355 10000000000000; num 4259412740458834 10000000000000; num 4617294032198725 10000000000000; num 5345120036293212 10000000000000; num 5586547902932998 10000000000000; num 6062037404929349 10000000000000; num 614150889134608 1000000000000; num 6097409973698841 10000000000000; num 6257265472980952 10000000000000; num 6675764313351028 10000000000000];
    [txt "IMAGE"; txt "SSP4-Ref-SPA0-V17"; txt "UKR"; txt "Emissions|CO2"; txt "Mt CO2/yr"; num 3482629776317579 10000000000000; num 41236726128830173 100000000000000; num 4044982452760304 10000000000000; num 45879239404398703 100000000000000; num 4287176539492933 10000000000000; num 4278515930564737 10000000000000; num 3860666377100644 10000000000000; num 3562995046303726 10000000000000; num 3331895345354983 10000000000000; num 33432571668485286 100000000000000];
    [txt "IMAGE"; txt "SSP5-Ref-SPA0-V17"; txt "UKR"; txt "Emissions|CO2"; txt "Mt CO2/yr"; num 35067258456557073 100000000000000; num 45076314040149276 100000000000000; num 512994898524826 1000000000000; num 6265471497151619 10000000000000; num 6166834717357497 10000000000000; num 6405292816744409 10000000000000; num 5845994110638876 10000000000000; num 5157302399150486 10000000000000; num 493313308760667 1000000000000; num 47604334009047716 100000000000000];
    [txt "IMAGE"; txt "SSP1-Ref-SPA0-V17"; txt "USA"; txt "Emissions|CO2"; txt "Mt CO2/yr"; num 5298927287265575 1000000000000; num 508772021530627 100000000000; num 4313393351629105 1000000000000; num 3997106649126394 1000000000000; num 36812856652109645 10000000000000; num 3111142049436477 1000000000000; num 27170046999540314 10000000000000; num 25526474408245067 10000000000000; num 25703832399797648 10000000000000; num 23985122682844526 10000000000000];
    [txt "IMAGE"; txt "SSP2-Ref-SPA0-V17"; txt "USA"; txt "Emissions|CO2"; txt "Mt CO2/yr"; num 53006652836850035 10000000000000; num 5393820638511181 1000000000000; num 4984100179489558 1000000000000; num 5013851115364659 1000000000000; num 5189264770979564 1000000000000; num 5257497803212329 1000000000000; num 5180021118634973 1000000000000; num 5135206950336628 1000000000000; num 5308944824701382 1000000000000; num 5444406047044425 1000000000000];
    [txt "IMAGE"; txt "SSP3-Ref-SPA0-V17"; txt "USA"; txt "Emissions|CO2"; txt "Mt CO2/yr"; num 531419551643363 100000000000; num 5512976115410033 1000000000000; num 4949292358848373 1000000000000; num 4894629842567362 1000000000000; num 5105598796037062 1000000000000; num 50950642908277705 10000000000000; num 5044966756643529 1000000000000; num 4725038900169132 1000000000000; num 4494130656333036 1000000000000; num 4141331258514505 1000000000000];
    [txt "IMAGE"; txt "SSP4-Ref-SPA0-V17"; txt "USA"; txt "Emissions|CO2"; txt "Mt CO2/yr"; num 5311269165521905 1000000000000; num 5080170247857667 1000000000000; num 4592969523529522 1000000000000; num 4367623494863203 1000000000000; num 427384822629999 100000000000; num 4097122233445382 1000000000000; num 3696110107757885 1000000000000; num 36524458011132906 10000000000000; num 40379462080493777 10000000000000; num 441051615437231 100000000000];
    [txt "IMAGE"; txt "SSP5-Ref-SPA0-V17"; txt "USA"; txt "Emissions|CO2"; txt "Mt CO2/yr"; num 5388639770997689 1000000000000; num 5771377197790295 1000000000000; num 59267557785335875 10000000000000; num 6621802165315524 1000000000000; num 7601509359415005 1000000000000; num 8756029541811627 1000000000000; num 10064956136982704 1000000000000; num 11147730144242596 1000000000000; num 12382124756985022 1000000000000; num 1413380135219635 100000000000];
    [txt "IMAGE"; txt "SSP1-Ref-SPA0-V17"; txt "WAF"; txt "Emissions|CO2"; txt "Mt CO2/yr"; num 8621946564504516 10000000000000; num 12842738343452677 10000000000000; num 218585835794611 100000000000; num 19490882366680753 10000000000000; num 17127686158783624 10000000000000; num 18874294231859074 10000000000000; num 23912178753801436 10000000000000; num 28193305259724484 10000000000000; num 24986247560865227 10000000000000; num 19863477378107852 10000000000000];
    [txt "IMAGE"; txt "SSP2-Ref-SPA0-V17"; txt "WAF"; txt "Emissions|CO2"; txt "Mt CO2/yr"; num 8652431437961063 10000000000000; num 1816996480471171 1000000000000; num 3175013529748273 1000000000000; num 24797296958634506 10000000000000; num 2587739258047749 1000000000000; num 1861760294765605 1000000000000; num 27924135134374496 10000000000000; num 4349249878325074 1000000000000; num 5979497233616507 1000000000000; num 7714262940154422 1000000000000];
    [txt "IMAGE"; txt "SSP3-Ref-SPA0-V17"; txt "WAF"; txt "Emissions|CO2"; txt "Mt CO2/yr"; num 8638219300101698 10000000000000; num 25608271690153547 10000000000000; num 4081707641972627 1000000000000; num 2856351237238835 1000000000000; num 29673661501721044 10000000000000; num 20358148398660635 10000000000000; num 27527372439025926 10000000000000; num 36956737063906576 10000000000000; num 4793609416125887 1000000000000; num 6275269043539229 1000000000000];
    [txt "IMAGE"; txt "SSP4-Ref-SPA0-V17"; txt "WAF"; txt "Emissions|CO2"; txt "Mt CO2/yr"; num 8629753113577491 10000000000000; num 2311811401577352 1000000000000; num 3388397461245536 1000000000000; num 30724583132675957 10000000000000; num 2862611023209456 1000000000000; num 13522351787524876 10000000000000; num 15513061524847778 10000000000000; num 21594737550791283 10000000000000; num 22970476076306973 10000000000000; num 249017490663914 100000000000];
    [txt "IMAGE"; txt "SSP5-Ref-SPA0-V17"; txt "WAF"; txt "Emissions|CO2"; txt "Mt CO2/yr"; num 8654019267551051 10000000000000; num 20102132977087883 10000000000000; num 4233797322976036 1000000000000; num 28884070437196137 10000000000000; num 436665177448551 100000000000; num 5018240194141099 1000000000000; num 7960326172598666 1000000000000; num 105261862802538 10000000000; num 12274210531714794 1000000000000; num 12691568686049612 1000000000000];
    [txt "IMAGE"; txt "SSP1-Ref-SPA0-V17"; txt "WEU"; txt "Emissions|CO2"; txt "Mt CO2/yr"; num 33169355064864353 10000000000000; num 3001289978300188 1000000000000; num 2548329752835833 1000000000000; num 2343877726450059 1000000000000; num 24347899782486884 10000000000000; num 26443828127403985 10000000000000; num 246444803896102 100000000000; num 23493271486510753 10000000000000; num 1845719299484199 1000000000000; num 15909112550274408 10000000000000];
    [txt "IMAGE"; txt "SSP2-Ref-SPA0-V17"; txt "WEU"; txt "Emissions|CO2"; txt "Mt CO2/yr"; num 3319360107723635 1000000000000; num 31317352704669947 10000000000000; num 2884694275164589 1000000000000; num 28725032351244176 10000000000000; num 32821093346082694 10000000000000; num 3717175089856154 1000000000000; num 39022683515917306 10000000000000; num 4111301473355526 1000000000000; num 4094086222702919 1000000000000; num 4318031738673798 1000000000000];
    [txt "IMAGE"; txt "SSP3-Ref-SPA0-V17"; txt "WEU"; txt "Emissions|CO2"; txt "Mt CO2/yr"; num 3323114726050799 1000000000000; num 3199351522100746 1000000000000; num 31246805626213013 10000000000000; num 3292857788385288 1000000000000; num 3737931905450489 1000000000000; num 38468467207273175 10000000000000; num 37388926598451076 10000000000000; num 36604527591218307 10000000000000; num 3352950032856897 1000000000000; num 32198823041664145 10000000000000];
    [txt "IMAGE"; txt "SSP4-Ref-SPA0-V17"; txt "WEU"; txt "Emissions|CO2"; txt "Mt CO2/yr"; num 33246743573985973 10000000000000; num 30259849245914957 10000000000000; num 2812425089773904 1000000000000; num 26403350222126865 10000000000000; num 2918045858012673 1000000000000; num 3318987040503549 1000000000000; num 31712788292271002 10000000000000; num 29588059695072634 10000000000000; num 26405977582153146 10000000000000; num 273670721460426 100000000000];
    [txt "IMAGE"; txt "SSP5-Ref-SPA0-V17"; txt "WEU"; txt "Emissions|CO2"; txt "Mt CO2/yr"; num 3371788472800016 1000000000000; num 3410532857569163 1000000000000; num 37287213748506933 10000000000000; num 46140931400679 10000000000; num 6045981527242343 1000000000000; num 74653628750276275 10000000000000; num 8349253337347565 1000000000000; num 8942552409667125 1000000000000; num 9607821452696355 1000000000000; num 106632091481048 10000000000]] |}.

(** pd.read_csv on the bundled files *)
Definition bundled_files : list (string * table) :=
  [("inputdata/regionalparams/economics.csv", economics);
   ("inputdata/regionalparams/mac.csv", mac);
   ("inputdata/regionalparams/COACCH.csv", coacch);
   ("inputdata/regionalparams/mortality.csv", mortality);
   ("inputdata/regions/IMAGE26_COACCH.csv", image_coacch);
   ("inputdata/regions/IMAGE26_ADRICE2010.csv", image_adrice2010);
   ("inputdata/regions/IMAGE26_ADRICE2012.csv", image_adrice2012);
   ("inputdata/data/data_IMAGE_SSP.csv", image_ssp)].
Definition bundled (file : string) : result table :=
  match find (fun x => String.eqb (fst x) file) bundled_files with Some (_, t) => Ok t | None => Err FileNotFoundError end.
