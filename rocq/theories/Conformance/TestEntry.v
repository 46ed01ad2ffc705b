(** x4i3/tests/test_exfor_entry.py, with the texts of x4i3/tests/E0783.x4 and 12898.x4.  Not
    included: the values of test_exfor_entry.py:291-320, which the test compares with a tolerance,
    and subscripts of data sections. *)
From Coq Require Import String List Ascii NArith ZArith SpecFloat Bool Arith.
From Verif.Model Require Import Py PyFloat Dicts Particle Pyparsing Grammars Shipped ShippedDicts Reaction Field Section Columns Entry Dataset Csv Repr Print.
From Verif.Conformance Require Import Setup.
Import ListNotations.
Local Open Scope string_scope.
Local Open Scope list_scope.
Local Open Scope nat_scope.

Definition entry1 : list str := [
  (text ["SUBENT        E0783001   20040622              20050926       0000";
    "BIB                 10         19";
    "TITLE       ACCELERATION OF PROTONS AND DEUTERONS POLARIZED IN";
    "            THE HORIZONTAL PLANEBY THE RCNP CYCLOTRON";
    "AUTHOR     (K.HATANAKA,N.MATSUOKA,H.SAKAI,T.SAITO,H.TAMURA,";
    "           K.HOSONO,M.KONDO,K.IMAI,H.SHIMIZU,K.NISHIMURA)";
    "INSTITUTE  (2JPNOSA) RESEARCH CENTER FOR NUCLEAR PHYSICS, OSAKA";
    "            UNIV.";
    "           (2JPNKTO)";
    "REFERENCE  (J,NIM,217,397,1983)";
    "FACILITY   (CYCLO,2JPNOSA)";
    "INC-SOURCE  BEAM-INTENSITY IS 0.5NA";
    "            BEAM-POLARIZATION IS NOT GIVEN";
    "           (ATOMI) with a Wien filter";
    "SAMPLE      TARGET IS NOT POLARIZED";
    "            TARGET IS NOT ALIGNED";
    "PART-DET   (D)";
    "STATUS     (CURVE) DATA TAKEN FROM GRAPH";
    "HISTORY    (19881027T) CONVERTED FROM NRDF DATA NO. D783";
    "           (20040401A) Author's name is corrected. Code is added";
    "                       into INC-SOURCE. E-EXC=0.0 MeV is deleted.";
    "ENDBIB              19";
    "COMMON               1          3";
    "EN         ";
    "MEV        ";
    "56.        ";
    "ENDCOMMON            3";
    "ENDSUBENT           26";
    ""]);
  (text ["SUBENT        E0783002   20040622              20050926       0000";
    "BIB                  4          5";
    "REACTION   (1-H-1(D,EL)1-H-1,SL,POL/DA,,ANA)";
    "FLAG       (1.) DATA ERROR IS SMALLER THAN DATA POINT";
    "ERR-ANALYS (DATA-ERR) Uncertainty scanned from figure";
    "HISTORY    (20040401A) Quantity code is correcetd.";
    "                       ERR-ANALYS is added.";
    "ENDBIB               5";
    "NOCOMMON             0          0";
    "DATA                 4         24";
    "ANG-CM     DATA       DATA-ERR   FLAG";
    "ADEG       NO-DIM     NO-DIM     NO-DIM";
    "     30.712 -2.211E-03                    1.";
    "     38.727 -5.861E-03  0.821E-02";
    "     46.135  1.022E-02                    1.";
    "     55.814  4.098E-02                    1.";
    "     64.866  7.998E-02                    1.";
    "     69.415  1.126E-01                    1.";
    "     74.316  1.633E-01  0.147E-01";
    "     79.924  2.517E-01  0.115E-01";
    "     84.442  2.663E-01  0.131E-01";
    "     89.661  3.153E-01  0.821E-02";
    "     94.181  3.315E-01  0.164E-01";
    "     99.114  4.003E-01  0.115E-01";
    "    104.318  4.411E-01  0.131E-01";
    "    109.841  4.802E-01  0.132E-01";
    "    115.135  3.880E-01  0.132E-01";
    "    120.355  2.531E-01  0.131E-01";
    "    125.595 -5.416E-02  0.214E-01";
    "    129.340 -2.990E-01  0.197E-01";
    "    134.447 -3.140E-01  0.180E-01";
    "    139.629 -1.024E-01  0.197E-01";
    "    145.538 -2.551E-02  0.148E-01";
    "    150.255  1.040E-01  0.246E-01";
    "    155.357  8.570E-02  0.246E-01";
    "    160.562  1.265E-01  0.197E-01";
    "ENDDATA             26";
    "ENDSUBENT           36";
    ""])].
Definition entry2 : list str := [
  (text ["SUBENT        12898001     860114              20050926       0000";
    "BIB                 17         44";
    "INSTITUTE  (1USAANL)";
    "REFERENCE  (J,ANE,11,623,8412)";
    "           (P,ANL-NDM-85,8406)";
    "AUTHOR     (D.L.SMITH,J.W.MEADOWS,I.KANNO)";
    "TITLE      MEASURED ACTIVATION CROSS SECTIONS BELOW 10 MEV FOR THE";
    "            51-V(N,P)51-TI AND 51-V(N,ALPHA)48-SC REACTIONS.";
    "FACILITY         ANL FAST NEUTRON GENERATOR FACILITY";
    "METHOD     (ACTIV)";
    "MONITOR    (92-U-238(N,F),,SIG) ENDF/B-V FISSION CROSS SECTION";
    "                    WAS USED TO OBTAIN THE ABSOLUTE CROSS SECTION";
    "DETECTOR   (GELI)";
    "DECAY-DATA (22-TI-51,348.SEC,DG,320.,0.934)";
    "SAMPLE     METALLIC SAMPLE 99.8+-0.2 V BY WEIGHT.";
    "           ISOTOPIC ABUNDANCE OF 51-V ASSUMED TO BE 99.750 PERCENT";
    "ANALYSIS   SEE ANL-NDM-9(74) AND ANL-7989(73) FOR DETAILS.";
    "ERR-ANALYS THE ENERGY UNCERTAINTY WAS ABOUT 20 PERCENT";
    "                    OF FWHM RESOLUTIONS FOR THE NEUTRON ENERGY";
    "                    DISTRIBUTIONS,15-55 KEV.";
    "           (ERR-T) TOTAL UNCERTAINTY";
    "                   DETAILED ERROR CORRELATION MATRIX IS GIVEN";
    "                     IN THE ANL REPORT";
    "          1(ERR-S) RANDOM UNCERTAINTY";
    "                     SEVEN SOURCES OF RANDOM ERRORS";
    "           (ERR-1) SYSTEMATIC UNCERTAINTY";
    "                     TWELVE SOURCES OF SYSTEMATIC ERRORS";
    "CORRECTION CORRECTIONS WERE MADE FOR-";
    "             . DETECTOR EFFICIENCY";
    "             . DEAD-TIME";
    "             . BACKGROUND EFFECTS";
    "             . FISSION EVENTS OF LOW-ENERGY";
    "             . FISSION PRODUCED BY BACKGROUND NEUTRONS";
    "             . NEUTRON MULTIPLE SCATTERING";
    "             . GEOMETRY FACTORS";
    "             . NEUTRON SOURCE PROPERTIS";
    "             . NEUTRON ABSORPTION";
    "             . SECONDARY NEUTRONS FROM LI(P,N) AND D(D,N) SOURCES";
    "ADD-RES    U-235 FISSION SPECTRUM AVERAGED CROSS SECTION=0.5366 MB";
    "           CF-252 FISSION SPECTRUM AVERAGED CROSS SECTION=0.6878MB";
    "COMMENT    SEE DATA SET 12904 FOR 51-V(N,ALPHA).";
    "STATUS     (APRVD) D.L.SMITH, 84/10/3.";
    "HISTORY    (840830C)";
    "           (850212A) REFERENCE UPDATE.";
    "           (860114A) ENERGY RESOLUTION HEADING UPDATED, BIB";
    "                     CORRECTION.";
    "ENDBIB              44";
    "NOCOMMON             0          0 3";
    "ENDSUBENT           47";
    ""]);
  (text ["SUBENT        12898002     860114              20050926       0000";
    "BIB                  2          3";
    "REACTION  1((23-V-51(N,P)22-TI-51,,SIG)/(92-U-238(N,F),,SIG))";
    "          2(23-V-51(N,P)22-TI-51,,SIG)";
    "INC-SOURCE (P-LI7)";
    "ENDBIB               3";
    "NOCOMMON             0          0";
    "DATA                10         18";
    "EN         EN-RSL-FW  DATA      1ERR-S      ERR-1     1ERR-T     1";
    "MONIT     2MONIT-ERR 2DATA      2ERR-T     2";
    "MEV        MEV        NO-DIM     PER-CENT   PER-CENT   PER-CENT";
    "MB         PER-CENT   MB         PER-CENT";
    " 2.856      0.095      9.075  -06 47.9       15.6       50.4";
    " 528.8      3.0        0.004799   50.5";
    " 2.957      0.094      1.966  -05 20.6        9.2       22.6";
    " 524.4      3.0        0.01031    22.8";
    " 3.057      0.094      2.575  -05 15.9       20.1       25.6";
    " 522.7      2.5        0.01346    25.7";
    " 3.158      0.092      7.369  -05  6.7       15.5       16.9";
    " 524.2      2.5        0.03863    17.1";
    " 3.258      0.090      1.441  -04  4.9       11.2       12.2";
    " 526.7      2.5        0.07588    12.5";
    " 3.359      0.087      2.354  -04  3.6        8.1        8.9";
    " 529.2      2.5        0.1246      9.2";
    " 3.459      0.087      3.210  -04  3.4        6.7        7.5";
    " 531.7      2.5        0.1707      7.9";
    " 3.560      0.087      4.130  -04  3.2        7.8        8.4";
    " 536.1      2.5        0.2214      8.8";
    " 3.661      0.087      6.140  -04  3.0        7.2        7.8";
    " 541.7      2.5        0.3326      8.2";
    " 3.761      0.082      7.917  -04  2.9        8.4        8.9";
    " 544.3      2.5        0.4309      9.2";
    " 3.861      0.084      1.281  -03  2.8        5.9        6.5";
    " 544.9      2.5        0.6979      7.0";
    " 3.861      0.084      1.282  -03  2.8        5.9        6.5";
    " 544.9      2.5        0.6986      7.0";
    " 3.962      0.081      1.348  -03  2.8        4.9        5.6";
    " 545.5      2.5        0.7353      6.1";
    " 4.063      0.081      1.552  -03  2.8        5.1        5.8";
    " 546.3      2.4        0.8476      6.3";
    " 4.264      0.075      1.967  -03  2.7        6.7        7.2";
    " 547.4      2.4        1.007       7.6";
    " 4.464      0.076      2.692  -03  2.7        5.2        5.9";
    " 549.0      2.4        1.478       6.4";
    " 4.664      0.076      4.136  -03  2.8        4.7        5.5";
    " 544.0      2.4        2.250       6.0";
    " 4.865      0.076      4.996  -03  2.8        4.8        5.6";
    " 537.6      2.4        2.686       6.1";
    "ENDDATA             40";
    "ENDSUBENT           48";
    ""]);
  (text ["SUBENT        12898003     860114              20050926       0000";
    "BIB                  2          3";
    "REACTION  1((23-V-51(N,P)22-TI-51,,SIG)/(92-U-238(N,F),,SIG))";
    "          2(23-V-51(N,P)22-TI-51,,SIG)";
    "INC-SOURCE (D-D)";
    "ENDBIB               3";
    "NOCOMMON             0          0";
    "DATA                10         27";
    "EN         EN-RSL-FW  DATA      1ERR-S      ERR-1     1ERR-T     1";
    "MONIT     2MONIT-ERR 2DATA      2ERR-T     2";
    "MEV        MEV        NO-DIM     PER-CENT   PER-CENT   PER-CENT";
    "MB         PER-CENT   MB         PER-CENT";
    " 4.643      0.276      4.105  -03  2.7        5.1        5.8";
    " 544.7      2.4        2.236       6.3";
    " 4.893      0.248      5.315  -03  2.6        6.2        6.7";
    " 536.8      2.4        2.853       7.1";
    " 5.139      0.211      6.049  -03  2.4        5.2        5.7";
    " 537.3      2.6        3.250       6.3";
    " 5.374      0.194      6.696  -03  2.4        5.0        5.5";
    " 543.9      2.6        3.642       6.1";
    " 5.600      0.180      7.571  -03  2.4        5.6        6.1";
    " 560.4      2.6        4.243       6.6";
    " 5.819      0.174      8.559  -03  2.4        5.3        5.8";
    " 589.0      2.6        5.041       6.4";
    " 5.822      0.167      8.870  -03  2.5        5.2        5.8";
    " 589.4      2.6        5.228       6.4";
    " 6.040      0.162      9.600  -03  2.3        4.9        5.4";
    " 627.4      3.9        6.023       6.7";
    " 6.254      0.153      1.006  -02  2.3        4.8        5.3";
    " 710.0      3.9        7.142       6.6";
    " 6.465      0.146      9.435  -03  2.3        4.7        5.2";
    " 796.7      3.9        7.517       6.5";
    " 6.675      0.149      9.317  -03  2.3        4.7        5.2";
    " 860.0      3.9        8.013       6.5";
    " 6.881      0.144      1.003  -02  2.3        4.6        5.1";
    " 904.9      3.9        9.077       6.4";
    " 6.882      0.141      9.969  -03  2.3        4.6        5.1";
    " 905.1      3.9        9.023       6.4";
    " 7.087      0.141      1.003  -02  2.3        4.6        5.1";
    " 933.2      3.9        9.362       6.4";
    " 7.290      0.144      1.089  -02  2.3        4.6        5.1";
    " 959.7      3.9       10.45        6.4";
    " 7.494      0.144      1.182  -02  2.6        4.6        5.3";
    " 986.3      3.9       11.66        6.6";
    " 7.694      0.152      1.189  -02  2.5        4.6        5.2";
    " 988.6      3.9       11.72        6.5";
    " 7.893      0.155      1.285  -02  2.9        4.6        5.4";
    " 990.1      3.9       12.72        6.7";
    " 7.893      0.156      1.337  -02  2.9        4.6        5.4";
    " 990.1      3.9       13.24        6.7";
    " 8.092      0.161      1.331  -02  2.9        4.6        5.4";
    " 991.7      2.9       13.20        6.1";
    " 8.290      0.169      1.403  -02  2.9        4.6        5.4";
    " 993.1      2.9       13.93        6.1";
    " 8.486      0.173      1.452  -02  3.3        4.5        5.6";
    " 994.6      2.9       14.44        6.3";
    " 8.683      0.181      1.571  -02  3.3        4.6        5.7";
    " 996.0      2.9       15.65        6.4";
    " 8.684      0.179      1.578  -02  3.3        4.5        5.6";
    " 996.0      2.9       15.72        6.3";
    " 8.879      0.184      1.598  -02  3.4        4.5        5.6";
    " 997.5      2.9       15.94        6.3";
    " 9.071      0.189      1.778  -02  3.8        4.6        6.0";
    " 997.3      2.9       17.73        6.7";
    " 9.267      0.195      1.850  -02  3.8        4.6        6.0";
    " 994.0      2.9       18.39        6.7";
    "ENDDATA             58";
    "ENDSUBENT           66";
    ""])].

Definition cases (e : env) (nm : names) : list (string * res str * str) := [
  ("bib", (n <- X4Entry e entry1 ;; s <- entry_getitem n (EInt 1) ;; b <- Entry.sub_bib s ;; bib_repr b),
    (text ["BIB                 10         19";
    "TITLE       ACCELERATION OF PROTONS AND DEUTERONS POLARIZED IN";
    "            THE HORIZONTAL PLANEBY THE RCNP CYCLOTRON";
    "AUTHOR     (K.HATANAKA,N.MATSUOKA,H.SAKAI,T.SAITO,H.TAMURA,";
    "           K.HOSONO,M.KONDO,K.IMAI,H.SHIMIZU,K.NISHIMURA)";
    "INSTITUTE  (2JPNOSA) RESEARCH CENTER FOR NUCLEAR PHYSICS, OSAKA";
    "            UNIV.";
    "           (2JPNKTO)";
    "REFERENCE  (J,NIM,217,397,1983)";
    "FACILITY   (CYCLO,2JPNOSA)";
    "INC-SOURCE  BEAM-INTENSITY IS 0.5NA";
    "            BEAM-POLARIZATION IS NOT GIVEN";
    "           (ATOMI) with a Wien filter";
    "SAMPLE      TARGET IS NOT POLARIZED";
    "            TARGET IS NOT ALIGNED";
    "PART-DET   (D)";
    "STATUS     (CURVE) DATA TAKEN FROM GRAPH";
    "HISTORY    (19881027T) CONVERTED FROM NRDF DATA NO. D783";
    "           (20040401A) Author's name is corrected. Code is added";
    "                       into INC-SOURCE. E-EXC=0.0 MeV is deleted.";
    "ENDBIB              19"]));
  ("common", (n <- X4Entry e entry1 ;; s <- entry_getitem n (EInt 1) ;; match sub_data s "COMMON" with Some d => Ok (data_repr d) | None => Raise KeyError end),
    (text ["COMMON               1          1";
    "EN         ";
    "MEV        ";
    "56.        ";
    "ENDCOMMON            3"]));
  ("header", (n <- X4Entry e entry1 ;; '((a, d, _, m), _) <- X4EntryMetaData n ;; Ok (entry_xmgraceHeader a d m)),
    (text ["#Exfor Entry E0783";
    "#  Authors:   K.Hatanaka, N.Matsuoka, H.Sakai, T.Saito, H.Tamura, K.Hosono, M.Kondo, K.Imai, H.Shimizu, K.Nishimura";
    "#  Title:     Acceleration Of Protons And Deuterons Polarized In The Horizontal Planeby The Rcnp Cyclotron";
    "#  Year:      1983";
    "#  Institute: Osaka Univ., Osaka (Research Center For Nuclear Physics, Osaka Univ.); Kyoto Univ.";
    "#  Reference: Nuclear Instrum.and Methods in Physics Res. 217, 397 (1983)";
    "#  Subent:    E0783001"]));
  ("legend", (n <- X4Entry e entry1 ;; '((a, d, _, m), _) <- X4EntryMetaData n ;; Ok (entry_legend a d m)),
    (text ["(1983) K.Hatanaka, N.Matsuoka, et al."]));
  ("citation", (n <- X4Entry e entry1 ;; '((a, d, _, m), _) <- X4EntryMetaData n ;; entry_citation a d m),
    (text ["K.Hatanaka, N.Matsuoka, et al., Nuclear Instrum.and Methods in Physics Res. 217, 397 (1983);  Data taken from the EXFOR database, file EXFOR E0783001 dated 1983, retrieved from the IAEA Nuclear Data Services website."]));
  ("keys1", (n <- X4Entry e entry1 ;; '(ds, _, _) <- getDataSets nm n [] ;; Ok (concat (map (fun kd => let '(a, s, p) := fst kd in a ++ lit "," ++ match s with Some s => s | None => lit "None" end ++ lit "," ++ [p] ++ lit ":" ++ meta_legend (ds_meta (snd kd)) ++ [nl]) ds))),
    (text ["E0783,E0783002, :(1983) K.Hatanaka, N.Matsuoka, et al.";
    ""]));
  ("keys2", (n <- X4Entry e entry2 ;; '(ds, _, _) <- getDataSets nm n [] ;; Ok (concat (map (fun kd => let '(a, s, p) := fst kd in a ++ lit "," ++ match s with Some s => s | None => lit "None" end ++ lit "," ++ [p] ++ lit ":" ++ meta_legend (ds_meta (snd kd)) ++ [nl]) ds))),
    (text ["12898,12898002,1:(1984) D.L.Smith, J.W.Meadows, et al.";
    "12898,12898002,2:(1984) D.L.Smith, J.W.Meadows, et al.";
    "12898,12898003,1:(1984) D.L.Smith, J.W.Meadows, et al.";
    "12898,12898003,2:(1984) D.L.Smith, J.W.Meadows, et al.";
    ""]));
  ("csv1", (d <- data_set e nm entry1 "E0783002" " "%char ;; Ok (csv_lines (dataset_csv repr_float (ds_table d)))),
    (text ["EN,ANG-CM,DATA,DATA-ERR,FLAG";
    "MEV,ADEG,NO-DIM,NO-DIM,NO-DIM";
    "56.0,30.712,-0.002211,,1.0";
    "56.0,38.727,-0.005861,0.00821,";
    "56.0,46.135,0.01022,,1.0";
    "56.0,55.814,0.04098,,1.0";
    "56.0,64.866,0.07998,,1.0";
    "56.0,69.415,0.1126,,1.0";
    "56.0,74.316,0.1633,0.0147,";
    "56.0,79.924,0.2517,0.0115,";
    "56.0,84.442,0.2663,0.0131,";
    "56.0,89.661,0.3153,0.00821,";
    "56.0,94.181,0.3315,0.0164,";
    "56.0,99.114,0.4003,0.0115,";
    "56.0,104.318,0.4411,0.0131,";
    "56.0,109.841,0.4802,0.0132,";
    "56.0,115.135,0.388,0.0132,";
    "56.0,120.355,0.2531,0.0131,";
    "56.0,125.595,-0.05416,0.0214,";
    "56.0,129.34,-0.299,0.0197,";
    "56.0,134.447,-0.314,0.018,";
    "56.0,139.629,-0.1024,0.0197,";
    "56.0,145.538,-0.02551,0.0148,";
    "56.0,150.255,0.104,0.0246,";
    "56.0,155.357,0.0857,0.0246,";
    "56.0,160.562,0.1265,0.0197,";
    ""]));
  ("str1", (d <- data_set e nm entry1 "E0783002" " "%char ;; dataset_str nm d),
    (text ["#  Authors:   K.Hatanaka, N.Matsuoka, H.Sakai, T.Saito, H.Tamura, K.Hosono, M.Kondo, K.Imai, H.Shimizu, K.Nishimura";
    "#  Title:     Acceleration Of Protons And Deuterons Polarized In The Horizontal Planeby The Rcnp Cyclotron";
    "#  Year:      1983";
    "#  Institute: Osaka Univ., Osaka (Research Center For Nuclear Physics, Osaka Univ.); Kyoto Univ.";
    "#  Reference: Nuclear Instrum.and Methods in Physics Res. 217, 397 (1983)";
    "#  Subent:    E0783002";
    "#  Reaction:  Vector analyzing power, A(y), for incident beam Spin-polarization probability d/dA for 1H(d,Elastic)1H ";
    "#        EN            ANG-CM        DATA          DATA-ERR      FLAG          ";
    "#        MEV           ADEG          NO-DIM        NO-DIM        NO-DIM        ";
    "        56.0          30.712        -0.002211     None          1.0           ";
    "        56.0          38.727        -0.005861     0.00821       None          ";
    "        56.0          46.135        0.01022       None          1.0           ";
    "        56.0          55.814        0.04098       None          1.0           ";
    "        56.0          64.866        0.07998       None          1.0           ";
    "        56.0          69.415        0.1126        None          1.0           ";
    "        56.0          74.316        0.1633        0.0147        None          ";
    "        56.0          79.924        0.2517        0.0115        None          ";
    "        56.0          84.442        0.2663        0.0131        None          ";
    "        56.0          89.661        0.3153        0.00821       None          ";
    "        56.0          94.181        0.3315        0.0164        None          ";
    "        56.0          99.114        0.4003        0.0115        None          ";
    "        56.0          104.318       0.4411        0.0131        None          ";
    "        56.0          109.841       0.4802        0.0132        None          ";
    "        56.0          115.135       0.388         0.0132        None          ";
    "        56.0          120.355       0.2531        0.0131        None          ";
    "        56.0          125.595       -0.05416      0.0214        None          ";
    "        56.0          129.34        -0.299        0.0197        None          ";
    "        56.0          134.447       -0.314        0.018         None          ";
    "        56.0          139.629       -0.1024       0.0197        None          ";
    "        56.0          145.538       -0.02551      0.0148        None          ";
    "        56.0          150.255       0.104         0.0246        None          ";
    "        56.0          155.357       0.0857        0.0246        None          ";
    "        56.0          160.562       0.1265        0.0197        None          ";
    "        "]));
  ("csv2", (d <- data_set e nm entry2 "12898003" "2"%char ;; Ok (csv_lines (dataset_csv repr_float (ds_table d)))),
    (text ["EN,EN-RSL-FW,ERR-S,MONIT,MONIT-ERR,DATA,ERR-T";
    "MEV,MEV,PER-CENT,MB,PER-CENT,MB,PER-CENT";
    "4.643,0.276,2.7,544.7,2.4,2.236,6.3";
    "4.893,0.248,2.6,536.8,2.4,2.853,7.1";
    "5.139,0.211,2.4,537.3,2.6,3.25,6.3";
    "5.374,0.194,2.4,543.9,2.6,3.642,6.1";
    "5.6,0.18,2.4,560.4,2.6,4.243,6.6";
    "5.819,0.174,2.4,589.0,2.6,5.041,6.4";
    "5.822,0.167,2.5,589.4,2.6,5.228,6.4";
    "6.04,0.162,2.3,627.4,3.9,6.023,6.7";
    "6.254,0.153,2.3,710.0,3.9,7.142,6.6";
    "6.465,0.146,2.3,796.7,3.9,7.517,6.5";
    "6.675,0.149,2.3,860.0,3.9,8.013,6.5";
    "6.881,0.144,2.3,904.9,3.9,9.077,6.4";
    "6.882,0.141,2.3,905.1,3.9,9.023,6.4";
    "7.087,0.141,2.3,933.2,3.9,9.362,6.4";
    "7.29,0.144,2.3,959.7,3.9,10.45,6.4";
    "7.494,0.144,2.6,986.3,3.9,11.66,6.6";
    "7.694,0.152,2.5,988.6,3.9,11.72,6.5";
    "7.893,0.155,2.9,990.1,3.9,12.72,6.7";
    "7.893,0.156,2.9,990.1,3.9,13.24,6.7";
    "8.092,0.161,2.9,991.7,2.9,13.2,6.1";
    "8.29,0.169,2.9,993.1,2.9,13.93,6.1";
    "8.486,0.173,3.3,994.6,2.9,14.44,6.3";
    "8.683,0.181,3.3,996.0,2.9,15.65,6.4";
    "8.684,0.179,3.3,996.0,2.9,15.72,6.3";
    "8.879,0.184,3.4,997.5,2.9,15.94,6.3";
    "9.071,0.189,3.8,997.3,2.9,17.73,6.7";
    "9.267,0.195,3.8,994.0,2.9,18.39,6.7";
    ""]));
  ("str2", (d <- data_set e nm entry2 "12898002" "1"%char ;; dataset_str nm d),
    (text ["#  Authors:   D.L.Smith, J.W.Meadows, I.Kanno";
    "#  Title:     Measured Activation Cross Sections Below 10 Mev For The 51-V(N,P)51-Ti And 51-V(N,Alpha)48-Sc Reactions.";
    "#  Year:      1984";
    "#  Institute: Argonne National Laboratory, Argonne, IL";
    "#  Reference: Annals of Nuclear Energy 11, 623 (1984); Progress report: ANL-NDM-85  (1984)";
    "#  Subent:    12898002";
    "#  Reaction:  (( Cross section for 51V(n,p)51Ti )/( Cross section for 238U(n,Fission) )) ";
    "#        EN            EN-RSL-FW     DATA          ERR-S         ERR-1         ERR-T         ";
    "#        MEV           MEV           NO-DIM        PER-CENT      PER-CENT      PER-CENT      ";
    "        2.856         0.095         9.075e-06     47.9          15.6          50.4          ";
    "        2.957         0.094         1.966e-05     20.6          9.2           22.6          ";
    "        3.057         0.094         2.575e-05     15.9          20.1          25.6          ";
    "        3.158         0.092         7.369e-05     6.7           15.5          16.9          ";
    "        3.258         0.09          0.0001441     4.9           11.2          12.2          ";
    "        3.359         0.087         0.0002354     3.6           8.1           8.9           ";
    "        3.459         0.087         0.000321      3.4           6.7           7.5           ";
    "        3.56          0.087         0.000413      3.2           7.8           8.4           ";
    "        3.661         0.087         0.000614      3.0           7.2           7.8           ";
    "        3.761         0.082         0.0007917     2.9           8.4           8.9           ";
    "        3.861         0.084         0.001281      2.8           5.9           6.5           ";
    "        3.861         0.084         0.001282      2.8           5.9           6.5           ";
    "        3.962         0.081         0.001348      2.8           4.9           5.6           ";
    "        4.063         0.081         0.001552      2.8           5.1           5.8           ";
    "        4.264         0.075         0.001967      2.7           6.7           7.2           ";
    "        4.464         0.076         0.002692      2.7           5.2           5.9           ";
    "        4.664         0.076         0.004136      2.8           4.7           5.5           ";
    "        4.865         0.076         0.004996      2.8           4.8           5.6           ";
    "        "]));
  ("str3", (d <- simplified_set (fun _ => None) e nm entry2 "12898002" "1"%char ;; dataset_str nm d),
    (text ["#  Authors:   D.L.Smith, J.W.Meadows, I.Kanno";
    "#  Title:     Measured Activation Cross Sections Below 10 Mev For The 51-V(N,P)51-Ti And 51-V(N,Alpha)48-Sc Reactions.";
    "#  Year:      1984";
    "#  Institute: Argonne National Laboratory, Argonne, IL";
    "#  Reference: Annals of Nuclear Energy 11, 623 (1984); Progress report: ANL-NDM-85  (1984)";
    "#  Subent:    12898002";
    "#  Reaction:  (( Cross section for 51V(n,p)51Ti )/( Cross section for 238U(n,Fission) )) ";
    "#        Energy        Data          d(Energy)     d(Data)       ";
    "#        MeV           no-dim        MeV           no-dim        ";
    "        2.856         9.075e-06     0.0475        4.5738e-06    ";
    "        2.957         1.966e-05     0.047         4.44316e-06   ";
    "        3.057         2.575e-05     0.047         6.592e-06     ";
    "        3.158         7.369e-05     0.046         1.245361e-05  ";
    "        3.258         0.0001441     0.045         1.75802e-05   ";
    "        3.359         0.0002354     0.0435        2.09506e-05   ";
    "        3.459         0.000321      0.0435        2.4075e-05    ";
    "        3.56          0.000413      0.0435        3.4692e-05    ";
    "        3.661         0.000614      0.0435        4.7892e-05    ";
    "        3.761         0.0007917     0.041         7.04613e-05   ";
    "        3.861         0.001281      0.042         8.3265e-05    ";
    "        3.861         0.001282      0.042         8.333e-05     ";
    "        3.962         0.001348      0.0405        7.5488e-05    ";
    "        4.063         0.001552      0.0405        9.0016e-05    ";
    "        4.264         0.001967      0.0375        0.000141624   ";
    "        4.464         0.002692      0.038         0.000158828   ";
    "        4.664         0.004136      0.038         0.00022748    ";
    "        4.865         0.004996      0.038         0.000279776   ";
    "        "]));
  ("bib2", (b <- X4BibSection e (split_char nl (text ["BIB                 10         19"; "TITLE       ACCELERATION OF PROTONS AND DEUTERONS POLARIZED IN"; "            THE HORIZONTAL PLANEBY THE RCNP CYCLOTRON"; "AUTHOR     (K.HATANAKA,N.MATSUOKA,H.SAKAI,T.SAITO,H.TAMURA,"; "           K.HOSONO,M.KONDO,K.IMAI,H.SHIMIZU,K.NISHIMURA)"; "INSTITUTE  (2JPNOSA) RESEARCH CENTER FOR NUCLEAR PHYSICS, OSAKA"; "            UNIV."; "           (2JPNKTO)"; "REFERENCE  (J,NIM,217,397,1983)"; "FACILITY   (CYCLO,2JPNOSA)"; "INC-SOURCE  BEAM-INTENSITY IS 0.5NA"; "            BEAM-POLARIZATION IS NOT GIVEN"; "           (ATOMI) with a Wien filter"; "SAMPLE      TARGET IS NOT POLARIZED"; "            TARGET IS NOT ALIGNED"; "PART-DET   (D)"; "STATUS     (CURVE) DATA TAKEN FROM GRAPH"; "HISTORY    (19881027T) CONVERTED FROM NRDF DATA NO. D783"; "           (20040401A) Author's name is corrected. Code is added"; "                       into INC-SOURCE. E-EXC=0.0 MeV is deleted."; "ENDBIB              19"])) ;; bib_repr b),
    (text ["BIB                 10         19";
    "TITLE       ACCELERATION OF PROTONS AND DEUTERONS POLARIZED IN";
    "            THE HORIZONTAL PLANEBY THE RCNP CYCLOTRON";
    "AUTHOR     (K.HATANAKA,N.MATSUOKA,H.SAKAI,T.SAITO,H.TAMURA,";
    "           K.HOSONO,M.KONDO,K.IMAI,H.SHIMIZU,K.NISHIMURA)";
    "INSTITUTE  (2JPNOSA) RESEARCH CENTER FOR NUCLEAR PHYSICS, OSAKA";
    "            UNIV.";
    "           (2JPNKTO)";
    "REFERENCE  (J,NIM,217,397,1983)";
    "FACILITY   (CYCLO,2JPNOSA)";
    "INC-SOURCE  BEAM-INTENSITY IS 0.5NA";
    "            BEAM-POLARIZATION IS NOT GIVEN";
    "           (ATOMI) with a Wien filter";
    "SAMPLE      TARGET IS NOT POLARIZED";
    "            TARGET IS NOT ALIGNED";
    "PART-DET   (D)";
    "STATUS     (CURVE) DATA TAKEN FROM GRAPH";
    "HISTORY    (19881027T) CONVERTED FROM NRDF DATA NO. D783";
    "           (20040401A) Author's name is corrected. Code is added";
    "                       into INC-SOURCE. E-EXC=0.0 MeV is deleted.";
    "ENDBIB              19"]));
  ("len", (b <- X4BibSection e (split_char nl (text ["BIB                 10         19"; "TITLE       ACCELERATION OF PROTONS AND DEUTERONS POLARIZED IN"; "            THE HORIZONTAL PLANEBY THE RCNP CYCLOTRON"; "AUTHOR     (K.HATANAKA,N.MATSUOKA,H.SAKAI,T.SAITO,H.TAMURA,"; "           K.HOSONO,M.KONDO,K.IMAI,H.SHIMIZU,K.NISHIMURA)"; "INSTITUTE  (2JPNOSA) RESEARCH CENTER FOR NUCLEAR PHYSICS, OSAKA"; "            UNIV."; "           (2JPNKTO)"; "REFERENCE  (J,NIM,217,397,1983)"; "FACILITY   (CYCLO,2JPNOSA)"; "INC-SOURCE  BEAM-INTENSITY IS 0.5NA"; "            BEAM-POLARIZATION IS NOT GIVEN"; "           (ATOMI) with a Wien filter"; "SAMPLE      TARGET IS NOT POLARIZED"; "            TARGET IS NOT ALIGNED"; "PART-DET   (D)"; "STATUS     (CURVE) DATA TAKEN FROM GRAPH"; "HISTORY    (19881027T) CONVERTED FROM NRDF DATA NO. D783"; "           (20040401A) Author's name is corrected. Code is added"; "                       into INC-SOURCE. E-EXC=0.0 MeV is deleted."; "ENDBIB              19"])) ;; n <- bib_totalLen b ;; Ok (z_to_str (Z.of_nat n))),
    (text ["19"]));
  ("COMMON str", (d <- X4DataSection (lit "COMMON") (split_char nl (text ["COMMON               1          1"; "EN         "; "MEV        "; "56.        "; "ENDCOMMON            3"])) ;; Ok (data_str d)),
    (text ["COMMON               1          1";
    "EN         ";
    "MEV        ";
    "56.0       ";
    "ENDCOMMON            3"]));
  ("COMMON repr", (d <- X4DataSection (lit "COMMON") (split_char nl (text ["COMMON               1          1"; "EN         "; "MEV        "; "56.        "; "ENDCOMMON            3"])) ;; Ok (data_repr d)),
    (text ["COMMON               1          1";
    "EN         ";
    "MEV        ";
    "56.        ";
    "ENDCOMMON            3"]));
  ("COMMON csv", (d <- X4DataSection (lit "COMMON") (split_char nl (text ["COMMON               1          1"; "EN         "; "MEV        "; "56.        "; "ENDCOMMON            3"])) ;; Ok (csv_lines (section_csv repr_float d))),
    (text ["EN";
    "MEV";
    "56.0";
    ""]));
  ("COMMON len", (d <- X4DataSection (lit "COMMON") (split_char nl (text ["COMMON               1          1"; "EN         "; "MEV        "; "56.        "; "ENDCOMMON            3"])) ;; n <- data_len d ;; Ok (z_to_str n)),
    (text ["1"]));
  ("DATA str", (d <- X4DataSection (lit "DATA") (split_char nl (text ["DATA                10         18"; "EN         EN-RSL-FW  DATA      1ERR-S      ERR-1     1ERR-T     1"; "MONIT     2MONIT-ERR 2DATA      2ERR-T     2"; "MEV        MEV        NO-DIM     PER-CENT   PER-CENT   PER-CENT"; "MB         PER-CENT   MB         PER-CENT"; " 2.856      0.095      9.075  -06 47.9       15.6       50.4"; " 528.8      3.0        0.004799   50.5"; " 2.957      0.094      1.966  -05 20.6        9.2       22.6"; " 524.4      3.0        0.01031    22.8"; " 3.057      0.094      2.575  -05 15.9       20.1       25.6"; " 522.7      2.5        0.01346    25.7"; " 3.158      0.092      7.369  -05  6.7       15.5       16.9"; " 524.2      2.5        0.03863    17.1"; " 3.258      0.090      1.441  -04  4.9       11.2       12.2"; " 526.7      2.5        0.07588    12.5"; " 3.359      0.087      2.354  -04  3.6        8.1        8.9"; " 529.2      2.5        0.1246      9.2"; " 3.459      0.087      3.210  -04  3.4        6.7        7.5"; " 531.7      2.5        0.1707      7.9"; " 3.560      0.087      4.130  -04  3.2        7.8        8.4"; " 536.1      2.5        0.2214      8.8"; " 3.661      0.087      6.140  -04  3.0        7.2        7.8"; " 541.7      2.5        0.3326      8.2"; " 3.761      0.082      7.917  -04  2.9        8.4        8.9"; " 544.3      2.5        0.4309      9.2"; " 3.861      0.084      1.281  -03  2.8        5.9        6.5"; " 544.9      2.5        0.6979      7.0"; " 3.861      0.084      1.282  -03  2.8        5.9        6.5"; " 544.9      2.5        0.6986      7.0"; " 3.962      0.081      1.348  -03  2.8        4.9        5.6"; " 545.5      2.5        0.7353      6.1"; " 4.063      0.081      1.552  -03  2.8        5.1        5.8"; " 546.3      2.4        0.8476      6.3"; " 4.264      0.075      1.967  -03  2.7        6.7        7.2"; " 547.4      2.4        1.007       7.6"; " 4.464      0.076      2.692  -03  2.7        5.2        5.9"; " 549.0      2.4        1.478       6.4"; " 4.664      0.076      4.136  -03  2.8        4.7        5.5"; " 544.0      2.4        2.250       6.0"; " 4.865      0.076      4.996  -03  2.8        4.8        5.6"; " 537.6      2.4        2.686       6.1"; "ENDDATA             40"])) ;; Ok (data_str d)),
    (text ["DATA                10         18";
    "EN         EN-RSL-FW  DATA      1ERR-S      ERR-1     1ERR-T     1MONIT     2MONIT-ERR 2DATA      2ERR-T     2";
    "MEV        MEV        NO-DIM     PER-CENT   PER-CENT   PER-CENT   MB         PER-CENT   MB         PER-CENT   ";
    "2.856      0.095      9.075e-06  47.9       15.6       50.4       528.8      3.0        0.004799   50.5       ";
    "2.957      0.094      1.966e-05  20.6       9.2        22.6       524.4      3.0        0.01031    22.8       ";
    "3.057      0.094      2.575e-05  15.9       20.1       25.6       522.7      2.5        0.01346    25.7       ";
    "3.158      0.092      7.369e-05  6.7        15.5       16.9       524.2      2.5        0.03863    17.1       ";
    "3.258      0.09       0.0001441  4.9        11.2       12.2       526.7      2.5        0.07588    12.5       ";
    "3.359      0.087      0.0002354  3.6        8.1        8.9        529.2      2.5        0.1246     9.2        ";
    "3.459      0.087      0.000321   3.4        6.7        7.5        531.7      2.5        0.1707     7.9        ";
    "3.56       0.087      0.000413   3.2        7.8        8.4        536.1      2.5        0.2214     8.8        ";
    "3.661      0.087      0.000614   3.0        7.2        7.8        541.7      2.5        0.3326     8.2        ";
    "3.761      0.082      0.0007917  2.9        8.4        8.9        544.3      2.5        0.4309     9.2        ";
    "3.861      0.084      0.001281   2.8        5.9        6.5        544.9      2.5        0.6979     7.0        ";
    "3.861      0.084      0.001282   2.8        5.9        6.5        544.9      2.5        0.6986     7.0        ";
    "3.962      0.081      0.001348   2.8        4.9        5.6        545.5      2.5        0.7353     6.1        ";
    "4.063      0.081      0.001552   2.8        5.1        5.8        546.3      2.4        0.8476     6.3        ";
    "4.264      0.075      0.001967   2.7        6.7        7.2        547.4      2.4        1.007      7.6        ";
    "4.464      0.076      0.002692   2.7        5.2        5.9        549.0      2.4        1.478      6.4        ";
    "4.664      0.076      0.004136   2.8        4.7        5.5        544.0      2.4        2.25       6.0        ";
    "4.865      0.076      0.004996   2.8        4.8        5.6        537.6      2.4        2.686      6.1        ";
    "ENDDATA             20"]));
  ("DATA repr", (d <- X4DataSection (lit "DATA") (split_char nl (text ["DATA                10         18"; "EN         EN-RSL-FW  DATA      1ERR-S      ERR-1     1ERR-T     1"; "MONIT     2MONIT-ERR 2DATA      2ERR-T     2"; "MEV        MEV        NO-DIM     PER-CENT   PER-CENT   PER-CENT"; "MB         PER-CENT   MB         PER-CENT"; " 2.856      0.095      9.075  -06 47.9       15.6       50.4"; " 528.8      3.0        0.004799   50.5"; " 2.957      0.094      1.966  -05 20.6        9.2       22.6"; " 524.4      3.0        0.01031    22.8"; " 3.057      0.094      2.575  -05 15.9       20.1       25.6"; " 522.7      2.5        0.01346    25.7"; " 3.158      0.092      7.369  -05  6.7       15.5       16.9"; " 524.2      2.5        0.03863    17.1"; " 3.258      0.090      1.441  -04  4.9       11.2       12.2"; " 526.7      2.5        0.07588    12.5"; " 3.359      0.087      2.354  -04  3.6        8.1        8.9"; " 529.2      2.5        0.1246      9.2"; " 3.459      0.087      3.210  -04  3.4        6.7        7.5"; " 531.7      2.5        0.1707      7.9"; " 3.560      0.087      4.130  -04  3.2        7.8        8.4"; " 536.1      2.5        0.2214      8.8"; " 3.661      0.087      6.140  -04  3.0        7.2        7.8"; " 541.7      2.5        0.3326      8.2"; " 3.761      0.082      7.917  -04  2.9        8.4        8.9"; " 544.3      2.5        0.4309      9.2"; " 3.861      0.084      1.281  -03  2.8        5.9        6.5"; " 544.9      2.5        0.6979      7.0"; " 3.861      0.084      1.282  -03  2.8        5.9        6.5"; " 544.9      2.5        0.6986      7.0"; " 3.962      0.081      1.348  -03  2.8        4.9        5.6"; " 545.5      2.5        0.7353      6.1"; " 4.063      0.081      1.552  -03  2.8        5.1        5.8"; " 546.3      2.4        0.8476      6.3"; " 4.264      0.075      1.967  -03  2.7        6.7        7.2"; " 547.4      2.4        1.007       7.6"; " 4.464      0.076      2.692  -03  2.7        5.2        5.9"; " 549.0      2.4        1.478       6.4"; " 4.664      0.076      4.136  -03  2.8        4.7        5.5"; " 544.0      2.4        2.250       6.0"; " 4.865      0.076      4.996  -03  2.8        4.8        5.6"; " 537.6      2.4        2.686       6.1"; "ENDDATA             40"])) ;; Ok (data_repr d)),
    (text ["DATA                10         18";
    "EN         EN-RSL-FW  DATA      1ERR-S      ERR-1     1ERR-T     1MONIT     2MONIT-ERR 2DATA      2ERR-T     2";
    "MEV        MEV        NO-DIM     PER-CENT   PER-CENT   PER-CENT   MB         PER-CENT   MB         PER-CENT   ";
    "2.856      0.095      9.075  -06 47.9       15.6       50.4       528.8      3.0        0.004799   50.5       ";
    "2.957      0.094      1.966  -05 20.6       9.2        22.6       524.4      3.0        0.01031    22.8       ";
    "3.057      0.094      2.575  -05 15.9       20.1       25.6       522.7      2.5        0.01346    25.7       ";
    "3.158      0.092      7.369  -05 6.7        15.5       16.9       524.2      2.5        0.03863    17.1       ";
    "3.258      0.090      1.441  -04 4.9        11.2       12.2       526.7      2.5        0.07588    12.5       ";
    "3.359      0.087      2.354  -04 3.6        8.1        8.9        529.2      2.5        0.1246     9.2        ";
    "3.459      0.087      3.210  -04 3.4        6.7        7.5        531.7      2.5        0.1707     7.9        ";
    "3.560      0.087      4.130  -04 3.2        7.8        8.4        536.1      2.5        0.2214     8.8        ";
    "3.661      0.087      6.140  -04 3.0        7.2        7.8        541.7      2.5        0.3326     8.2        ";
    "3.761      0.082      7.917  -04 2.9        8.4        8.9        544.3      2.5        0.4309     9.2        ";
    "3.861      0.084      1.281  -03 2.8        5.9        6.5        544.9      2.5        0.6979     7.0        ";
    "3.861      0.084      1.282  -03 2.8        5.9        6.5        544.9      2.5        0.6986     7.0        ";
    "3.962      0.081      1.348  -03 2.8        4.9        5.6        545.5      2.5        0.7353     6.1        ";
    "4.063      0.081      1.552  -03 2.8        5.1        5.8        546.3      2.4        0.8476     6.3        ";
    "4.264      0.075      1.967  -03 2.7        6.7        7.2        547.4      2.4        1.007      7.6        ";
    "4.464      0.076      2.692  -03 2.7        5.2        5.9        549.0      2.4        1.478      6.4        ";
    "4.664      0.076      4.136  -03 2.8        4.7        5.5        544.0      2.4        2.250      6.0        ";
    "4.865      0.076      4.996  -03 2.8        4.8        5.6        537.6      2.4        2.686      6.1        ";
    "ENDDATA             20"]));
  ("DATA csv", (d <- X4DataSection (lit "DATA") (split_char nl (text ["DATA                10         18"; "EN         EN-RSL-FW  DATA      1ERR-S      ERR-1     1ERR-T     1"; "MONIT     2MONIT-ERR 2DATA      2ERR-T     2"; "MEV        MEV        NO-DIM     PER-CENT   PER-CENT   PER-CENT"; "MB         PER-CENT   MB         PER-CENT"; " 2.856      0.095      9.075  -06 47.9       15.6       50.4"; " 528.8      3.0        0.004799   50.5"; " 2.957      0.094      1.966  -05 20.6        9.2       22.6"; " 524.4      3.0        0.01031    22.8"; " 3.057      0.094      2.575  -05 15.9       20.1       25.6"; " 522.7      2.5        0.01346    25.7"; " 3.158      0.092      7.369  -05  6.7       15.5       16.9"; " 524.2      2.5        0.03863    17.1"; " 3.258      0.090      1.441  -04  4.9       11.2       12.2"; " 526.7      2.5        0.07588    12.5"; " 3.359      0.087      2.354  -04  3.6        8.1        8.9"; " 529.2      2.5        0.1246      9.2"; " 3.459      0.087      3.210  -04  3.4        6.7        7.5"; " 531.7      2.5        0.1707      7.9"; " 3.560      0.087      4.130  -04  3.2        7.8        8.4"; " 536.1      2.5        0.2214      8.8"; " 3.661      0.087      6.140  -04  3.0        7.2        7.8"; " 541.7      2.5        0.3326      8.2"; " 3.761      0.082      7.917  -04  2.9        8.4        8.9"; " 544.3      2.5        0.4309      9.2"; " 3.861      0.084      1.281  -03  2.8        5.9        6.5"; " 544.9      2.5        0.6979      7.0"; " 3.861      0.084      1.282  -03  2.8        5.9        6.5"; " 544.9      2.5        0.6986      7.0"; " 3.962      0.081      1.348  -03  2.8        4.9        5.6"; " 545.5      2.5        0.7353      6.1"; " 4.063      0.081      1.552  -03  2.8        5.1        5.8"; " 546.3      2.4        0.8476      6.3"; " 4.264      0.075      1.967  -03  2.7        6.7        7.2"; " 547.4      2.4        1.007       7.6"; " 4.464      0.076      2.692  -03  2.7        5.2        5.9"; " 549.0      2.4        1.478       6.4"; " 4.664      0.076      4.136  -03  2.8        4.7        5.5"; " 544.0      2.4        2.250       6.0"; " 4.865      0.076      4.996  -03  2.8        4.8        5.6"; " 537.6      2.4        2.686       6.1"; "ENDDATA             40"])) ;; Ok (csv_lines (section_csv repr_float d))),
    (text ["EN,EN-RSL-FW,DATA      1,ERR-S,ERR-1     1,ERR-T     1,MONIT     2,MONIT-ERR 2,DATA      2,ERR-T     2";
    "MEV,MEV,NO-DIM,PER-CENT,PER-CENT,PER-CENT,MB,PER-CENT,MB,PER-CENT";
    "2.856,0.095,9.075e-06,47.9,15.6,50.4,528.8,3.0,0.004799,50.5";
    "2.957,0.094,1.966e-05,20.6,9.2,22.6,524.4,3.0,0.01031,22.8";
    "3.057,0.094,2.575e-05,15.9,20.1,25.6,522.7,2.5,0.01346,25.7";
    "3.158,0.092,7.369e-05,6.7,15.5,16.9,524.2,2.5,0.03863,17.1";
    "3.258,0.09,0.0001441,4.9,11.2,12.2,526.7,2.5,0.07588,12.5";
    "3.359,0.087,0.0002354,3.6,8.1,8.9,529.2,2.5,0.1246,9.2";
    "3.459,0.087,0.000321,3.4,6.7,7.5,531.7,2.5,0.1707,7.9";
    "3.56,0.087,0.000413,3.2,7.8,8.4,536.1,2.5,0.2214,8.8";
    "3.661,0.087,0.000614,3.0,7.2,7.8,541.7,2.5,0.3326,8.2";
    "3.761,0.082,0.0007917,2.9,8.4,8.9,544.3,2.5,0.4309,9.2";
    "3.861,0.084,0.001281,2.8,5.9,6.5,544.9,2.5,0.6979,7.0";
    "3.861,0.084,0.001282,2.8,5.9,6.5,544.9,2.5,0.6986,7.0";
    "3.962,0.081,0.001348,2.8,4.9,5.6,545.5,2.5,0.7353,6.1";
    "4.063,0.081,0.001552,2.8,5.1,5.8,546.3,2.4,0.8476,6.3";
    "4.264,0.075,0.001967,2.7,6.7,7.2,547.4,2.4,1.007,7.6";
    "4.464,0.076,0.002692,2.7,5.2,5.9,549.0,2.4,1.478,6.4";
    "4.664,0.076,0.004136,2.8,4.7,5.5,544.0,2.4,2.25,6.0";
    "4.865,0.076,0.004996,2.8,4.8,5.6,537.6,2.4,2.686,6.1";
    ""]));
  ("DATA len", (d <- X4DataSection (lit "DATA") (split_char nl (text ["DATA                10         18"; "EN         EN-RSL-FW  DATA      1ERR-S      ERR-1     1ERR-T     1"; "MONIT     2MONIT-ERR 2DATA      2ERR-T     2"; "MEV        MEV        NO-DIM     PER-CENT   PER-CENT   PER-CENT"; "MB         PER-CENT   MB         PER-CENT"; " 2.856      0.095      9.075  -06 47.9       15.6       50.4"; " 528.8      3.0        0.004799   50.5"; " 2.957      0.094      1.966  -05 20.6        9.2       22.6"; " 524.4      3.0        0.01031    22.8"; " 3.057      0.094      2.575  -05 15.9       20.1       25.6"; " 522.7      2.5        0.01346    25.7"; " 3.158      0.092      7.369  -05  6.7       15.5       16.9"; " 524.2      2.5        0.03863    17.1"; " 3.258      0.090      1.441  -04  4.9       11.2       12.2"; " 526.7      2.5        0.07588    12.5"; " 3.359      0.087      2.354  -04  3.6        8.1        8.9"; " 529.2      2.5        0.1246      9.2"; " 3.459      0.087      3.210  -04  3.4        6.7        7.5"; " 531.7      2.5        0.1707      7.9"; " 3.560      0.087      4.130  -04  3.2        7.8        8.4"; " 536.1      2.5        0.2214      8.8"; " 3.661      0.087      6.140  -04  3.0        7.2        7.8"; " 541.7      2.5        0.3326      8.2"; " 3.761      0.082      7.917  -04  2.9        8.4        8.9"; " 544.3      2.5        0.4309      9.2"; " 3.861      0.084      1.281  -03  2.8        5.9        6.5"; " 544.9      2.5        0.6979      7.0"; " 3.861      0.084      1.282  -03  2.8        5.9        6.5"; " 544.9      2.5        0.6986      7.0"; " 3.962      0.081      1.348  -03  2.8        4.9        5.6"; " 545.5      2.5        0.7353      6.1"; " 4.063      0.081      1.552  -03  2.8        5.1        5.8"; " 546.3      2.4        0.8476      6.3"; " 4.264      0.075      1.967  -03  2.7        6.7        7.2"; " 547.4      2.4        1.007       7.6"; " 4.464      0.076      2.692  -03  2.7        5.2        5.9"; " 549.0      2.4        1.478       6.4"; " 4.664      0.076      4.136  -03  2.8        4.7        5.5"; " 544.0      2.4        2.250       6.0"; " 4.865      0.076      4.996  -03  2.8        4.8        5.6"; " 537.6      2.4        2.686       6.1"; "ENDDATA             40"])) ;; n <- data_len d ;; Ok (z_to_str n)),
    (text ["18"]))].

Definition all_cases (_ : unit) := let ds := dicts tt in failures (cases (the_env ds) (the_names ds)).
Check (@eq_refl (list string) [] <: all_cases tt = []).
