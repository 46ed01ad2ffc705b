(** x4i3/tests/test_exfor_dataset.py: the simplified data sets of four entries of x4i3/tests/data/db,
    appended to one another in the order of their keys and sorted. *)
From Coq Require Import String List Ascii NArith ZArith SpecFloat Bool Arith.
From Verif.Model Require Import Py PyFloat Dicts Particle Pyparsing Grammars Shipped ShippedDicts Reaction Field Section Columns Entry Dataset Csv Repr Print.
From Verif.Conformance Require Import Setup.
Import ListNotations.
Local Open Scope string_scope.
Local Open Scope list_scope.
Local Open Scope nat_scope.

Definition ent13883 : list str := [
  (text ["SUBENT        13883001   20031104   20031222   20050926       0000";
    "BIB                  8         12";
    "INSTITUTE  (1USALRL)";
    "REFERENCE  (J,RCA,90,833,2002)";
    "AUTHOR     (R.W.Lougheed,W.Webster,M.N.Namboodiri,D.R.Nethaway,";
    "           K.J.Moody,J.H.Landrum,R.W.Hoff,R.J.Dupzyk,J.H.McQuaid,";
    "           R.Gunnink,E.D.Watkins)";
    "TITLE      239Pu and 241Am(n,2n) cross-section measurements near";
    "            E(n) = 14 MeV";
    "FACILITY   (ICTR,1USALRL)";
    "INC-SOURCE (D-T)";
    "STATUS     Data taken from table in reference.";
    "           No reply from R.W.Lougheed to author proof.";
    "HISTORY    (20030910C)";
    "ENDBIB              12";
    "NOCOMMON             0          0";
    "ENDSUBENT           15";
    ""]);
  (text ["SUBENT        13883002   20030911   20031222   20050926       0000";
    "BIB                  8         19";
    "REACTION   (94-PU-239(N,2N)94-PU-238,,SIG)";
    "SAMPLE     High purity mass-separated 239Pu sample with";
    "            238Pu/239Pu ratio of about 6E-10.";
    "METHOD     (CHSEP) Irradiated samples dissolved and ion-exchange";
    "            spearations performed using Dowex anion-exchange";
    "            resin to remove any excess mass. Resulting Pu";
    "            fractions electroplated onto Pt disks, which were";
    "            heated to fix deposits.";
    "           (ACTIV) Counts performed for 1 year after irradiation.";
    "MONITOR    (79-AU-197(N,2N)79-AU-196,,SIG) Flux monitor.";
    "           Neutron energy determined using 54Fe(n,p) reaction.";
    "DECAY-DATA (94-PU-238,87.75YR,A,5500.)";
    "           (94-PU-239,2.41E+4YR)";
    "CORRECTION Data corrected for pileup in alpha spectrum and";
    "            for background.";
    "ERR-ANALYS (DATA-ERR) Uncertainties given include counting errors";
    "            from determining 238Pu/239Pu ratios, and neutron";
    "            fluence errors.";
    "EXP-YEAR   (1978) Irradiations in 1977 and 1978.";
    "ENDBIB              19";
    "NOCOMMON             0          0";
    "DATA                 4          3";
    "EN         DATA       DATA-ERR   MONIT";
    "MEV        MB         PER-CENT   MB";
    " 13.8      228.         2.8      2112.";
    " 14.0      219.         3.6      2112.";
    " 14.8      214.         1.4      2136.";
    "ENDDATA              5";
    "ENDSUBENT           29";
    ""])].
Definition ent14129 : list str := [
  (text ["SUBENT        14129001   20070404   20070719   20070713       1343";
    "BIB                 12         20";
    "INSTITUTE  (1USALAS,1USALRL)";
    "REFERENCE  (J,NSTS,2,(1),620,2002)";
    "AUTHOR     (J.A.Becker,L.A.Bernstein,W.Younes,D.P.McNabb,";
    "            P.E.Garrett,D.E.Archer,C.A.McGrath,M.A.Stoyer,H.Chen,";
    "            W.E.Ormand,R.O.Nelson,M.B.Chadwick,G.D.Johns,D.Drake,";
    "            P.G.Young,M.Devlin,N.Fotiades,W.S.Wilburn)";
    "TITLE      Partial gamma-ray cross sections for the reaction";
    "           239Pu(n,2ng) and the 239Pu(n,2n) cross section";
    "FACILITY   (ACCEL,1USALAS) LANSCE accelerator at Los Alamos";
    "INC-SPECT  WNR center, spallation target, Flight path 60R, 20.34 m";
    "DETECTOR   (GE) GEANIE detector, 4pi Germanium";
    "SAMPLE     High enriched 239Pu target, low 241Am contaminant (";
    "            1.2 +/- 0.5 ppm)";
    "METHOD     (TOF)";
    "           Partial reaction measured. Total (n,2n) reconstructed";
    "            with GNASH calculations";
    "ANALYSIS   Preliminary Results";
    "MONITOR    238U and 235U fission chamber used as neutron flux";
    "            monitor";
    "HISTORY    (20070404C) DR";
    "ENDBIB              20";
    "NOCOMMON             0          0";
    "ENDSUBENT           23";
    ""]);
  (text ["SUBENT        14129002   20070404   20070719   20070713       1343";
    "BIB                  3          3";
    "REACTION   (94-PU-239(N,2N)94-PU-238,,SIG)";
    "ERR-ANALYS (ERR-T) Total uncertainties";
    "STATUS     (CURVE) Data taken from Fig. 2";
    "ENDBIB               3";
    "NOCOMMON             0          0";
    "DATA                 4         13";
    "EN         EN-ERR     DATA       ERR-T";
    "MEV        MEV        B          B";
    "  6.481E+00  2.239E-01  1.009E-01  3.081E-02";
    "  6.942E+00  1.894E-01  1.261E-01  2.015E-02";
    "  7.490E+00  2.412E-01  1.525E-01  1.422E-02";
    "  8.084E+00  2.582E-01  2.263E-01  1.540E-02";
    "  8.751E+00  2.930E-01  2.669E-01  1.659E-02";
    "  9.504E+00  3.446E-01  3.029E-01  1.659E-02";
    "  1.034E+01  3.961E-01  3.508E-01  2.014E-02";
    "  1.134E+01  4.307E-01  3.561E-01  2.015E-02";
    "  1.245E+01  5.340E-01  2.951E-01  1.776E-02";
    "  1.377E+01  6.030E-01  2.284E-01  1.539E-02";
    "  1.533E+01  7.231E-01  1.558E-01  1.540E-02";
    "  1.719E+01  8.438E-01  1.178E-01  8.262E-03";
    "  1.934E+01  1.068E+00  1.025E-01  7.097E-03";
    "ENDDATA             15";
    "ENDSUBENT           23";
    ""])].
Definition ent20795 : list str := [
  (text ["SUBENT        20795001     840207              20050926       0000";
    "BIB                 13         52";
    "INSTITUTE  (2UK ALD)";
    "REFERENCE  (R,AWRE-O-72/72,,7211) SAME AS EANDC(UK)142-AL";
    "           (R,AWRE-O-47/69,,6908) FOR DETECTOR DESCRIPTION";
    "AUTHOR     (D.S.MATHER,P.F.BAMPTON,R.E.COLES,G.JAMES,P.J.NIND)";
    "TITLE      -MEASUREMENT OF (N,2N) CROSS SECTIONS FOR INCIDENT";
    "            ENERGIES BETWEEN 6 AND 14 MEV-.";
    "FACILITY   (VDG  ) 6MV VAN DE GRAAFF. 1 MICRO-SEC PULSES AT";
    "            9KHZ BY A TOP TERMINAL PULSER.";
    "INC-SOURCE (D-T  ) FOR 14.3 MEV MEASUREMENTS NEUTRONS WERE";
    "            PRODUCED BY THE T(D,N) REACTION ON A 2.5MG/CM*2";
    "            THICK TI-T TARGET WITH 2 MEV DEUTERONS AND A";
    "            COLLIMATOR ANGLE OF 97 DEG TO THE FORWARD DIRECTION";
    "            ENERGY SPREAD ABOUT 200 KEV.";
    "              FOR 12.4 MEV NEUTRONS THE COLLIMATOR WAS TURNED";
    "            TO 145 DEGREES, AND 3.5MEV DEUTERONS. EFFECTIVE";
    "            TARGET THICKNESS WAS 12.5 MG/CM*2 GIVING A NEUTRON";
    "            SPECTRUM BETWEEN 12.35 AND 12.52 MEV,MEAN 12.4MEV";
    "           (D-D  ) FOR 6 TO 9MEV NEUTRONS THE D(D,N) REACTION";
    "            AND A DEUTERIUM GAS CELL WERE USED. COLLIMATOR AT";
    "            5 DEGREES AND 2MM APERTURE. THE 3.2 MG/CM*2 MO";
    "            WINDOW TO THE GAS CELL ACCOUTED FOR 140 TO 180KEV";
    "            LOSS IN NEUTRON ENERGY. NEUTRON ENERGY SPREAD OF";
    "            60 TO 100KEV.";
    "METHOD     .THE NUMBER OF 20 MICRO-SEC GATES AFTER A NEUTRON";
    "            PULSE CONTAINING 2 OR 3 PULSES FROM NEUTRON";
    "            CAPTURE IN THE SCINTILLATOR.";
    "DETECTOR   (STANK) LARGE LOADED LIQUID SCINTILLATOR DESCRIBED";
    "            IN PR/B 133 1403 1964";
    "PART-DET   (N    ) NEUTRONS DETECTED IN LARGE LOADED LIQ SCIN";
    "STATUS     .FROM TABLES IN AWRE O72/72";
    "HISTORY    (781013C) PDJ. RECOMPILED FROM NEUDADA.";
    "           (790219E)";
    "CORRECTION .CORRECTION DESCRIBED IN DETAIL IN AWRE-O47/69.";
    "            SAMPLE COMPOSITION AND IMPURITIES.";
    "            NEUTRON FLUX ATTENUATION IN SAMPLE AND THE U-238";
    "            MONITOR BLOCK";
    "            PRESENCE OF LOWER ENERGY NEUTRONS IN INCIDENT BEAM";
    "            MULTIPLE EVENTS IN BEAM BURST, DOUBLE FISSIONS";
    "            THE EFFECT OF NEUTRON ENERGY SPREAD ON STANDARD";
    "            FISSION CROSS SECTIONS.";
    "            LOSS OF SECONDARY NEUTRONS IN THE SAMPLE.";
    "            NON-UNIFORM ENERGY RESPONSE OF THE LIQUID SCINT.";
    "            MULTIPLE EVENTS IN BEAM BURST, NEUTRON PULSES";
    "            FINITE SIZE OF SAMPLE";
    "            CHANGE IN COUNTER EFFICIENCY WITH SAMPLE (LT 0.2PC)";
    "            REACTIONS IN SAMPLE HOLDERS";
    "            PRODUCTION OF (N,2N) EVENTS IN STEEL TUBES.";
    "            LOSS OF NEUTRONS THROUGH AXIAL HOLE.";
    "ERR-ANALYS .ERROR CONTRIBUTIONS FROM NEUTRON FISSION";
    "            MULTIPLICITIES WERE INCLUDED WITH COUNTING";
    "            STATISTICAL UNCERTAINTIES.TOTAL ERROR QUOTED IS";
    "            ONE STANDARD DEVIATION.";
    "ENDBIB              52";
    "NOCOMMON             0          0";
    "ENDSUBENT           55";
    ""]);
  (text ["SUBENT        20795014     840207              20050926       0000";
    "BIB                  6         20";
    "REACTION   (94-PU-239(N,2N)94-PU-238,,SIG)";
    "SAMPLE     .METAL CLAD IN 0.25 MM ALUMINIUM";
    "            COMPOSITION   4 PERCENT AL ALLOY";
    "                        99.4 PERCENT PU-239";
    "                         0.6 PERCENT PU-240";
    "MONITOR    (94-PU-239(N,F),,SIG)  1917MB+-8PERCENT  AT 6.5MEV";
    "                                  2030MB+-8.5PERCENT AT 7.1MEV";
    "                                  2213MB+-9PERCENT   AT 8.0MEV";
    "                                  2252MB+-9.5PERCENT AT 9.0MEV";
    "STATUS     .TABLE 6.";
    "HISTORY    (781015C) PDJ.";
    "           (790219E)";
    "CORRECTION .FISSION EVENTS OF MULTIPLICITY 2 AND 3 ARE";
    "            SUBTRACTED, THESE ARE DETERMINED WITH FISSION";
    "            CHAMBER. A CHECK WAS ALSO MADE WITH THE RESULTS";
    "            OF THE WORK OF SOLEILHAC ON FISSION MULTIPLICITIES.";
    "              TOTAL CORRECTIONS  -5  MB AT 6.5MEV";
    "                                 -11 MB AT 7.1MEV";
    "                                 -1  MB AT 8.0MEV";
    "                                 -11 MB AT 9.0MEV";
    "ENDBIB              20";
    "NOCOMMON             0          0";
    "DATA                 5          4";
    "EN         DATA       DATA-ERR   MONIT      MONIT-ERR";
    "MEV        MB         MB         MB         MB";
    " 6.5000E+00 4.1900E+02 5.3000E+01 1.9170E+03 1.4400E+02";
    " 7.1000E+00 4.5100E+02 6.0000E+01 2.0300E+03 1.7200E+02";
    " 8.0000E+00 4.9000E+02 5.7000E+01 2.2130E+03 2.0000E+02";
    " 9.0000E+00 5.1000E+02 9.0000E+01 2.2520E+03 2.1500E+02";
    "ENDDATA              6";
    "ENDSUBENT           31";
    ""]);
  (text ["SUBENT        20795015     840207              20050926       0000";
    "BIB                  6         14";
    "REACTION   (94-PU-239(N,2N)94-PU-238,,SIG)";
    "SAMPLE     .METAL CLAD IN 0.25 MM ALUMINIUM";
    "            COMPOSITION   4 PERCENT AL ALLOY";
    "                        99.4 PERCENT PU-239";
    "                         0.6 PERCENT PU-240";
    "MONITOR    (92-U-238(N,F),,SIG)  1027MB+-5PERCENT AT 13.1MEV";
    "STATUS     .TABLE 6.";
    "HISTORY    (781015C) PDJ.";
    "           (790219E)";
    "CORRECTION .FISSION EVENTS OF MULTIPLICITY 2 AND 3 ARE";
    "            SUBTRACTED, THESE ARE DETERMINED WITH FISSION";
    "            CHAMBER. A CHECK WAS ALSO MADE WITH THE RESULTS";
    "            OF THE WORK OF SOLEILHAC ON FISSION MULTIPLICITIES.";
    "              TOTAL CORRECTION   +69  MB AT 13.1MEV";
    "ENDBIB              14";
    "NOCOMMON             0          0";
    "DATA                 5          1";
    "EN         DATA       DATA-ERR   MONIT      MONIT-ERR";
    "MEV        MB         MB         MB         MB";
    " 1.3100E+01 6.4100E+02 3.8000E+01 1.0270E+03 5.1000E+01";
    "ENDDATA              3";
    "ENDSUBENT           22";
    ""])].
Definition ent21971 : list str := [
  (text ["SUBENT        21971001     860206              20050926       0000";
    "BIB                 13         18";
    "INSTITUTE  (2FR BRC)";
    "REFERENCE  ((J,RE,96,219,1986)=(C,85SANTA,2,1561,1985))";
    "AUTHOR     (J.FREHAUT,A.BERTIN,R.BLOIS,E.GRYNTAKIS,";
    "            C.A.PHILIS)";
    "TITLE      (N,2N) CROSS SECTIONS OF 2-H AND 239-PU";
    "FACILITY   (VDG)";
    "INC-SOURCE .NO INFORMATION";
    "METHOD     .NOT GIVEN";
    "DETECTOR   (STANK)LARGE GADOLINIUM LOADED LIQUID SCIN.";
    "MONITOR    .DETECTOR EFFICIENCY WAS CALIBRATED USING A  252-CF";
    "            SOURCE ASSUMING A VALUE OF NU=3.732. THIS VALUE WAS";
    "            MULTIPLIED BY A CORRECTION FACTOR RANGING FROM 0.92";
    "            TO 0.85 DPENDING ON ENERGY";
    "STATUS     .DATA TAKEN FROM PAPER RECIEVED FROM AUTHOR";
    "HISTORY    (850923C)HH.";
    "           (860106E)";
    "CORRECTION .NO INFORMATION";
    "ERR-ANALYS .NO INFORMATION";
    "ENDBIB              18";
    "NOCOMMON             0          0";
    "ENDSUBENT           21";
    ""]);
  (text ["SUBENT        21971003     860106              20050926       0000";
    "BIB                  3          4";
    "REACTION   (94-PU-239(N,2N)94-PU-238,,SIG)";
    "SAMPLE     .15.5 GRAMM OF 99.87 PER CENT ENRICHED PU-239";
    "HISTORY    (850923C)HH.";
    "           (860106E)";
    "ENDBIB               4";
    "NOCOMMON             0          0";
    "DATA                 4         14";
    "EN         EN-ERR     DATA       DATA-ERR";
    "MEV        MEV        MB         MB";
    " 6.4900E+00 8.5000E-02 2.4000E+01 6.3000E+01";
    " 7.0100E+00 8.0000E-02 4.9000E+01 5.0000E+01";
    " 7.5200E+00 7.5000E-02 5.4000E+01 5.8000E+01";
    " 8.0300E+00 7.5000E-02 1.7700E+02 7.0000E+01";
    " 8.5400E+00 7.0000E-02 2.7500E+02 5.4000E+01";
    " 9.0400E+00 6.5000E-02 2.4900E+02 4.1000E+01";
    " 9.5500E+00 6.5000E-02 3.5400E+02 5.6000E+01";
    " 1.0060E+01 6.0000E-02 4.1500E+02 3.9000E+01";
    " 1.0560E+01 6.0000E-02 4.1100E+02 7.0000E+01";
    " 1.1070E+01 5.5000E-02 3.5600E+02 7.9000E+01";
    " 1.1570E+01 5.5000E-02 4.1800E+02 4.9000E+01";
    " 1.2080E+01 5.5000E-02 4.5500E+02 7.6000E+01";
    " 1.2580E+01 5.0000E-02 3.1800E+02 1.3200E+02";
    " 1.3090E+01 5.0000E-02 5.8800E+02 1.4800E+02";
    "ENDDATA             16";
    "ENDSUBENT           25";
    ""])].

(** list.sort() of rows of numbers *)
Definition cell_num (c : dcell) : float := match c with VFloat x => x | _ => S754_zero false end.
Fixpoint row_le (a b : list dcell) : bool :=
  match a, b with
  | [], _ => true
  | _, [] => false
  | x :: a, y :: b => if fltb (cell_num x) (cell_num y) then true
                      else if feqb (cell_num x) (cell_num y) then row_le a b else false
  end.
Fixpoint insert_row (r : list dcell) (l : list (list dcell)) : list (list dcell) :=
  match l with [] => [r] | x :: l' => if row_le r x then r :: l else x :: insert_row r l' end.
Definition sort_rows (d : dataset) : dataset :=
  set_table d (mkTable (t_labels (ds_table d)) (t_units (ds_table d)) (fold_right insert_row [] (t_data (ds_table d)))) (ds_simplified d).

Definition all_sets (e : env) (nm : names) : res (list dataset) :=
  l <- map_res (fun raw => n <- X4Entry e raw ;;
                           '(ds, _, _, _) <- getSimplifiedDataSets nm (fun _ => None) true n [] store0 ;; Ok (map snd ds))
               [ent13883; ent14129; ent20795; ent21971] ;;
  Ok (concat l).
Definition appended (e : env) (nm : names) : res str :=
  ds <- all_sets e nm ;;
  d <- fold_res (append nm false) ds (empty_dataset DataSet [] None None) ;;
  Ok (last (split_str (lit "#        Energy") (strip (table_str (ds_table (sort_rows d))))) []).
Definition cases (e : env) (nm : names) : list (string * res str * str) := [
  ("test_append", appended e nm,
   (text ["        Data          d(Energy)     d(Data)       ";
    "#        MeV           barns         MeV           barns         ";
    "        6.481         0.1009        0.2239        0.03081       ";
    "        6.49          0.024         0.085         0.063         ";
    "        6.5           0.419         0.0           0.053         ";
    "        6.942         0.1261        0.1894        0.02015       ";
    "        7.01          0.049         0.08          0.05          ";
    "        7.1           0.451         0.0           0.06          ";
    "        7.49          0.1525        0.2412        0.01422       ";
    "        7.52          0.054         0.075         0.058         ";
    "        8.0           0.49          0.0           0.057         ";
    "        8.03          0.177         0.075         0.07          ";
    "        8.084         0.2263        0.2582        0.0154        ";
    "        8.54          0.275         0.07          0.054         ";
    "        8.751         0.2669        0.293         0.01659       ";
    "        9.0           0.51          0.0           0.09          ";
    "        9.04          0.249         0.065         0.041         ";
    "        9.504         0.3029        0.3446        0.01659       ";
    "        9.55          0.354         0.065         0.056         ";
    "        10.06         0.415         0.06          0.039         ";
    "        10.34         0.3508        0.3961        0.02014       ";
    "        10.56         0.411         0.06          0.07          ";
    "        11.07         0.356         0.055         0.079         ";
    "        11.34         0.3561        0.4307        0.02015       ";
    "        11.57         0.418         0.055         0.049         ";
    "        12.08         0.455         0.055         0.076         ";
    "        12.45         0.2951        0.534         0.01776       ";
    "        12.58         0.318         0.05          0.132         ";
    "        13.09         0.588         0.05          0.148         ";
    "        13.1          0.641         0.0           0.038         ";
    "        13.77         0.2284        0.603         0.01539       ";
    "        13.8          0.228         0.0           0.006384      ";
    "        14.0          0.219         0.0           0.007884      ";
    "        14.8          0.214         0.0           0.002996      ";
    "        15.33         0.1558        0.7231        0.0154        ";
    "        17.19         0.1178        0.8438        0.008262      ";
    "        19.34         0.1025        1.068         0.007097"]))].

Definition all_cases (_ : unit) := let ds := dicts tt in failures (cases (the_env ds) (the_names ds)).
Check (@eq_refl (list string) [] <: all_cases tt = []).
