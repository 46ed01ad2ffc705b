(** x4i3/tests/test_exfor_full_integration.py, with entries of x4i3/tests/data/db.  [acos] is a
    table of the cosines of these entries with the values of math.acos. *)
From Coq Require Import String List Ascii NArith ZArith SpecFloat Bool Arith.
From Verif.Model Require Import Py PyFloat Dicts Particle Pyparsing Grammars Shipped ShippedDicts Reaction Field Section Columns Entry Dataset Csv Repr Print.
From Verif.Conformance Require Import Setup.
Import ListNotations.
Local Open Scope string_scope.
Local Open Scope list_scope.
Local Open Scope nat_scope.

Definition entE0783 : list str := [
  (text ["SUBENT        E0783001   20040622              20050926       0000";
    "BIB                 10         19";
    "TITLE       ACCELERATION OF PROTONS AND DEUTERONS POLARIZED IN";
    "            THE HORIZONTAL PLANEBY THE RCNP CYCLOTRON";
    "AUTHOR     (K.HATANAKA,N.MATSUOKA,H.SAKAI,T.SAITO,H.TAMURA,";
    "           K.HOSONO,M.KONDO,K.IMAI,H.SHIMIZU,K.NISHIMURA)";
    "INSTITUTE  (2JPNOSA) RESEARCH CENTER FOR NUCLEAR PHYSICS, OSAKA";
    "            UNIV.";
    "           (2JPNKTO)";
    "REFERENCE  (J,NIM,217,397,1983)";
    "FACILITY   (CYCLO,2JPNOSA)";
    "INC-SOURCE  BEAM-INTENSITY IS 0.5NA";
    "            BEAM-POLARIZATION IS NOT GIVEN";
    "           (ATOMI) with a Wien filter";
    "SAMPLE      TARGET IS NOT POLARIZED";
    "            TARGET IS NOT ALIGNED";
    "PART-DET   (D)";
    "STATUS     (CURVE) DATA TAKEN FROM GRAPH";
    "HISTORY    (19881027T) CONVERTED FROM NRDF DATA NO. D783";
    "           (20040401A) Author's name is corrected. Code is added";
    "                       into INC-SOURCE. E-EXC=0.0 MeV is deleted.";
    "ENDBIB              19";
    "COMMON               1          3";
    "EN";
    "MEV";
    "56.";
    "ENDCOMMON            3";
    "ENDSUBENT           26";
    ""]);
  (text ["SUBENT        E0783002   20040622              20050926       0000";
    "BIB                  4          5";
    "REACTION   (1-H-1(D,EL)1-H-1,SL,POL/DA,,ANA)";
    "FLAG       (1.) DATA ERROR IS SMALLER THAN DATA POINT";
    "ERR-ANALYS (DATA-ERR) Uncertainty scanned from figure";
    "HISTORY    (20040401A) Quantity code is correcetd.";
    "                       ERR-ANALYS is added.";
    "ENDBIB               5";
    "NOCOMMON             0          0";
    "DATA                 4         24";
    "ANG-CM     DATA       DATA-ERR   FLAG";
    "ADEG       NO-DIM     NO-DIM     NO-DIM";
    "     30.712 -2.211E-03                    1.";
    "     38.727 -5.861E-03  0.821E-02";
    "     46.135  1.022E-02                    1.";
    "     55.814  4.098E-02                    1.";
    "     64.866  7.998E-02                    1.";
    "     69.415  1.126E-01                    1.";
    "     74.316  1.633E-01  0.147E-01";
    "     79.924  2.517E-01  0.115E-01";
    "     84.442  2.663E-01  0.131E-01";
    "     89.661  3.153E-01  0.821E-02";
    "     94.181  3.315E-01  0.164E-01";
    "     99.114  4.003E-01  0.115E-01";
    "    104.318  4.411E-01  0.131E-01";
    "    109.841  4.802E-01  0.132E-01";
    "    115.135  3.880E-01  0.132E-01";
    "    120.355  2.531E-01  0.131E-01";
    "    125.595 -5.416E-02  0.214E-01";
    "    129.340 -2.990E-01  0.197E-01";
    "    134.447 -3.140E-01  0.180E-01";
    "    139.629 -1.024E-01  0.197E-01";
    "    145.538 -2.551E-02  0.148E-01";
    "    150.255  1.040E-01  0.246E-01";
    "    155.357  8.570E-02  0.246E-01";
    "    160.562  1.265E-01  0.197E-01";
    "ENDDATA             26";
    "ENDSUBENT           36";
    ""])].
Definition ent13883 : list str := [
  (text ["SUBENT        13883001   20031104   20031222   20050926       0000";
    "BIB                  8         12";
    "INSTITUTE  (1USALRL)";
    "REFERENCE  (J,RCA,90,833,2002)";
    "AUTHOR     (R.W.Lougheed,W.Webster,M.N.Namboodiri,D.R.Nethaway,";
    "           K.J.Moody,J.H.Landrum,R.W.Hoff,R.J.Dupzyk,J.H.McQuaid,";
    "           R.Gunnink,E.D.Watkins)";
    "TITLE      239Pu and 241Am(n,2n) cross-section measurements near";
    "            E(n) = 14 MeV";
    "FACILITY   (ICTR,1USALRL)";
    "INC-SOURCE (D-T)";
    "STATUS     Data taken from table in reference.";
    "           No reply from R.W.Lougheed to author proof.";
    "HISTORY    (20030910C)";
    "ENDBIB              12";
    "NOCOMMON             0          0";
    "ENDSUBENT           15";
    ""]);
  (text ["SUBENT        13883002   20030911   20031222   20050926       0000";
    "BIB                  8         19";
    "REACTION   (94-PU-239(N,2N)94-PU-238,,SIG)";
    "SAMPLE     High purity mass-separated 239Pu sample with";
    "            238Pu/239Pu ratio of about 6E-10.";
    "METHOD     (CHSEP) Irradiated samples dissolved and ion-exchange";
    "            spearations performed using Dowex anion-exchange";
    "            resin to remove any excess mass. Resulting Pu";
    "            fractions electroplated onto Pt disks, which were";
    "            heated to fix deposits.";
    "           (ACTIV) Counts performed for 1 year after irradiation.";
    "MONITOR    (79-AU-197(N,2N)79-AU-196,,SIG) Flux monitor.";
    "           Neutron energy determined using 54Fe(n,p) reaction.";
    "DECAY-DATA (94-PU-238,87.75YR,A,5500.)";
    "           (94-PU-239,2.41E+4YR)";
    "CORRECTION Data corrected for pileup in alpha spectrum and";
    "            for background.";
    "ERR-ANALYS (DATA-ERR) Uncertainties given include counting errors";
    "            from determining 238Pu/239Pu ratios, and neutron";
    "            fluence errors.";
    "EXP-YEAR   (1978) Irradiations in 1977 and 1978.";
    "ENDBIB              19";
    "NOCOMMON             0          0";
    "DATA                 4          3";
    "EN         DATA       DATA-ERR   MONIT";
    "MEV        MB         PER-CENT   MB";
    " 13.8      228.         2.8      2112.";
    " 14.0      219.         3.6      2112.";
    " 14.8      214.         1.4      2136.";
    "ENDDATA              5";
    "ENDSUBENT           29";
    ""])].
Definition ent21971 : list str := [
  (text ["SUBENT        21971001     860206              20050926       0000";
    "BIB                 13         18";
    "INSTITUTE  (2FR BRC)";
    "REFERENCE  ((J,RE,96,219,1986)=(C,85SANTA,2,1561,1985))";
    "AUTHOR     (J.FREHAUT,A.BERTIN,R.BLOIS,E.GRYNTAKIS,";
    "            C.A.PHILIS)";
    "TITLE      (N,2N) CROSS SECTIONS OF 2-H AND 239-PU";
    "FACILITY   (VDG)";
    "INC-SOURCE .NO INFORMATION";
    "METHOD     .NOT GIVEN";
    "DETECTOR   (STANK)LARGE GADOLINIUM LOADED LIQUID SCIN.";
    "MONITOR    .DETECTOR EFFICIENCY WAS CALIBRATED USING A  252-CF";
    "            SOURCE ASSUMING A VALUE OF NU=3.732. THIS VALUE WAS";
    "            MULTIPLIED BY A CORRECTION FACTOR RANGING FROM 0.92";
    "            TO 0.85 DPENDING ON ENERGY";
    "STATUS     .DATA TAKEN FROM PAPER RECIEVED FROM AUTHOR";
    "HISTORY    (850923C)HH.";
    "           (860106E)";
    "CORRECTION .NO INFORMATION";
    "ERR-ANALYS .NO INFORMATION";
    "ENDBIB              18";
    "NOCOMMON             0          0";
    "ENDSUBENT           21";
    ""]);
  (text ["SUBENT        21971003     860106              20050926       0000";
    "BIB                  3          4";
    "REACTION   (94-PU-239(N,2N)94-PU-238,,SIG)";
    "SAMPLE     .15.5 GRAMM OF 99.87 PER CENT ENRICHED PU-239";
    "HISTORY    (850923C)HH.";
    "           (860106E)";
    "ENDBIB               4";
    "NOCOMMON             0          0";
    "DATA                 4         14";
    "EN         EN-ERR     DATA       DATA-ERR";
    "MEV        MEV        MB         MB";
    " 6.4900E+00 8.5000E-02 2.4000E+01 6.3000E+01";
    " 7.0100E+00 8.0000E-02 4.9000E+01 5.0000E+01";
    " 7.5200E+00 7.5000E-02 5.4000E+01 5.8000E+01";
    " 8.0300E+00 7.5000E-02 1.7700E+02 7.0000E+01";
    " 8.5400E+00 7.0000E-02 2.7500E+02 5.4000E+01";
    " 9.0400E+00 6.5000E-02 2.4900E+02 4.1000E+01";
    " 9.5500E+00 6.5000E-02 3.5400E+02 5.6000E+01";
    " 1.0060E+01 6.0000E-02 4.1500E+02 3.9000E+01";
    " 1.0560E+01 6.0000E-02 4.1100E+02 7.0000E+01";
    " 1.1070E+01 5.5000E-02 3.5600E+02 7.9000E+01";
    " 1.1570E+01 5.5000E-02 4.1800E+02 4.9000E+01";
    " 1.2080E+01 5.5000E-02 4.5500E+02 7.6000E+01";
    " 1.2580E+01 5.0000E-02 3.1800E+02 1.3200E+02";
    " 1.3090E+01 5.0000E-02 5.8800E+02 1.4800E+02";
    "ENDDATA             16";
    "ENDSUBENT           25";
    ""])].
Definition ent20795 : list str := [
  (text ["SUBENT        20795001     840207              20050926       0000";
    "BIB                 13         52";
    "INSTITUTE  (2UK ALD)";
    "REFERENCE  (R,AWRE-O-72/72,,7211) SAME AS EANDC(UK)142-AL";
    "           (R,AWRE-O-47/69,,6908) FOR DETECTOR DESCRIPTION";
    "AUTHOR     (D.S.MATHER,P.F.BAMPTON,R.E.COLES,G.JAMES,P.J.NIND)";
    "TITLE      -MEASUREMENT OF (N,2N) CROSS SECTIONS FOR INCIDENT";
    "            ENERGIES BETWEEN 6 AND 14 MEV-.";
    "FACILITY   (VDG  ) 6MV VAN DE GRAAFF. 1 MICRO-SEC PULSES AT";
    "            9KHZ BY A TOP TERMINAL PULSER.";
    "INC-SOURCE (D-T  ) FOR 14.3 MEV MEASUREMENTS NEUTRONS WERE";
    "            PRODUCED BY THE T(D,N) REACTION ON A 2.5MG/CM*2";
    "            THICK TI-T TARGET WITH 2 MEV DEUTERONS AND A";
    "            COLLIMATOR ANGLE OF 97 DEG TO THE FORWARD DIRECTION";
    "            ENERGY SPREAD ABOUT 200 KEV.";
    "              FOR 12.4 MEV NEUTRONS THE COLLIMATOR WAS TURNED";
    "            TO 145 DEGREES, AND 3.5MEV DEUTERONS. EFFECTIVE";
    "            TARGET THICKNESS WAS 12.5 MG/CM*2 GIVING A NEUTRON";
    "            SPECTRUM BETWEEN 12.35 AND 12.52 MEV,MEAN 12.4MEV";
    "           (D-D  ) FOR 6 TO 9MEV NEUTRONS THE D(D,N) REACTION";
    "            AND A DEUTERIUM GAS CELL WERE USED. COLLIMATOR AT";
    "            5 DEGREES AND 2MM APERTURE. THE 3.2 MG/CM*2 MO";
    "            WINDOW TO THE GAS CELL ACCOUTED FOR 140 TO 180KEV";
    "            LOSS IN NEUTRON ENERGY. NEUTRON ENERGY SPREAD OF";
    "            60 TO 100KEV.";
    "METHOD     .THE NUMBER OF 20 MICRO-SEC GATES AFTER A NEUTRON";
    "            PULSE CONTAINING 2 OR 3 PULSES FROM NEUTRON";
    "            CAPTURE IN THE SCINTILLATOR.";
    "DETECTOR   (STANK) LARGE LOADED LIQUID SCINTILLATOR DESCRIBED";
    "            IN PR/B 133 1403 1964";
    "PART-DET   (N    ) NEUTRONS DETECTED IN LARGE LOADED LIQ SCIN";
    "STATUS     .FROM TABLES IN AWRE O72/72";
    "HISTORY    (781013C) PDJ. RECOMPILED FROM NEUDADA.";
    "           (790219E)";
    "CORRECTION .CORRECTION DESCRIBED IN DETAIL IN AWRE-O47/69.";
    "            SAMPLE COMPOSITION AND IMPURITIES.";
    "            NEUTRON FLUX ATTENUATION IN SAMPLE AND THE U-238";
    "            MONITOR BLOCK";
    "            PRESENCE OF LOWER ENERGY NEUTRONS IN INCIDENT BEAM";
    "            MULTIPLE EVENTS IN BEAM BURST, DOUBLE FISSIONS";
    "            THE EFFECT OF NEUTRON ENERGY SPREAD ON STANDARD";
    "            FISSION CROSS SECTIONS.";
    "            LOSS OF SECONDARY NEUTRONS IN THE SAMPLE.";
    "            NON-UNIFORM ENERGY RESPONSE OF THE LIQUID SCINT.";
    "            MULTIPLE EVENTS IN BEAM BURST, NEUTRON PULSES";
    "            FINITE SIZE OF SAMPLE";
    "            CHANGE IN COUNTER EFFICIENCY WITH SAMPLE (LT 0.2PC)";
    "            REACTIONS IN SAMPLE HOLDERS";
    "            PRODUCTION OF (N,2N) EVENTS IN STEEL TUBES.";
    "            LOSS OF NEUTRONS THROUGH AXIAL HOLE.";
    "ERR-ANALYS .ERROR CONTRIBUTIONS FROM NEUTRON FISSION";
    "            MULTIPLICITIES WERE INCLUDED WITH COUNTING";
    "            STATISTICAL UNCERTAINTIES.TOTAL ERROR QUOTED IS";
    "            ONE STANDARD DEVIATION.";
    "ENDBIB              52";
    "NOCOMMON             0          0";
    "ENDSUBENT           55";
    ""]);
  (text ["SUBENT        20795014     840207              20050926       0000";
    "BIB                  6         20";
    "REACTION   (94-PU-239(N,2N)94-PU-238,,SIG)";
    "SAMPLE     .METAL CLAD IN 0.25 MM ALUMINIUM";
    "            COMPOSITION   4 PERCENT AL ALLOY";
    "                        99.4 PERCENT PU-239";
    "                         0.6 PERCENT PU-240";
    "MONITOR    (94-PU-239(N,F),,SIG)  1917MB+-8PERCENT  AT 6.5MEV";
    "                                  2030MB+-8.5PERCENT AT 7.1MEV";
    "                                  2213MB+-9PERCENT   AT 8.0MEV";
    "                                  2252MB+-9.5PERCENT AT 9.0MEV";
    "STATUS     .TABLE 6.";
    "HISTORY    (781015C) PDJ.";
    "           (790219E)";
    "CORRECTION .FISSION EVENTS OF MULTIPLICITY 2 AND 3 ARE";
    "            SUBTRACTED, THESE ARE DETERMINED WITH FISSION";
    "            CHAMBER. A CHECK WAS ALSO MADE WITH THE RESULTS";
    "            OF THE WORK OF SOLEILHAC ON FISSION MULTIPLICITIES.";
    "              TOTAL CORRECTIONS  -5  MB AT 6.5MEV";
    "                                 -11 MB AT 7.1MEV";
    "                                 -1  MB AT 8.0MEV";
    "                                 -11 MB AT 9.0MEV";
    "ENDBIB              20";
    "NOCOMMON             0          0";
    "DATA                 5          4";
    "EN         DATA       DATA-ERR   MONIT      MONIT-ERR";
    "MEV        MB         MB         MB         MB";
    " 6.5000E+00 4.1900E+02 5.3000E+01 1.9170E+03 1.4400E+02";
    " 7.1000E+00 4.5100E+02 6.0000E+01 2.0300E+03 1.7200E+02";
    " 8.0000E+00 4.9000E+02 5.7000E+01 2.2130E+03 2.0000E+02";
    " 9.0000E+00 5.1000E+02 9.0000E+01 2.2520E+03 2.1500E+02";
    "ENDDATA              6";
    "ENDSUBENT           31";
    ""]);
  (text ["SUBENT        20795015     840207              20050926       0000";
    "BIB                  6         14";
    "REACTION   (94-PU-239(N,2N)94-PU-238,,SIG)";
    "SAMPLE     .METAL CLAD IN 0.25 MM ALUMINIUM";
    "            COMPOSITION   4 PERCENT AL ALLOY";
    "                        99.4 PERCENT PU-239";
    "                         0.6 PERCENT PU-240";
    "MONITOR    (92-U-238(N,F),,SIG)  1027MB+-5PERCENT AT 13.1MEV";
    "STATUS     .TABLE 6.";
    "HISTORY    (781015C) PDJ.";
    "           (790219E)";
    "CORRECTION .FISSION EVENTS OF MULTIPLICITY 2 AND 3 ARE";
    "            SUBTRACTED, THESE ARE DETERMINED WITH FISSION";
    "            CHAMBER. A CHECK WAS ALSO MADE WITH THE RESULTS";
    "            OF THE WORK OF SOLEILHAC ON FISSION MULTIPLICITIES.";
    "              TOTAL CORRECTION   +69  MB AT 13.1MEV";
    "ENDBIB              14";
    "NOCOMMON             0          0";
    "DATA                 5          1";
    "EN         DATA       DATA-ERR   MONIT      MONIT-ERR";
    "MEV        MB         MB         MB         MB";
    " 1.3100E+01 6.4100E+02 3.8000E+01 1.0270E+03 5.1000E+01";
    "ENDDATA              3";
    "ENDSUBENT           22";
    ""])].
Definition ent14129 : list str := [
  (text ["SUBENT        14129001   20070404   20070719   20070713       1343";
    "BIB                 12         20";
    "INSTITUTE  (1USALAS,1USALRL)";
    "REFERENCE  (J,NSTS,2,(1),620,2002)";
    "AUTHOR     (J.A.Becker,L.A.Bernstein,W.Younes,D.P.McNabb,";
    "            P.E.Garrett,D.E.Archer,C.A.McGrath,M.A.Stoyer,H.Chen,";
    "            W.E.Ormand,R.O.Nelson,M.B.Chadwick,G.D.Johns,D.Drake,";
    "            P.G.Young,M.Devlin,N.Fotiades,W.S.Wilburn)";
    "TITLE      Partial gamma-ray cross sections for the reaction";
    "           239Pu(n,2ng) and the 239Pu(n,2n) cross section";
    "FACILITY   (ACCEL,1USALAS) LANSCE accelerator at Los Alamos";
    "INC-SPECT  WNR center, spallation target, Flight path 60R, 20.34 m";
    "DETECTOR   (GE) GEANIE detector, 4pi Germanium";
    "SAMPLE     High enriched 239Pu target, low 241Am contaminant (";
    "            1.2 +/- 0.5 ppm)";
    "METHOD     (TOF)";
    "           Partial reaction measured. Total (n,2n) reconstructed";
    "            with GNASH calculations";
    "ANALYSIS   Preliminary Results";
    "MONITOR    238U and 235U fission chamber used as neutron flux";
    "            monitor";
    "HISTORY    (20070404C) DR";
    "ENDBIB              20";
    "NOCOMMON             0          0";
    "ENDSUBENT           23";
    ""]);
  (text ["SUBENT        14129002   20070404   20070719   20070713       1343";
    "BIB                  3          3";
    "REACTION   (94-PU-239(N,2N)94-PU-238,,SIG)";
    "ERR-ANALYS (ERR-T) Total uncertainties";
    "STATUS     (CURVE) Data taken from Fig. 2";
    "ENDBIB               3";
    "NOCOMMON             0          0";
    "DATA                 4         13";
    "EN         EN-ERR     DATA       ERR-T";
    "MEV        MEV        B          B";
    "  6.481E+00  2.239E-01  1.009E-01  3.081E-02";
    "  6.942E+00  1.894E-01  1.261E-01  2.015E-02";
    "  7.490E+00  2.412E-01  1.525E-01  1.422E-02";
    "  8.084E+00  2.582E-01  2.263E-01  1.540E-02";
    "  8.751E+00  2.930E-01  2.669E-01  1.659E-02";
    "  9.504E+00  3.446E-01  3.029E-01  1.659E-02";
    "  1.034E+01  3.961E-01  3.508E-01  2.014E-02";
    "  1.134E+01  4.307E-01  3.561E-01  2.015E-02";
    "  1.245E+01  5.340E-01  2.951E-01  1.776E-02";
    "  1.377E+01  6.030E-01  2.284E-01  1.539E-02";
    "  1.533E+01  7.231E-01  1.558E-01  1.540E-02";
    "  1.719E+01  8.438E-01  1.178E-01  8.262E-03";
    "  1.934E+01  1.068E+00  1.025E-01  7.097E-03";
    "ENDDATA             15";
    "ENDSUBENT           23";
    ""])].
Definition ent11321 : list str := [
  (text ["SUBENT        11321001   20110727   20111215   20111113       1374";
    "BIB                 13         39";
    "INSTITUTE  (1USAWES)";
    "REFERENCE  (J,PR,109,2105,1958)";
    "AUTHOR     (R.W.Hill)";
    "TITLE      Angular distributions of elastic scattering of 5-MeV";
    "           neutrons.";
    "FACILITY   (NGEN,1USAWES) electrostatic generator";
    "INC-SOURCE (D-D) The gas target chamber was 3.2 centimeters in";
    "           length and was separated from the vacuum system by";
    "           an aperture 3/16-in. in diameter covered with a";
    "           0.0001-in. thick nickel foil. A pump circulated the";
    "           deuterium through a cooling system and returned the";
    "           cold gas to the chamber through a jet aimed at the foil";
    "SAMPLE     Scatterers were cylinders two inches long with";
    "           diameters equal to approximately one-half of a mean";
    "           free path for 5-MeV neutrons, except oxygen and barium.";
    "DETECTOR   (SCIN) Biased scintillator. The neutron detector";
    "           consisted of twenty layers of plastic scintillator";
    "           0.001 inch thick separated by glass disks 0.050 inch";
    "           thick and 2 inches in diam., all mounted on an";
    "           RCA 6342 photomultiplier.";
    "CORRECTION The cross sections were corrected for the difference";
    "           in counter efficiency for the detection of the primary";
    "           and scattered neutrons, since momentum transfer to the";
    "           target nucleus reduces the energy of the scattered";
    "           neutrons.Also corrections were made for the attenuation";
    "           of the incident flux in the scatterers and for";
    "           multiple scattering.";
    "REL-REF    (M,,J.Blok+,J,PHY,18,809,1952) -method of the";
    "           multiple-scattering corrections calculation";
    "ERR-ANALYS (DATA-ERR) Statistical errors plus an estimation of";
    "                      the errors in the multiple scattering";
    "STATUS     (SCSRS)";
    "           (TABLE) data received in private comm., Hill, 1961/8.";
    "HISTORY    (19761014T) Translated from SCISRS";
    "           (19820324A) converted to reaction formalism";
    "           (20110727A) SD:Updated to new date formats,lower case.";
    "                corrected according to last EXFOR rules and Dict.";
    "                BIB updated. In Subent 010 SF4 in REACTION code";
    "                            changed according to the ref.";
    "ENDBIB              39";
    "COMMON               3          3";
    "EN         EN-RSL     ANG-RSL";
    "MEV        MEV        ADEG";
    " 5.         0.1        10.";
    "ENDCOMMON            3";
    "ENDSUBENT           46";
    ""]);
  (text ["SUBENT        11321004   20110727   20111215   20111113       1374";
    "BIB                  1          1";
    "REACTION   (13-AL-27(N,EL)13-AL-27,,DA)";
    "ENDBIB               1";
    "NOCOMMON             0          0";
    "DATA                 3         13";
    "COS        DATA       DATA-ERR";
    "NO-DIM     MB/SR      MB/SR";
    "  0.866     290.       30.";
    "  0.766     212.       10.";
    "  0.643     140.       10.";
    "  0.5        70.        9.";
    "  0.342      43.        6.";
    "  0.174      40.        5.";
    "  0.         30.        3.";
    " -0.174      30.        5.";
    " -0.342      25.        4.";
    " -0.5        20.        5.";
    " -0.643      22.        5.";
    " -0.766      22.        4.";
    " -0.866      25.        4.";
    "ENDDATA             15";
    "ENDSUBENT           21";
    ""])].
Definition ent11314 : list str := [
  (text ["SUBENT        11314001     810428              20050926       0000";
    "BIB                  6          8";
    "INSTITUTE  (1USAORL)";
    "REFERENCE  (J,PR,98,728,5505)";
    "AUTHOR     (J.L.FOWLER,C.H.JOHNSON)";
    "TITLE      DIFFERENTIAL ELASTIC SCATTERING CROSS SECTIONS FOR";
    "           NEUTRONS ON NITROGEN.";
    "STATUS     (SCSRS)";
    "HISTORY    (760714T) TRANSLATED FROM SCISRS";
    "           (810428A) CONVERTED TO REACTION FORMALISM";
    "ENDBIB               8";
    "NOCOMMON             0          0";
    "ENDSUBENT           11";
    ""]);
  (text ["SUBENT        11314002     810428              20050926       0000";
    "BIB                  3          4";
    "REACTION   (7-N-14(N,EL)7-N-14,,DA)";
    "DETECTOR   (PROPC)    PROPORTIONAL COUNTER";
    "STATUS     (CURVE) READ FROM CURVES RECEIVED IN PRIVATE";
    "            COMMUNICATION, FOWLER, 1955.";
    "ENDBIB               4";
    "NOCOMMON             0          0";
    "DATA                 4        332";
    "EN         EN-RSL     COS-CM     DATA-CM";
    "MEV        MEV        NO-DIM     MB/SR";
    " 8.00   -01 5.0    -02 0.85       1.64   +02";
    " 8.00   -01 5.0    -02 0.65       1.70   +02";
    " 8.00   -01 5.0    -02 0.46       1.57   +02";
    " 8.00   -01 5.0    -02 0.27000    1.67   +02";
    " 8.00   -01 5.0    -02 0.07       1.51   +02";
    " 8.00   -01 5.0    -02-0.11       1.56   +02";
    " 8.00   -01 5.0    -02-0.31       1.65   +02";
    " 8.00   -01 5.0    -02-0.51       1.43   +02";
    " 8.00   -01 5.0    -02-0.70       1.28   +02";
    " 9.70   -01 2.0    -02 0.49000    9.0    +01";
    " 9.70   -01 2.0    -02 0.45000    8.8    +01";
    " 9.70   -01 2.0    -02 0.42000    8.3    +01";
    " 9.70   -01 2.0    -02 0.39000    7.6    +01";
    " 9.70   -01 2.0    -02 0.36000    7.6    +01";
    " 9.70   -01 2.0    -02 0.31000    7.6    +01";
    " 9.70   -01 2.0    -02 0.28000    8.0    +01";
    " 9.70   -01 2.0    -02 0.24000    8.3    +01";
    " 9.70   -01 2.0    -02 0.20000    8.2    +01";
    " 9.70   -01 2.0    -02 0.17000    7.8    +01";
    " 9.70   -01 2.0    -02 0.14000    7.8    +01";
    " 9.70   -01 2.0    -02 0.10000    7.5    +01";
    " 9.70   -01 2.0    -02 0.06000    7.6    +01";
    " 9.70   -01 2.0    -02 0.02000    7.8    +01";
    " 9.70   -01 2.0    -02-0.0100     8.0    +01";
    " 9.70   -01 2.0    -02-0.0400     8.0    +01";
    " 9.70   -01 2.0    -02-0.0800     7.3    +01";
    " 9.70   -01 2.0    -02-0.1200     7.8    +01";
    " 9.70   -01 2.0    -02-0.1600     8.0    +01";
    " 9.70   -01 2.0    -02-0.1900     7.0    +01";
    " 9.70   -01 2.0    -02-0.2200     7.6    +01";
    " 9.70   -01 2.0    -02-0.2600     7.6    +01";
    " 9.70   -01 2.0    -02-0.3000     7.4    +01";
    " 9.70   -01 2.0    -02-0.3400     7.3    +01";
    " 9.70   -01 2.0    -02-0.3800     7.3    +01";
    " 9.70   -01 2.0    -02-0.4100     7.0    +01";
    " 9.70   -01 2.0    -02-0.4600     7.0    +01";
    " 9.70   -01 2.0    -02-0.4900     6.6    +01";
    " 9.70   -01 2.0    -02-0.5200     7.0    +01";
    " 9.70   -01 2.0    -02-0.5400     6.5    +01";
    " 9.70   -01 2.0    -02-0.5900     6.5    +01";
    " 9.70   -01 2.0    -02-0.6200     7.0    +01";
    " 9.70   -01 2.0    -02-0.6500     6.0    +01";
    " 9.70   -01 2.0    -02-0.6800     7.0    +01";
    " 9.70   -01 2.0    -02-0.7400     6.5    +01";
    " 9.70   -01 2.0    -02-0.7600     6.5    +01";
    " 9.70   -01 2.0    -02-0.8000     6.0    +01";
    " 9.70   -01 2.0    -02-0.8400     6.3    +01";
    " 9.70   -01 2.0    -02-0.8800     6.0    +01";
    " 9.70   -01 2.0    -02-0.9100     5.5    +01";
    " 9.70   -01 2.0    -02-0.9400     4.5    +01";
    " 9.70   -01 2.0    -02-0.9800     4.0    +01";
    " 1.082  +00 1.0    -02 0.47000    1.48   +02";
    " 1.082  +00 1.0    -02 0.41000    1.35   +02";
    " 1.082  +00 1.0    -02 0.34000    1.45   +02";
    " 1.082  +00 1.0    -02 0.28000    1.33   +02";
    " 1.082  +00 1.0    -02 0.21000    1.26   +02";
    " 1.082  +00 1.0    -02 0.15000    1.25   +02";
    " 1.082  +00 1.0    -02 0.10000    1.35   +02";
    " 1.082  +00 1.0    -02 0.02000    1.45   +02";
    " 1.082  +00 1.0    -02-0.0400     1.40   +02";
    " 1.082  +00 1.0    -02-0.1100     1.30   +02";
    " 1.082  +00 1.0    -02-0.1800     1.30   +02";
    " 1.082  +00 1.0    -02-0.2300     1.47   +02";
    " 1.082  +00 1.0    -02-0.3000     1.39   +02";
    " 1.082  +00 1.0    -02-0.3600     1.38   +02";
    " 1.082  +00 1.0    -02-0.4300     1.43   +02";
    " 1.082  +00 1.0    -02-0.5000     1.42   +02";
    " 1.082  +00 1.0    -02-0.5500     1.40   +02";
    " 1.082  +00 1.0    -02-0.6200     1.43   +02";
    " 1.082  +00 1.0    -02-0.6800     1.40   +02";
    " 1.082  +00 1.0    -02-0.7600     1.45   +02";
    " 1.082  +00 1.0    -02-0.8100     1.30   +02";
    " 1.082  +00 1.0    -02-0.8800     1.17   +02";
    " 1.082  +00 1.0    -02-0.9400     1.10   +02";
    " 1.110  +00 1.0    -02 0.47000    2.14   +02";
    " 1.110  +00 1.0    -02 0.42000    2.04   +02";
    " 1.110  +00 1.0    -02 0.36000    1.94   +02";
    " 1.110  +00 1.0    -02 0.30000    1.86   +02";
    " 1.110  +00 1.0    -02 0.23000    1.82   +02";
    " 1.110  +00 1.0    -02 0.17000    1.80   +02";
    " 1.110  +00 1.0    -02 0.12000    1.78   +02";
    " 1.110  +00 1.0    -02 0.05000    1.72   +02";
    " 1.110  +00 1.0    -02-0.0200     1.69   +02";
    " 1.110  +00 1.0    -02-0.0700     1.74   +02";
    " 1.110  +00 1.0    -02-0.1400     1.68   +02";
    " 1.110  +00 1.0    -02-0.2000     1.70   +02";
    " 1.110  +00 1.0    -02-0.2600     1.78   +02";
    " 1.110  +00 1.0    -02-0.3200     1.78   +02";
    " 1.110  +00 1.0    -02-0.3900     1.87   +02";
    " 1.110  +00 1.0    -02-0.4400     1.95   +02";
    " 1.110  +00 1.0    -02-0.5000     1.90   +02";
    " 1.110  +00 1.0    -02-0.5600     1.95   +02";
    " 1.110  +00 1.0    -02-0.6300     2.02   +02";
    " 1.110  +00 1.0    -02-0.6900     1.85   +02";
    " 1.110  +00 1.0    -02-0.7600     2.07   +02";
    " 1.110  +00 1.0    -02-0.8100     1.85   +02";
    " 1.120  +00 1.0    -02 0.47000    3.15   +02";
    " 1.120  +00 1.0    -02 0.43000    2.70   +02";
    " 1.120  +00 1.0    -02 0.37000    2.20   +02";
    " 1.120  +00 1.0    -02 0.30000    2.30   +02";
    " 1.120  +00 1.0    -02 0.23000    2.20   +02";
    " 1.120  +00 1.0    -02 0.18000    2.05   +02";
    " 1.120  +00 1.0    -02 0.12000    1.90   +02";
    " 1.120  +00 1.0    -02 0.06000    2.15   +02";
    " 1.120  +00 1.0    -02 0.00000    1.85   +02";
    " 1.120  +00 1.0    -02-0.0600     1.95   +02";
    " 1.120  +00 1.0    -02-0.1200     1.85   +02";
    " 1.120  +00 1.0    -02-0.1800     1.75   +02";
    " 1.120  +00 1.0    -02-0.2300     1.75   +02";
    " 1.120  +00 1.0    -02-0.3000     1.75   +02";
    " 1.120  +00 1.0    -02-0.3700     1.80   +02";
    " 1.120  +00 1.0    -02-0.4300     1.75   +02";
    " 1.120  +00 1.0    -02-0.4700     1.80   +02";
    " 1.120  +00 1.0    -02-0.5400     1.70   +02";
    " 1.120  +00 1.0    -02-0.6000     1.90   +02";
    " 1.120  +00 1.0    -02-0.6600     1.75   +02";
    " 1.120  +00 1.0    -02-0.7300     1.85   +02";
    " 1.120  +00 1.0    -02-0.8000     1.80   +02";
    " 1.120  +00 1.0    -02-0.8600     1.70   +02";
    " 1.120  +00 1.0    -02-0.9000     1.45   +02";
    " 1.120  +00 1.0    -02-0.9800     1.30   +02";
    " 1.130  +00 1.0    -02 0.48000    2.60   +02";
    " 1.130  +00 1.0    -02 0.42000    2.40   +02";
    " 1.130  +00 1.0    -02 0.36000    2.07   +02";
    " 1.130  +00 1.0    -02 0.30000    1.98   +02";
    " 1.130  +00 1.0    -02 0.25000    2.02   +02";
    " 1.130  +00 1.0    -02 0.18000    1.82   +02";
    " 1.130  +00 1.0    -02 0.12000    1.71   +02";
    " 1.130  +00 1.0    -02 0.05000    1.72   +02";
    " 1.130  +00 1.0    -02 0.00000    1.55   +02";
    " 1.130  +00 1.0    -02-0.0600     1.65   +02";
    " 1.130  +00 1.0    -02-0.1200     1.56   +02";
    " 1.130  +00 1.0    -02-0.2000     1.42   +02";
    " 1.130  +00 1.0    -02-0.2500     1.34   +02";
    " 1.130  +00 1.0    -02-0.3200     1.40   +02";
    " 1.130  +00 1.0    -02-0.3700     1.30   +02";
    " 1.130  +00 1.0    -02-0.4400     1.24   +02";
    " 1.130  +00 1.0    -02-0.5100     1.33   +02";
    " 1.130  +00 1.0    -02-0.5600     1.33   +02";
    " 1.130  +00 1.0    -02-0.6200     1.29   +02";
    " 1.130  +00 1.0    -02-0.6800     1.19   +02";
    " 1.130  +00 1.0    -02-0.7400     1.40   +02";
    " 1.130  +00 1.0    -02-0.8000     1.21   +02";
    " 1.130  +00 1.0    -02-0.8600     1.28   +02";
    " 1.130  +00 1.0    -02-0.9200     1.14   +02";
    " 1.160  +00 1.0    -02 0.45000    1.32   +02";
    " 1.160  +00 1.0    -02 0.38500    1.35   +02";
    " 1.160  +00 1.0    -02 0.33000    1.27   +02";
    " 1.160  +00 1.0    -02 0.27000    1.17   +02";
    " 1.160  +00 1.0    -02 0.20000    1.16   +02";
    " 1.160  +00 1.0    -02 0.15000    1.20   +02";
    " 1.160  +00 1.0    -02 0.08000    1.25   +02";
    " 1.160  +00 1.0    -02 0.04000    1.10   +02";
    " 1.160  +00 1.0    -02-0.0300     1.00   +02";
    " 1.160  +00 1.0    -02-0.0700     1.05   +02";
    " 1.160  +00 1.0    -02-0.1400     9.5    +01";
    " 1.160  +00 1.0    -02-0.2000     1.05   +02";
    " 1.160  +00 1.0    -02-0.2600     9.9    +01";
    " 1.160  +00 1.0    -02-0.3200     1.10   +02";
    " 1.160  +00 1.0    -02-0.3800     1.00   +02";
    " 1.160  +00 1.0    -02-0.4300     1.10   +02";
    " 1.160  +00 1.0    -02-0.5000     9.9    +01";
    " 1.160  +00 1.0    -02-0.5500     1.05   +02";
    " 1.160  +00 1.0    -02-0.6200     1.05   +02";
    " 1.160  +00 1.0    -02-0.6700     9.9    +01";
    " 1.160  +00 1.0    -02-0.7300     1.02   +02";
    " 1.160  +00 1.0    -02-0.7800     1.05   +02";
    " 1.160  +00 1.0    -02-0.8400     9.8    +01";
    " 1.160  +00 1.0    -02-0.9000     9.0    +01";
    " 1.160  +00 1.0    -02-0.9600     6.7    +01";
    " 1.350  +00 2.0    -02 0.52000    2.15   +02";
    " 1.350  +00 2.0    -02 0.41000    2.24   +02";
    " 1.350  +00 2.0    -02 0.33000    1.85   +02";
    " 1.350  +00 2.0    -02 0.23000    1.80   +02";
    " 1.350  +00 2.0    -02 0.14000    1.80   +02";
    " 1.350  +00 2.0    -02 0.05000    1.70   +02";
    " 1.350  +00 2.0    -02-0.0400     1.63   +02";
    " 1.350  +00 2.0    -02-0.1300     1.80   +02";
    " 1.350  +00 2.0    -02-0.2200     1.68   +02";
    " 1.350  +00 2.0    -02-0.3300     1.79   +02";
    " 1.350  +00 2.0    -02-0.3900     1.93   +02";
    " 1.350  +00 2.0    -02-0.4700     1.87   +02";
    " 1.350  +00 2.0    -02-0.5700     2.03   +02";
    " 1.350  +00 2.0    -02-0.6500     2.10   +02";
    " 1.350  +00 2.0    -02-0.7300     2.18   +02";
    " 1.350  +00 2.0    -02-0.8100     2.27   +02";
    " 1.350  +00 2.0    -02-0.9200     2.33   +02";
    " 1.377  +00 2.0    -02 0.53000    2.10   +02";
    " 1.377  +00 2.0    -02 0.43000    1.92   +02";
    " 1.377  +00 2.0    -02 0.34000    1.90   +02";
    " 1.377  +00 2.0    -02 0.23000    1.70   +02";
    " 1.377  +00 2.0    -02 0.15000    1.76   +02";
    " 1.377  +00 2.0    -02 0.07000    1.64   +02";
    " 1.377  +00 2.0    -02-0.0100     1.56   +02";
    " 1.377  +00 2.0    -02-0.1100     1.58   +02";
    " 1.377  +00 2.0    -02-0.1800     1.50   +02";
    " 1.377  +00 2.0    -02-0.2800     1.44   +02";
    " 1.377  +00 2.0    -02-0.3500     1.43   +02";
    " 1.377  +00 2.0    -02-0.4400     1.40   +02";
    " 1.377  +00 2.0    -02-0.5400     1.45   +02";
    " 1.377  +00 2.0    -02-0.6300     1.57   +02";
    " 1.377  +00 2.0    -02-0.7100     1.55   +02";
    " 1.377  +00 2.0    -02-0.7900     1.58   +02";
    " 1.377  +00 2.0    -02-0.8800     1.45   +02";
    " 1.377  +00 2.0    -02-0.9800     1.00   +02";
    " 1.595  +00 2.0    -02 0.44000    3.20   +02";
    " 1.595  +00 2.0    -02 0.35000    3.03   +02";
    " 1.595  +00 2.0    -02 0.26000    2.65   +02";
    " 1.595  +00 2.0    -02 0.16000    2.25   +02";
    " 1.595  +00 2.0    -02 0.08000    2.23   +02";
    " 1.595  +00 2.0    -02-0.0200     2.03   +02";
    " 1.595  +00 2.0    -02-0.1100     1.95   +02";
    " 1.595  +00 2.0    -02-0.1800     1.70   +02";
    " 1.595  +00 2.0    -02-0.2700     1.68   +02";
    " 1.595  +00 2.0    -02-0.3600     1.50   +02";
    " 1.595  +00 2.0    -02-0.4600     1.60   +02";
    " 1.595  +00 2.0    -02-0.5300     1.35   +02";
    " 1.595  +00 2.0    -02-0.6400     1.50   +02";
    " 1.595  +00 2.0    -02-0.7300     1.25   +02";
    " 1.595  +00 2.0    -02-0.8200     1.10   +02";
    " 1.595  +00 2.0    -02-0.9200     1.00   +02";
    " 1.682  +00 2.0    -02 0.50000    1.70   +02";
    " 1.682  +00 2.0    -02 0.36000    1.53   +02";
    " 1.682  +00 2.0    -02 0.26000    1.60   +02";
    " 1.682  +00 2.0    -02 0.16000    1.43   +02";
    " 1.682  +00 2.0    -02 0.07000    1.50   +02";
    " 1.682  +00 2.0    -02-0.0500     1.30   +02";
    " 1.682  +00 2.0    -02-0.1400     1.43   +02";
    " 1.682  +00 2.0    -02-0.2500     1.40   +02";
    " 1.682  +00 2.0    -02-0.3400     1.38   +02";
    " 1.682  +00 2.0    -02-0.4500     1.40   +02";
    " 1.682  +00 2.0    -02-0.5400     1.40   +02";
    " 1.682  +00 2.0    -02-0.6600     1.50   +02";
    " 1.682  +00 2.0    -02-0.7600     1.40   +02";
    " 1.682  +00 2.0    -02-0.8700     1.25   +02";
    " 1.682  +00 2.0    -02-0.9700     8.0    +01";
    " 1.756  +00 2.5    -02 0.50000    1.93   +02";
    " 1.756  +00 2.5    -02 0.40000    1.63   +02";
    " 1.756  +00 2.5    -02 0.30000    1.55   +02";
    " 1.756  +00 2.5    -02 0.21000    1.37   +02";
    " 1.756  +00 2.5    -02 0.09000    1.24   +02";
    " 1.756  +00 2.5    -02 0.00000    1.23   +02";
    " 1.756  +00 2.5    -02-0.0900     1.27   +02";
    " 1.756  +00 2.5    -02-0.1900     1.22   +02";
    " 1.756  +00 2.5    -02-0.2800     1.28   +02";
    " 1.756  +00 2.5    -02-0.3800     1.45   +02";
    " 1.756  +00 2.5    -02-0.4700     1.44   +02";
    " 1.756  +00 2.5    -02-0.5900     1.78   +02";
    " 1.756  +00 2.5    -02-0.6900     2.10   +02";
    " 1.756  +00 2.5    -02-0.7900     2.21   +02";
    " 1.756  +00 2.5    -02-0.8800     2.45   +02";
    " 1.779  +00 2.5    -02 0.53000    1.70   +02";
    " 1.779  +00 2.5    -02 0.42000    1.48   +02";
    " 1.779  +00 2.5    -02 0.32000    1.40   +02";
    " 1.779  +00 2.5    -02 0.23000    1.30   +02";
    " 1.779  +00 2.5    -02 0.13000    1.25   +02";
    " 1.779  +00 2.5    -02 0.03000    1.30   +02";
    " 1.779  +00 2.5    -02-0.0600     1.20   +02";
    " 1.779  +00 2.5    -02-0.1500     1.20   +02";
    " 1.779  +00 2.5    -02-0.2500     1.25   +02";
    " 1.779  +00 2.5    -02-0.3400     1.30   +02";
    " 1.779  +00 2.5    -02-0.4400     1.40   +02";
    " 1.779  +00 2.5    -02-0.5400     1.80   +02";
    " 1.779  +00 2.5    -02-0.6400     1.98   +02";
    " 1.779  +00 2.5    -02-0.7300     2.30   +02";
    " 1.779  +00 2.5    -02-0.8300     2.60   +02";
    " 1.779  +00 2.5    -02-0.9200     2.40   +02";
    " 1.796  +00 2.5    -02 0.47000    1.81   +02";
    " 1.796  +00 2.5    -02 0.40000    1.46   +02";
    " 1.796  +00 2.5    -02 0.30000    1.38   +02";
    " 1.796  +00 2.5    -02 0.20000    1.25   +02";
    " 1.796  +00 2.5    -02 0.11000    1.21   +02";
    " 1.796  +00 2.5    -02 0.01000    1.25   +02";
    " 1.796  +00 2.5    -02-0.1000     1.18   +02";
    " 1.796  +00 2.5    -02-0.1800     1.06   +02";
    " 1.796  +00 2.5    -02-0.2700     1.35   +02";
    " 1.796  +00 2.5    -02-0.3600     1.33   +02";
    " 1.796  +00 2.5    -02-0.4600     1.41   +02";
    " 1.796  +00 2.5    -02-0.5600     1.42   +02";
    " 1.796  +00 2.5    -02-0.6700     1.58   +02";
    " 1.796  +00 2.5    -02-0.7500     1.78   +02";
    " 1.796  +00 2.5    -02-0.8600     2.08   +02";
    " 2.07   +00 2.     -02 0.52000    1.45   +02";
    " 2.07   +00 2.     -02 0.42000    1.35   +02";
    " 2.07   +00 2.     -02 0.33000    1.35   +02";
    " 2.07   +00 2.     -02 0.24000    1.26   +02";
    " 2.07   +00 2.     -02 0.12000    1.22   +02";
    " 2.07   +00 2.     -02 0.03000    1.20   +02";
    " 2.07   +00 2.     -02-0.0600     1.14   +02";
    " 2.07   +00 2.     -02-0.1600     1.27   +02";
    " 2.07   +00 2.     -02-0.2600     1.10   +02";
    " 2.07   +00 2.     -02-0.3600     1.08   +02";
    " 2.07   +00 2.     -02-0.4400     1.17   +02";
    " 2.07   +00 2.     -02-0.5400     1.15   +02";
    " 2.07   +00 2.     -02-0.6400     1.15   +02";
    " 2.07   +00 2.     -02-0.7300     1.10   +02";
    " 2.07   +00 2.     -02-0.8200     1.10   +02";
    " 2.07   +00 2.     -02-0.9200     9.5    +01";
    " 2.25   +00 2.     -02 0.55000    1.74   +02";
    " 2.25   +00 2.     -02 0.46000    1.55   +02";
    " 2.25   +00 2.     -02 0.39000    1.49   +02";
    " 2.25   +00 2.     -02 0.30000    1.37   +02";
    " 2.25   +00 2.     -02 0.21000    1.28   +02";
    " 2.25   +00 2.     -02 0.12000    1.16   +02";
    " 2.25   +00 2.     -02 0.02000    1.03   +02";
    " 2.25   +00 2.     -02-0.0800     1.05   +02";
    " 2.25   +00 2.     -02-0.1800     1.08   +02";
    " 2.25   +00 2.     -02-0.2600     1.02   +02";
    " 2.25   +00 2.     -02-0.3200     1.03   +02";
    " 2.25   +00 2.     -02-0.4200     9.2    +01";
    " 2.25   +00 2.     -02-0.5000     8.1    +01";
    " 2.25   +00 2.     -02-0.5900     7.8    +01";
    " 2.25   +00 2.     -02-0.6700     9.6    +01";
    " 2.25   +00 2.     -02-0.7600     7.3    +01";
    " 2.25   +00 2.     -02-0.8500     7.7    +01";
    " 2.36   +00 2.     -02 0.49000    1.45   +02";
    " 2.36   +00 2.     -02 0.41000    1.40   +02";
    " 2.36   +00 2.     -02 0.33000    1.25   +02";
    " 2.36   +00 2.     -02 0.25000    1.06   +02";
    " 2.36   +00 2.     -02 0.17000    1.06   +02";
    " 2.36   +00 2.     -02 0.07000    1.05   +02";
    " 2.36   +00 2.     -02 0.00000    1.21   +02";
    " 2.36   +00 2.     -02-0.0700     1.02   +02";
    " 2.36   +00 2.     -02-0.1600     1.11   +02";
    " 2.36   +00 2.     -02-0.2300     1.10   +02";
    " 2.36   +00 2.     -02-0.3300     1.15   +02";
    " 2.36   +00 2.     -02-0.4100     1.15   +02";
    " 2.36   +00 2.     -02-0.5000     1.07   +02";
    " 2.36   +00 2.     -02-0.5700     1.06   +02";
    " 2.36   +00 2.     -02-0.6600     1.15   +02";
    " 2.36   +00 2.     -02-0.7500     1.05   +02";
    " 2.36   +00 2.     -02-0.8400     1.03   +02";
    "ENDDATA            334";
    "ENDSUBENT          343";
    ""])].
Definition ent12326 : list str := [
  (text ["SUBENT        12326001   20070426   20070824   20070809       1344";
    "BIB                  8         13";
    "INSTITUTE  (1USALAS)";
    "REFERENCE  (J,NP,48,433,1963)";
    "AUTHOR     (J.C.Hopkins,B.C.Diven)";
    "TITLE      Prompt neutrons from fission.";
    "MONITOR    (98-CF-252(0,F),,NU)";
    "STATUS     (SCSRS)";
    "ERR-ANALYS (ERR-SYS) Systematic uncertainty";
    "           (ERR-T) Total uncertainty";
    "HISTORY    (19760804T) Translated from SCISRS";
    "           (19841005A) Converted to reaction formalism";
    "           (20070426A) DR Format updated and ERR-SYS and ERR-T";
    "                        added from Table 1 of reference";
    "                        Subentry 8 added";
    "ENDBIB              13";
    "COMMON               1          3";
    "MONIT";
    "PRT/FIS";
    " 3.771";
    "ENDCOMMON            3";
    "ENDSUBENT           20";
    ""]);
  (text ["SUBENT        12326006   20070426   20070824   20070809       1344";
    "BIB                  2          2";
    "REACTION   (94-PU-239(N,F),PR,NU)";
    "DETECTOR   (MTANK)    Moderating tank detector";
    "ENDBIB               2";
    "NOCOMMON             0          0";
    "DATA                 5          6";
    "EN         EN-RSL     DATA       ERR-SYS    ERR-T";
    "MEV        MEV        PRT/FIS    PRT/FIS    PRT/FIS";
    "   2.50E-01    5.0E-02 2.931     0.029      0.039";
    "   4.20E-01   1.10E-01 2.957     0.030      0.046";
    "   6.10E-01    7.0E-02 2.904     0.029      0.041";
    "   9.00E-01    8.0E-02 3.004     0.030      0.041";
    "   3.90E+00    2.9E-01 3.422     0.038      0.039";
    "   1.45E+01    1.0E+00 4.942     0.076      0.119";
    "ENDDATA              8";
    "ENDSUBENT           15";
    ""])].
Definition ent20576 : list str := [
  (text ["SUBENT        20576001   20181001   20190424   20190420       2273";
    "BIB                 17         68";
    "TITLE       Measurement of the energy spectrum of prompt";
    "            neutrons from the fission of Pu239 by 0.215 MeV";
    "            neutrons";
    "AUTHOR     (H.H.Knitter)";
    "INSTITUTE  (2ZZZGEL)";
    "REFERENCE  (J,AKE,26,76,1975) Main reference. Graphs given.";
    "FACILITY   (VDG,2ZZZGEL) 3 MeV Van de Graaff of Geel lab.";
    "INC-SOURCE (P-LI7) Li-7(P,N)Be-7 reaction in a Li-F target of";
    "              326.E-6 g/cm2 thickness. Average proton current";
    "              4.5 micro-A, pulse width 1 ns. repetition rate";
    "              1 MHz";
    "INC-SPECT  .Mean neutron beam energy 0.215 MeV.";
    "           .Neutron beam energy spread is 32 keV.";
    "SAMPLE     (94-PU-239,ENR=0.9891) Isotopic composition";
    "             98.91% Pu-239, 1.09% Pu-240. Plutonium cylinder,";
    "             1.2 cm diam., 2.5 cm length, 54.803-g weight.";
    "             Canned in zirkalloy container with 0.2 mm wall";
    "             thickness";
    "METHOD     (TOF)";
    "REL-REF    (M,22401001,H.Knitter,J,AKE,22,84,1972) Method of";
    "                                     corrections calculation";
    "           (C,,T.N.Taddeucci+,J,NDS,123,135,2015)";
    "DETECTOR   (SCIN)  NE224 liquid scintillator,5 cm diameter 3.8 cm";
    "              length, with low noise photomultiplier RCA-8850.";
    "              Placed at 90 degree relative to proton beam and at";
    "              1.972 m from the axis of plutonium sample.";
    "            .Another similar detector used for monitoring of the";
    "             neutron flux placed at -35 degree relative to proton";
    "             beam and distance 3.20 m from the target";
    "           .Detector efficiencies measured at several energies";
    "            using many reactions.";
    "            (1-H-3(P,N)2-HE-3,,SIG)";
    "            (1-H-2(D,N)2-HE-3,,SIG)";
    "            (4-BE-9(A,N)6-C-12,,SIG)";
    "            (1-H-1(N,EL)1-H-1,,SIG)";
    "            (3-LI-7(P,N)4-BE-7,,DA)  At zero angle";
    "EN-SEC     .Good agreement of fission neutron spectrum with";
    "            Maxwellian";
    "CRITIQUE   T.N.Taddeucchi et al. (2015): Multiple scattering";
    "            effects are present and were likely severely";
    "            underestimated in the data analysis.";
    "ADD-RES    .Maxwellian fit of the data gives E-bar=2.12+-0.01MeV";
    "           .Fit with the Watt formula gives";
    "            E-bar=2.116-MeV,t=0.9649-MeV,Ef=0.6686-MeV.";
    "           .Model independent average energy gives 2.125+-";
    "            0.035 MeV.";
    "           .Average of all mean fission neutron energies gives";
    "            E-bar=2.136+-0.045MeV";
    "STATUS     (TABLE) Numerical values of neutron spectrum given in";
    "            private communication from H.H.Knitter, 1976.";
    "            The average fission neutron energy calculated in text";
    "            of Atomkernenergie,26(1975)76.";
    "CORRECTION .Background.  Subtraction of prompt gamma rays from";
    "            the sample and gamma rays of the target scattered";
    "            in sample.";
    "            Secondary interactions of fission neutrons in the";
    "            sample accounted, method described in reference";
    "            C,72VIENNA,,127,1972.";
    "HISTORY    (19760608C)";
    "           (20110707A) Date is corrected to 8 digits format.";
    "                       Upper case text converted to the lower one.";
    "           (20110810A) Last checking has been done.";
    "           (20131210U) SD: Comments were added to ERR-1 (see";
    "            ERR-ANALYS) in Subent 003";
    "           (20181001U) SD: CRITIQUE and ref. to REL-REF were";
    "           added. ERR-ANALYS deleted (specified in other Subents).";
    "           MONITOR deleted (used for detector efficiency";
    "           measurement; info moved to DETECTOR).";
    "ENDBIB              68";
    "COMMON               2          3";
    "EN         EN-RSL";
    "KEV        KEV";
    "   215.       32.";
    "ENDCOMMON            3";
    "ENDSUBENT           75";
    ""]);
  (text ["SUBENT        20576003   20131210   20140820   20140807       2238";
    "BIB                  4         14";
    "REACTION   (94-PU-239(N,F),PR,NU/DE,,REL) Reference quantity";
    "                                          not given";
    "ERR-ANALYS (DATA-ERR)  Not specified";
    "           (ERR-1) About 2% between 0.2 and 2.5 MeV, and above";
    "            this energy it increases up to 5% at 19 MeV";
    "STATUS     (TABLE)  Obtained from H.Knitter by letter";
    "             corresponds to Fig. 2 of J,ANE,76,1975.";
    "           (COREL,20576005)";
    "HISTORY    (20110810A) REACTION code SF4, SF5, SF6, SF7 changed";
    "            from "",PR,DE,N"" to ""0-NN-1,PR,NU/DE,"".";
    "            Status code and errors specified. Data units changed";
    "            from 1/MEV to ARB-UNITS.";
    "           (20131210U) SD: Comments from D.Neudecker were added";
    "            to ERR-1 (see ERR-ANALYS)";
    "ENDBIB              14";
    "NOCOMMON             0          0";
    "DATA                 5        183";
    "E          E-RSL      DATA       DATA-ERR   ERR-1";
    "MEV        MEV        ARB-UNITS  ARB-UNITS  PER-CENT";
    " 2.8000E-01 1.0000E-02 6.6800E+01 2.5000E+00      2.";
    " 3.1000E-01 1.0000E-02 7.0200E+01 2.4000E+00      2.";
    " 3.4000E-01 1.0000E-02 6.5100E+01 2.2000E+00      2.";
    " 3.6000E-01 1.0000E-02 7.0500E+01 2.2000E+00      2.";
    " 3.9000E-01 1.0000E-02 6.8800E+01 2.1000E+00      2.";
    " 4.1000E-01 1.0000E-02 7.4200E+01 2.1000E+00      2.";
    " 4.4000E-01 1.0000E-02 7.5600E+01 2.2000E+00      2.";
    " 4.6000E-01 1.0000E-02 7.4800E+01 2.1000E+00      2.";
    " 4.9000E-01 1.0000E-02 7.4800E+01 2.1000E+00      2.";
    " 5.1000E-01 1.0000E-02 7.3600E+01 2.0000E+00      2.";
    " 5.4000E-01 1.0000E-02 7.4200E+01 2.0000E+00      2.";
    " 5.6000E-01 1.0000E-02 7.5700E+01 2.0000E+00      2.";
    " 5.9000E-01 1.0000E-02 7.5800E+01 2.0000E+00      2.";
    " 6.1000E-01 1.0000E-02 7.6600E+01 2.1000E+00      2.";
    " 6.3000E-01 1.0000E-02 7.5400E+01 2.0000E+00      2.";
    " 6.6000E-01 1.0000E-02 7.8700E+01 2.1000E+00      2.";
    " 6.9000E-01 1.0000E-02 7.6300E+01 2.0000E+00      2.";
    " 7.1000E-01 1.0000E-02 7.8600E+01 2.1000E+00      2.";
    " 7.3000E-01 1.0000E-02 7.4600E+01 2.1000E+00      2.";
    " 7.6000E-01 1.0000E-02 7.8700E+01 2.0000E+00      2.";
    " 7.9000E-01 2.0000E-02 7.9400E+01 2.1000E+00      2.";
    " 8.1000E-01 2.0000E-02 7.8300E+01 2.1000E+00      2.";
    " 8.4000E-01 2.0000E-02 7.6600E+01 2.0000E+00      2.";
    " 8.6000E-01 2.0000E-02 8.0000E+01 2.2000E+00      2.";
    " 8.9000E-01 2.0000E-02 8.1000E+01 2.1000E+00      2.";
    " 9.1000E-01 2.0000E-02 8.0200E+01 2.1000E+00      2.";
    " 9.4000E-01 2.0000E-02 7.9500E+01 2.1000E+00      2.";
    " 9.6000E-01 2.0000E-02 7.8400E+01 2.1000E+00      2.";
    " 9.8000E-01 2.0000E-02 7.7800E+01 2.1000E+00      2.";
    " 1.0100E+00 2.0000E-02 7.6800E+01 2.2000E+00      2.";
    " 1.0400E+00 2.0000E-02 7.8400E+01 2.0000E+00      2.";
    " 1.0600E+00 2.0000E-02 7.8300E+01 2.2000E+00      2.";
    " 1.0900E+00 2.0000E-02 7.7800E+01 2.1000E+00      2.";
    " 1.1100E+00 2.0000E-02 7.4900E+01 2.1000E+00      2.";
    " 1.1300E+00 3.0000E-02 7.5100E+01 2.1000E+00      2.";
    " 1.1600E+00 3.0000E-02 7.6000E+01 2.1000E+00      2.";
    " 1.1900E+00 3.0000E-02 7.6100E+01 2.1000E+00      2.";
    " 1.2100E+00 3.0000E-02 7.4000E+01 2.0000E+00      2.";
    " 1.2400E+00 3.0000E-02 7.3500E+01 2.2000E+00      2.";
    " 1.2600E+00 3.0000E-02 7.6700E+01 1.6000E+00      2.";
    " 1.2900E+00 3.0000E-02 7.4500E+01 1.6000E+00      2.";
    " 1.3200E+00 3.0000E-02 7.2300E+01 1.5000E+00      2.";
    " 1.3500E+00 3.0000E-02 7.2800E+01 1.5000E+00      2.";
    " 1.3900E+00 4.0000E-02 7.2200E+01 1.5000E+00      2.";
    " 1.4200E+00 4.0000E-02 7.2100E+01 1.5000E+00      2.";
    " 1.4500E+00 4.0000E-02 6.9100E+01 1.7000E+00      2.";
    " 1.4700E+00 4.0000E-02 7.0700E+01 1.8000E+00      2.";
    " 1.5000E+00 4.0000E-02 7.1300E+01 1.8000E+00      2.";
    " 1.5200E+00 4.0000E-02 6.7300E+01 1.7000E+00      2.";
    " 1.5500E+00 4.0000E-02 6.8400E+01 1.7000E+00      2.";
    " 1.5800E+00 4.0000E-02 6.5100E+01 1.6000E+00      2.";
    " 1.6000E+00 4.0000E-02 6.5700E+01 1.6000E+00      2.";
    " 1.6300E+00 4.0000E-02 6.4300E+01 1.6000E+00      2.";
    " 1.6600E+00 5.0000E-02 6.4100E+01 1.6000E+00      2.";
    " 1.6900E+00 5.0000E-02 6.4700E+01 1.6000E+00      2.";
    " 1.7200E+00 5.0000E-02 6.1900E+01 1.5000E+00      2.";
    " 1.7500E+00 5.0000E-02 6.3100E+01 1.5000E+00      2.";
    " 1.7900E+00 5.0000E-02 6.3000E+01 1.5000E+00      2.";
    " 1.8200E+00 5.0000E-02 6.0900E+01 1.5000E+00      2.";
    " 1.8500E+00 5.0000E-02 5.9900E+01 1.5000E+00      2.";
    " 1.8900E+00 6.0000E-02 5.8700E+01 1.4000E+00      2.";
    " 1.9300E+00 6.0000E-02 5.8000E+01 1.4000E+00      2.";
    " 1.9600E+00 6.0000E-02 5.7000E+01 1.4000E+00      2.";
    " 2.0000E+00 6.0000E-02 5.6100E+01 1.4000E+00      2.";
    " 2.0400E+00 6.0000E-02 5.4600E+01 1.3000E+00      2.";
    " 2.0700E+00 6.0000E-02 5.4100E+01 1.8000E+00      2.";
    " 2.0900E+00 6.0000E-02 5.2700E+01 1.8000E+00      2.";
    " 2.1100E+00 7.0000E-02 5.2000E+01 1.8000E+00      2.";
    " 2.1400E+00 7.0000E-02 5.1600E+01 1.8000E+00      2.";
    " 2.1600E+00 7.0000E-02 5.2900E+01 1.8000E+00      2.";
    " 2.1800E+00 7.0000E-02 5.1000E+01 1.7000E+00      2.";
    " 2.2000E+00 7.0000E-02 5.1000E+01 1.7000E+00      2.";
    " 2.2200E+00 7.0000E-02 4.9600E+01 1.7000E+00      2.";
    " 2.2500E+00 7.0000E-02 4.8900E+01 1.7000E+00      2.";
    " 2.2700E+00 7.0000E-02 4.7300E+01 1.6000E+00      2.";
    " 2.2900E+00 7.0000E-02 4.9500E+01 1.7000E+00      2.";
    " 2.3200E+00 7.0000E-02 4.6600E+01 1.6000E+00";
    " 2.3400E+00 7.0000E-02 4.5400E+01 1.6000E+00";
    " 2.3700E+00 8.0000E-02 4.6200E+01 1.6000E+00";
    " 2.3900E+00 8.0000E-02 4.6600E+01 1.6000E+00";
    " 2.4200E+00 8.0000E-02 4.5300E+01 1.5000E+00";
    " 2.4400E+00 8.0000E-02 4.4000E+01 1.5000E+00";
    " 2.4700E+00 8.0000E-02 4.4600E+01 1.5000E+00";
    " 2.5000E+00 8.0000E-02 4.1600E+01 1.4000E+00";
    " 2.5300E+00 9.0000E-02 4.3400E+01 1.5000E+00";
    " 2.5600E+00 9.0000E-02 4.1300E+01 1.4000E+00";
    " 2.5800E+00 9.0000E-02 4.3200E+01 1.5000E+00";
    " 2.6100E+00 9.0000E-02 4.1400E+01 1.4000E+00";
    " 2.6400E+00 9.0000E-02 3.9500E+01 1.4000E+00";
    " 2.6700E+00 9.0000E-02 3.8900E+01 1.3000E+00";
    " 2.7000E+00 9.0000E-02 3.9700E+01 1.4000E+00";
    " 2.7300E+00 1.0000E-01 3.7500E+01 1.3000E+00";
    " 2.7600E+00 1.0000E-01 3.6400E+01 1.2000E+00";
    " 2.7900E+00 1.0000E-01 3.6100E+01 1.2000E+00";
    " 2.8200E+00 1.0000E-01 3.6600E+01 1.2000E+00";
    " 2.8600E+00 1.0000E-01 3.6200E+01 1.2000E+00";
    " 2.8900E+00 1.0000E-01 3.4800E+01 1.2000E+00";
    " 2.9300E+00 1.0000E-01 3.4000E+01 1.2000E+00";
    " 2.9600E+00 1.0000E-01 3.4100E+01 1.2000E+00";
    " 3.0000E+00 1.1000E-01 3.3400E+01 1.2000E+00";
    " 3.0300E+00 1.1000E-01 3.1200E+01 1.1000E+00";
    " 3.0700E+00 1.1000E-01 3.2400E+01 1.1000E+00";
    " 3.1100E+00 1.1000E-01 3.1500E+01 1.1000E+00";
    " 3.1500E+00 1.2000E-01 3.0700E+01 1.1000E+00";
    " 3.1800E+00 1.2000E-01 2.9300E+01 1.0000E+00";
    " 3.2200E+00 1.2000E-01 2.8600E+01 1.0000E+00";
    " 3.2600E+00 1.2000E-01 2.8300E+01 1.0000E+00";
    " 3.3000E+00 1.2000E-01 2.7100E+01 1.0000E+00";
    " 3.3400E+00 1.3000E-01 2.7600E+01 1.0000E+00";
    " 3.3900E+00 1.3000E-01 2.6300E+01 9.0000E-01";
    " 3.4300E+00 1.3000E-01 2.5400E+01 9.0000E-01";
    " 3.4800E+00 1.4000E-01 2.4600E+01 9.0000E-01";
    " 3.5200E+00 1.4000E-01 2.4400E+01 9.0000E-01";
    " 3.5700E+00 1.4000E-01 2.3700E+01 8.0000E-01";
    " 3.6100E+00 1.4000E-01 2.2400E+01 8.0000E-01";
    " 3.6600E+00 1.5000E-01 2.1700E+01 8.0000E-01";
    " 3.7100E+00 1.5000E-01 2.2500E+01 8.0000E-01";
    " 3.7600E+00 1.5000E-01 2.1100E+01 8.0000E-01";
    " 3.8100E+00 1.5500E-01 2.0000E+01 7.0000E-01";
    " 3.8600E+00 1.5500E-01 1.9000E+01 7.0000E-01";
    " 3.9200E+00 1.6500E-01 1.9400E+01 7.0000E-01";
    " 3.9700E+00 1.6500E-01 1.7700E+01 7.0000E-01";
    " 4.0300E+00 1.6500E-01 1.8000E+01 7.0000E-01";
    " 4.0800E+00 1.7500E-01 1.6600E+01 6.0000E-01";
    " 4.1400E+00 1.7500E-01 1.6700E+01 6.0000E-01";
    " 4.2000E+00 1.8000E-01 1.6000E+01 6.0000E-01";
    " 4.2600E+00 1.8500E-01 1.5300E+01 6.0000E-01";
    " 4.3200E+00 1.8500E-01 1.5200E+01 6.0000E-01";
    " 4.3800E+00 1.9500E-01 1.4500E+01 6.0000E-01";
    " 4.4500E+00 1.9500E-01 1.3200E+01 5.0000E-01";
    " 4.5100E+00 2.0000E-01 1.3200E+01 5.0000E-01";
    " 4.5700E+00 2.0500E-01 1.3100E+01 5.0000E-01";
    " 4.6400E+00 2.1000E-01 1.2400E+01 5.0000E-01";
    " 4.7200E+00 2.1500E-01 1.2300E+01 5.0000E-01";
    " 4.7900E+00 2.2000E-01 1.1300E+01 5.0000E-01";
    " 4.8600E+00 2.2500E-01 1.0800E+01 4.0000E-01";
    " 4.9400E+00 2.3000E-01 9.7300E+00 4.2000E-01";
    " 5.0100E+00 2.3500E-01 1.0000E+01 4.0000E-01";
    " 5.0900E+00 2.4000E-01 9.5600E+00 4.1000E-01";
    " 5.1700E+00 2.4500E-01 8.7700E+00 3.9000E-01";
    " 5.2500E+00 2.5000E-01 8.6100E+00 3.8000E-01";
    " 5.3400E+00 2.6000E-01 8.6900E+00 3.8000E-01";
    " 5.4200E+00 2.6000E-01 7.9600E+00 3.6000E-01";
    " 5.5100E+00 2.7000E-01 7.1600E+00 3.4000E-01";
    " 5.6000E+00 2.8000E-01 7.2600E+00 3.4000E-01";
    " 5.6900E+00 2.8000E-01 6.0200E+00 3.1000E-01";
    " 5.7900E+00 2.9000E-01 6.0600E+00 3.1000E-01";
    " 5.8800E+00 3.0000E-01 6.0300E+00 3.1000E-01";
    " 5.9900E+00 3.0500E-01 5.8600E+00 3.0000E-01";
    " 6.0900E+00 3.1000E-01 5.1600E+00 2.8000E-01";
    " 6.1900E+00 3.2000E-01 4.9700E+00 2.8000E-01";
    " 6.3000E+00 3.3000E-01 4.8800E+00 2.7000E-01";
    " 6.4100E+00 3.3500E-01 4.1800E+00 2.6000E-01";
    " 6.5300E+00 3.4500E-01 4.0000E+00 2.5000E-01";
    " 6.6400E+00 3.5500E-01 3.7100E+00 2.4000E-01";
    " 6.7600E+00 3.6500E-01 3.6100E+00 2.4000E-01";
    " 6.8800E+00 3.7500E-01 3.3900E+00 2.3000E-01";
    " 7.0100E+00 3.8500E-01 2.8600E+00 2.2000E-01";
    " 7.1400E+00 3.9500E-01 2.6700E+00 2.1000E-01";
    " 7.2800E+00 4.0500E-01 2.5700E+00 2.1000E-01";
    " 7.4100E+00 4.2000E-01 2.2400E+00 2.0000E-01";
    " 7.5500E+00 4.3000E-01 2.2200E+00 2.0000E-01";
    " 7.7000E+00 4.4000E-01 1.7100E+00 1.9000E-01";
    " 7.8500E+00 4.6000E-01 1.9000E+00 1.9000E-01";
    " 8.0000E+00 4.7000E-01 1.6100E+00 1.8000E-01";
    " 8.1600E+00 4.8000E-01 1.3500E+00 1.7000E-01";
    " 8.3300E+00 4.9500E-01 1.2900E+00 1.7000E-01";
    " 8.5000E+00 5.1500E-01 1.0000E+00 1.6000E-01";
    " 8.6700E+00 5.2500E-01 1.0900E+00 1.5000E-01";
    " 8.8500E+00 5.4500E-01 8.7000E-01 1.5000E-01";
    " 9.0400E+00 5.6000E-01 9.1000E-01 1.5000E-01";
    " 9.2300E+00 5.8000E-01 4.9000E-01 1.4000E-01";
    " 9.4200E+00 6.0000E-01 7.3000E-01 1.4000E-01";
    " 9.6200E+00 6.2000E-01 4.0000E-01 1.4000E-01";
    " 9.8400E+00 6.3500E-01 6.8000E-01 1.4000E-01";
    " 1.0060E+01 6.5500E-01 4.8000E-01 1.3000E-01";
    " 1.0400E+01 7.0000E-01 1.5000E-01 1.0000E-01";
    " 1.0880E+01 7.2500E-01 3.0000E-01 9.0000E-02";
    " 1.1400E+01 8.0500E-01 3.4000E-01 8.0000E-02";
    " 1.1940E+01 8.6500E-01 9.0000E-02 1.1000E-01";
    " 1.2540E+01 9.3000E-01 1.1000E-01 9.0000E-02";
    " 1.3180E+01 9.9500E-01 5.0000E-02 1.6000E-01";
    " 1.3870E+01 1.0350E+00 5.0000E-02 1.7000E-01";
    "ENDDATA            185";
    "ENDSUBENT          204";
    ""])].

Definition acos_table : list (float * float) := [((S754_finite true 8827055269646172 (-53)), (S754_finite false 6623123791410576 (-51)));
 ((S754_finite true 8736983277098762 (-53)), (S754_finite false 6521273365439984 (-51)));
 ((S754_finite true 8646911284551352 (-53)), (S754_finite false 6435190229788156 (-51)));
 ((S754_finite true 8466767299456532 (-53)), (S754_finite false 6290237570194453 (-51)));
 ((S754_finite true 8286623314361713 (-53)), (S754_finite false 6167402294989009 (-51)));
 ((S754_finite true 8196551321814303 (-53)), (S754_finite false 6111565713477425 (-51)));
 ((S754_finite true 8106479329266893 (-53)), (S754_finite false 6058615661258565 (-51)));
 ((S754_finite true 7926335344172073 (-53)), (S754_finite false 5959745178547541 (-51)));
 ((S754_finite true 7836263351624663 (-53)), (S754_finite false 5913223264826263 (-51)));
 ((S754_finite true 7800234554605699 (-53)), (S754_finite false 5895083723249790 (-51)));
 ((S754_finite true 7746191359077253 (-53)), (S754_finite false 5868338931619818 (-51)));
 ((S754_finite true 7656119366529843 (-53)), (S754_finite false 5824914371333395 (-51)));
 ((S754_finite true 7566047373982433 (-53)), (S754_finite false 5782801050342463 (-51)));
 ((S754_finite true 7475975381435023 (-53)), (S754_finite false 5741873377252671 (-51)));
 ((S754_finite true 7385903388887613 (-53)), (S754_finite false 5702024028942168 (-51)));
 ((S754_finite true 7295831396340204 (-53)), (S754_finite false 5663160433008882 (-51)));
 ((S754_finite true 7205759403792794 (-53)), (S754_finite false 5625202075141472 (-51)));
 ((S754_finite true 7115687411245384 (-53)), (S754_finite false 5588078406679047 (-51)));
 ((S754_finite true 7025615418697974 (-53)), (S754_finite false 5551727196572831 (-51)));
 ((S754_finite true 6899514629131600 (-53)), (S754_finite false 5502029232473789 (-51)));
 ((S754_finite true 6845471433603154 (-53)), (S754_finite false 5481127187558275 (-51)));
 ((S754_finite true 6755399441055744 (-53)), (S754_finite false 5446784907458243 (-51)));
 ((S754_finite true 6665327448508334 (-53)), (S754_finite false 5413026553714645 (-51)));
 ((S754_finite true 6575255455960924 (-53)), (S754_finite false 5379816091980915 (-51)));
 ((S754_finite true 6395111470866104 (-53)), (S754_finite false 5314910796724767 (-51)));
 ((S754_finite true 6305039478318694 (-53)), (S754_finite false 5283158814414321 (-51)));
 ((S754_finite true 6214967485771284 (-53)), (S754_finite false 5251839783114696 (-51)));
 ((S754_finite true 6124895493223875 (-53)), (S754_finite false 5220930637422220 (-51)));
 ((S754_finite true 6034823500676465 (-53)), (S754_finite false 5190410086807766 (-51)));
 ((S754_finite true 5944751508129055 (-53)), (S754_finite false 5160258427442319 (-51)));
 ((S754_finite true 5854679515581645 (-53)), (S754_finite false 5130457378798957 (-51)));
 ((S754_finite true 5791629120798458 (-53)), (S754_finite false 5109796107147814 (-51)));
 ((S754_finite true 5764607523034235 (-53)), (S754_finite false 5100989941156827 (-51)));
 ((S754_finite true 5674535530486825 (-53)), (S754_finite false 5071840270828629 (-51)));
 ((S754_finite true 5584463537939415 (-53)), (S754_finite false 5042993570488690 (-51)));
 ((S754_finite true 5404319552844595 (-53)), (S754_finite false 4986154552901188 (-51)));
 ((S754_finite true 5314247560297185 (-53)), (S754_finite false 4958137056102597 (-51)));
 ((S754_finite true 5134103575202365 (-53)), (S754_finite false 4902848647782061 (-51)));
 ((S754_finite true 5044031582654956 (-53)), (S754_finite false 4875556709713769 (-51)));
 ((S754_finite true 4953959590107546 (-53)), (S754_finite false 4848486558344008 (-51)));
 ((S754_finite true 4863887597560136 (-53)), (S754_finite false 4821629052680116 (-51)));
 ((S754_finite true 4773815605012726 (-53)), (S754_finite false 4794975524977613 (-51)));
 ((S754_finite true 4683743612465316 (-53)), (S754_finite false 4768517744904948 (-51)));
 ((S754_finite true 4593671619917906 (-53)), (S754_finite false 4742247887043994 (-51)));
 ((S754_finite true 4503599627370496 (-53)), (S754_finite false 4716158501352294 (-51)));
 ((S754_finite true 8827055269646172 (-54)), (S754_finite false 4690242486261459 (-51)));
 ((S754_finite true 8466767299456532 (-54)), (S754_finite false 4638903758784316 (-51)));
 ((S754_finite true 8286623314361713 (-54)), (S754_finite false 4613468374981640 (-51)));
 ((S754_finite true 8106479329266893 (-54)), (S754_finite false 4588180979515654 (-51)));
 ((S754_finite true 7926335344172073 (-54)), (S754_finite false 4563035883882181 (-51)));
 ((S754_finite true 7746191359077253 (-54)), (S754_finite false 4538027628302736 (-51)));
 ((S754_finite true 7566047373982433 (-54)), (S754_finite false 4513150966990332 (-51)));
 ((S754_finite true 7385903388887613 (-54)), (S754_finite false 8976801709073866 (-52)));
 ((S754_finite true 7025615418697974 (-54)), (S754_finite false 8878522043631187 (-52)));
 ((S754_finite true 6845471433603154 (-54)), (S754_finite false 8829724207580320 (-52)));
 ((S754_finite true 6665327448508334 (-54)), (S754_finite false 8781142636404781 (-52)));
 ((S754_finite true 6485183463413514 (-54)), (S754_finite false 8732768899682210 (-52)));
 ((S754_finite true 6305039478318694 (-54)), (S754_finite false 8684594841164817 (-52)));
 ((S754_finite true 6160924290242839 (-54)), (S754_finite false 8646194046669753 (-52)));
 ((S754_finite true 6124895493223875 (-54)), (S754_finite false 8636612562460294 (-52)));
 ((S754_finite true 5944751508129055 (-54)), (S754_finite false 8588814407775272 (-52)));
 ((S754_finite true 5764607523034235 (-54)), (S754_finite false 8541192949632119 (-52)));
 ((S754_finite true 5584463537939415 (-54)), (S754_finite false 8493740975478264 (-52)));
 ((S754_finite true 5404319552844595 (-54)), (S754_finite false 8446451475114712 (-52)));
 ((S754_finite true 5044031582654956 (-54)), (S754_finite false 8352332796509008 (-52)));
 ((S754_finite true 4863887597560136 (-54)), (S754_finite false 8305490506671043 (-52)));
 ((S754_finite true 4683743612465316 (-54)), (S754_finite false 8258784447037188 (-52)));
 ((S754_finite true 4503599627370496 (-54)), (S754_finite false 8212208454930188 (-52)));
 ((S754_finite true 8286623314361713 (-55)), (S754_finite false 8119422718089964 (-52)));
 ((S754_finite true 7926335344172073 (-55)), (S754_finite false 8073201318703187 (-52)));
 ((S754_finite true 7205759403792794 (-55)), (S754_finite false 7981073209067872 (-52)));
 ((S754_finite true 6845471433603154 (-55)), (S754_finite false 7935155523913064 (-52)));
 ((S754_finite true 6485183463413514 (-55)), (S754_finite false 7889328266421501 (-52)));
 ((S754_finite true 6269010681299730 (-55)), (S754_finite false 7861873129517215 (-52)));
 ((S754_finite true 5764607523034235 (-55)), (S754_finite false 7797924116784587 (-52)));
 ((S754_finite true 5404319552844595 (-55)), (S754_finite false 7752336969199343 (-52)));
 ((S754_finite true 5044031582654956 (-55)), (S754_finite false 7706819726975680 (-52)));
 ((S754_finite true 4683743612465316 (-55)), (S754_finite false 7661367440440198 (-52)));
 ((S754_finite true 8646911284551352 (-56)), (S754_finite false 7615975221558049 (-52)));
 ((S754_finite true 7926335344172073 (-56)), (S754_finite false 7570638238880896 (-52)));
 ((S754_finite true 7205759403792794 (-56)), (S754_finite false 7525351712646305 (-52)));
 ((S754_finite true 6485183463413514 (-56)), (S754_finite false 7480110910014076 (-52)));
 ((S754_finite true 5764607523034235 (-56)), (S754_finite false 7434911140425777 (-52)));
 ((S754_finite true 5044031582654956 (-56)), (S754_finite false 7389747751074369 (-52)));
 ((S754_finite true 8646911284551352 (-57)), (S754_finite false 7344616122471389 (-52)));
 ((S754_finite true 7205759403792794 (-57)), (S754_finite false 7299511664099659 (-52)));
 ((S754_finite true 5764607523034235 (-57)), (S754_finite false 7254429810139907 (-52)));
 ((S754_finite true 8646911284551352 (-58)), (S754_finite false 7209366015260088 (-52)));
 ((S754_finite true 5764607523034235 (-58)), (S754_finite false 7164315750456475 (-52)));
 ((S754_finite true 5764607523034235 (-59)), (S754_finite false 7119274498935862 (-52)));
 ((S754_zero false), (S754_finite false 7074237752028440 (-52)));
 ((S754_finite false 5764607523034235 (-59)), (S754_finite false 7029201005121018 (-52)));
 ((S754_finite false 5764607523034235 (-58)), (S754_finite false 6984159753600406 (-52)));
 ((S754_finite false 8646911284551352 (-58)), (S754_finite false 6939109488796792 (-52)));
 ((S754_finite false 5764607523034235 (-57)), (S754_finite false 6894045693916973 (-52)));
 ((S754_finite false 7205759403792794 (-57)), (S754_finite false 6848963839957221 (-52)));
 ((S754_finite false 8646911284551352 (-57)), (S754_finite false 6803859381585491 (-52)));
 ((S754_finite false 5044031582654956 (-56)), (S754_finite false 6758727752982512 (-52)));
 ((S754_finite false 5764607523034235 (-56)), (S754_finite false 6713564363631103 (-52)));
 ((S754_finite false 6485183463413514 (-56)), (S754_finite false 6668364594042805 (-52)));
 ((S754_finite false 7205759403792794 (-56)), (S754_finite false 6623123791410576 (-52)));
 ((S754_finite false 7926335344172073 (-56)), (S754_finite false 6577837265175985 (-52)));
 ((S754_finite false 8646911284551352 (-56)), (S754_finite false 6532500282498832 (-52)));
 ((S754_finite false 4683743612465316 (-55)), (S754_finite false 6487108063616682 (-52)));
 ((S754_finite false 5044031582654956 (-55)), (S754_finite false 6441655777081201 (-52)));
 ((S754_finite false 5404319552844595 (-55)), (S754_finite false 6396138534857538 (-52)));
 ((S754_finite false 5764607523034235 (-55)), (S754_finite false 6350551387272294 (-52)));
 ((S754_finite false 6124895493223875 (-55)), (S754_finite false 6304889317794780 (-52)));
 ((S754_finite false 6269010681299730 (-55)), (S754_finite false 6286602374539665 (-52)));
 ((S754_finite false 6485183463413514 (-55)), (S754_finite false 6259147237635380 (-52)));
 ((S754_finite false 7205759403792794 (-55)), (S754_finite false 6167402294989009 (-52)));
 ((S754_finite false 7566047373982433 (-55)), (S754_finite false 6121388842100953 (-52)));
 ((S754_finite false 8286623314361713 (-55)), (S754_finite false 6029052785966917 (-52)));
 ((S754_finite false 8646911284551352 (-55)), (S754_finite false 5982718995602032 (-52)));
 ((S754_finite false 4503599627370496 (-54)), (S754_finite false 5936267049126693 (-52)));
 ((S754_finite false 4683743612465316 (-54)), (S754_finite false 5889691057019693 (-52)));
 ((S754_finite false 4863887597560136 (-54)), (S754_finite false 5842984997385838 (-52)));
 ((S754_finite false 5044031582654956 (-54)), (S754_finite false 5796142707547873 (-52)));
 ((S754_finite false 5404319552844595 (-54)), (S754_finite false 5702024028942169 (-52)));
 ((S754_finite false 5584463537939415 (-54)), (S754_finite false 5654734528578617 (-52)));
 ((S754_finite false 5764607523034235 (-54)), (S754_finite false 5607282554424761 (-52)));
 ((S754_finite false 5944751508129055 (-54)), (S754_finite false 5559661096281609 (-52)));
 ((S754_finite false 6124895493223875 (-54)), (S754_finite false 5511862941596586 (-52)));
 ((S754_finite false 6160924290242839 (-54)), (S754_finite false 5502281457387128 (-52)));
 ((S754_finite false 6305039478318694 (-54)), (S754_finite false 5463880662892063 (-52)));
 ((S754_finite false 6485183463413514 (-54)), (S754_finite false 5415706604374671 (-52)));
 ((S754_finite false 6665327448508334 (-54)), (S754_finite false 5367332867652100 (-52)));
 ((S754_finite false 6935543426150564 (-54)), (S754_finite false 5294379949641460 (-52)));
 ((S754_finite false 7025615418697974 (-54)), (S754_finite false 5269953460425693 (-52)));
 ((S754_finite false 7205759403792794 (-54)), (S754_finite false 5220930637422219 (-52)));
 ((S754_finite false 7385903388887613 (-54)), (S754_finite false 5171673794983015 (-52)));
 ((S754_finite false 7566047373982433 (-54)), (S754_finite false 5122173570076216 (-52)));
 ((S754_finite false 7746191359077253 (-54)), (S754_finite false 5072420247451409 (-52)));
 ((S754_finite false 7926335344172073 (-54)), (S754_finite false 5022403736292518 (-52)));
 ((S754_finite false 8106479329266893 (-54)), (S754_finite false 4972113545025573 (-52)));
 ((S754_finite false 8286623314361713 (-54)), (S754_finite false 4921538754093600 (-52)));
 ((S754_finite false 8466767299456532 (-54)), (S754_finite false 4870667986488249 (-52)));
 ((S754_finite false 8646911284551352 (-54)), (S754_finite false 4819489375801854 (-52)));
 ((S754_finite false 8827055269646172 (-54)), (S754_finite false 4767990531533963 (-52)));
 ((S754_finite false 4503599627370496 (-53)), (S754_finite false 4716158501352294 (-52)));
 ((S754_finite false 4683743612465316 (-53)), (S754_finite false 4611440014246985 (-52)));
 ((S754_finite false 4773815605012726 (-53)), (S754_finite false 4558524454101654 (-52)));
 ((S754_finite false 4953959590107546 (-53)), (S754_finite false 8903004774737728 (-53)));
 ((S754_finite false 5791629120798458 (-53)), (S754_finite false 7857766579522505 (-53)));
 ((S754_finite false 5854679515581645 (-53)), (S754_finite false 7775121492917933 (-53)));
 ((S754_finite false 6899514629131600 (-53)), (S754_finite false 6288834078218605 (-53)));
 ((S754_finite false 7656119366529843 (-53)), (S754_finite false 4997293522780180 (-53)));
 ((S754_finite false 7800234554605699 (-53)), (S754_finite false 4716616115114602 (-53)));
 ((S754_finite false 4503599627370496 (-52)), (S754_zero false))].
Definition feq (x y : float) : bool := match x, y with S754_zero _, S754_zero _ => true | _, _ => same_bits x y end.
Definition acos (x : float) : option float := option_map snd (find (fun p => feq x (fst p)) acos_table).

Definition cases (e : env) (nm : names) : list (string * res str * str) := [
  ("test_polarization", (d <- data_set e nm entE0783 "E0783002" " "%char ;; dataset_str nm d),
    (text ["#  Authors:   K.Hatanaka, N.Matsuoka, H.Sakai, T.Saito, H.Tamura, K.Hosono, M.Kondo, K.Imai, H.Shimizu, K.Nishimura";
    "#  Title:     Acceleration Of Protons And Deuterons Polarized In The Horizontal Planeby The Rcnp Cyclotron";
    "#  Year:      1983";
    "#  Institute: Osaka Univ., Osaka (Research Center For Nuclear Physics, Osaka Univ.); Kyoto Univ.";
    "#  Reference: Nuclear Instrum.and Methods in Physics Res. 217, 397 (1983)";
    "#  Subent:    E0783002";
    "#  Reaction:  Vector analyzing power, A(y), for incident beam Spin-polarization probability d/dA for 1H(d,Elastic)1H ";
    "#        EN            ANG-CM        DATA          DATA-ERR      FLAG          ";
    "#        MEV           ADEG          NO-DIM        NO-DIM        NO-DIM        ";
    "        56.0          30.712        -0.002211     None          1.0           ";
    "        56.0          38.727        -0.005861     0.00821       None          ";
    "        56.0          46.135        0.01022       None          1.0           ";
    "        56.0          55.814        0.04098       None          1.0           ";
    "        56.0          64.866        0.07998       None          1.0           ";
    "        56.0          69.415        0.1126        None          1.0           ";
    "        56.0          74.316        0.1633        0.0147        None          ";
    "        56.0          79.924        0.2517        0.0115        None          ";
    "        56.0          84.442        0.2663        0.0131        None          ";
    "        56.0          89.661        0.3153        0.00821       None          ";
    "        56.0          94.181        0.3315        0.0164        None          ";
    "        56.0          99.114        0.4003        0.0115        None          ";
    "        56.0          104.318       0.4411        0.0131        None          ";
    "        56.0          109.841       0.4802        0.0132        None          ";
    "        56.0          115.135       0.388         0.0132        None          ";
    "        56.0          120.355       0.2531        0.0131        None          ";
    "        56.0          125.595       -0.05416      0.0214        None          ";
    "        56.0          129.34        -0.299        0.0197        None          ";
    "        56.0          134.447       -0.314        0.018         None          ";
    "        56.0          139.629       -0.1024       0.0197        None          ";
    "        56.0          145.538       -0.02551      0.0148        None          ";
    "        56.0          150.255       0.104         0.0246        None          ";
    "        56.0          155.357       0.0857        0.0246        None          ";
    "        56.0          160.562       0.1265        0.0197        None          ";
    "        "]));
  ("test_cs_Pun2n", (d <- simplified_set acos e nm ent13883 "13883002" " "%char ;; s <- dataset_str nm d ;; Ok (strip s)),
    (text ["#  Authors:   R.W.Lougheed, W.Webster, M.N.Namboodiri, D.R.Nethaway, K.J.Moody, J.H.Landrum, R.W.Hoff, R.J.Dupzyk, J.H.Mcquaid, R.Gunnink, E.D.Watkins";
    "#  Title:     239Pu And 241Am(N,2N) Cross-Section Measurements Near E(N) = 14 Mev";
    "#  Year:      2002";
    "#  Institute: Lawrence Livermore National Laboratory, Livermore, CA";
    "#  Reference: Radiochimica Acta 90, 833 (2002)";
    "#  Subent:    13883002";
    "#  Reaction:  Cross section for 239Pu(n,2n)238Pu ";
    "#  Monitor(s): ((79-AU-197(N,2N)79-AU-196,SIG), 'Flux monitor. Neutron energy determined using 54Fe(n,p) reaction.', None)";
    "#        Energy        Data          d(Data)       ";
    "#        MeV           barns         barns         ";
    "        13.8          0.228         0.006384      ";
    "        14.0          0.219         0.007884      ";
    "        14.8          0.214         0.002996"]));
  ("test_cs_Pun2n", (d <- simplified_set acos e nm ent21971 "21971003" " "%char ;; s <- dataset_str nm d ;; Ok (strip s)),
    (text ["#  Authors:   J.Frehaut, A.Bertin, R.Blois, E.Gryntakis, C.A.Philis";
    "#  Title:     (N,2N) Cross Sections Of 2-H And 239-Pu";
    "#  Year:      1986";
    "#  Institute: 2FR";
    "#  Reference: Radiation Effects 96, 219 (1986); Conf.on Nucl.Data f.Basic a.Appl.Sci.,Santa Fe 1985 2, 1561 (1985)";
    "#  Subent:    21971003";
    "#  Reaction:  Cross section for 239Pu(n,2n)238Pu ";
    "#        Energy        Data          d(Energy)     d(Data)       ";
    "#        MeV           barns         MeV           barns         ";
    "        6.49          0.024         0.085         0.063         ";
    "        7.01          0.049         0.08          0.05          ";
    "        7.52          0.054         0.075         0.058         ";
    "        8.03          0.177         0.075         0.07          ";
    "        8.54          0.275         0.07          0.054         ";
    "        9.04          0.249         0.065         0.041         ";
    "        9.55          0.354         0.065         0.056         ";
    "        10.06         0.415         0.06          0.039         ";
    "        10.56         0.411         0.06          0.07          ";
    "        11.07         0.356         0.055         0.079         ";
    "        11.57         0.418         0.055         0.049         ";
    "        12.08         0.455         0.055         0.076         ";
    "        12.58         0.318         0.05          0.132         ";
    "        13.09         0.588         0.05          0.148"]));
  ("test_cs_Pun2n", (d <- simplified_set acos e nm ent20795 "20795014" " "%char ;; s <- dataset_str nm d ;; Ok (strip s)),
    (text ["#  Authors:   D.S.Mather, P.F.Bampton, R.E.Coles, G.James, P.J.Nind";
    "#  Title:     -Measurement Of (N,2N) Cross Sections For Incident Energies Between 6 And 14 Mev-.";
    "#  Year:      1972";
    "#  Institute: 2UK";
    "#  Reference: Report other than progress report: AWRE-O-72/72  (1972); Report other than progress report: AWRE-O-47/69  (1969)";
    "#  Subent:    20795014";
    "#  Reaction:  Cross section for 239Pu(n,2n)238Pu ";
    "#  Monitor(s): ((94-PU-239(N,F),SIG), '1917MB+-8PERCENT  AT 6.5MEV 2030MB+-8.5PERCENT AT 7.1MEV 2213MB+-9PERCENT   AT 8.0MEV 2252MB+-9.5PERCENT AT 9.0MEV', None)";
    "#        Energy        Data          d(Data)       ";
    "#        MeV           barns         barns         ";
    "        6.5           0.419         0.053         ";
    "        7.1           0.451         0.06          ";
    "        8.0           0.49          0.057         ";
    "        9.0           0.51          0.09"]));
  ("test_cs_Pun2n", (d <- simplified_set acos e nm ent14129 "14129002" " "%char ;; s <- dataset_str nm d ;; Ok (strip s)),
    (text ["#  Authors:   J.A.Becker, L.A.Bernstein, W.Younes, D.P.Mcnabb, P.E.Garrett, D.E.Archer, C.A.Mcgrath, M.A.Stoyer, H.Chen, W.E.Ormand, R.O.Nelson, M.B.Chadwick, G.D.Johns, D.Drake, P.G.Young, M.Devlin, N.Fotiades, W.S.Wilburn";
    "#  Title:     Partial Gamma-Ray Cross Sections For The Reaction 239Pu(N,2Ng) And The 239Pu(N,2N) Cross Section";
    "#  Year:      2002";
    "#  Institute: Lawrence Livermore National Laboratory, Livermore, CA";
    "#  Reference: J.Nucl.Science and Technol.Tokyo,Supplement 2, (1), 620 (2002)";
    "#  Subent:    14129002";
    "#  Reaction:  Cross section for 239Pu(n,2n)238Pu ";
    "#        Energy        Data          d(Energy)     d(Data)       ";
    "#        MeV           barns         MeV           barns         ";
    "        6.481         0.1009        0.2239        0.03081       ";
    "        6.942         0.1261        0.1894        0.02015       ";
    "        7.49          0.1525        0.2412        0.01422       ";
    "        8.084         0.2263        0.2582        0.0154        ";
    "        8.751         0.2669        0.293         0.01659       ";
    "        9.504         0.3029        0.3446        0.01659       ";
    "        10.34         0.3508        0.3961        0.02014       ";
    "        11.34         0.3561        0.4307        0.02015       ";
    "        12.45         0.2951        0.534         0.01776       ";
    "        13.77         0.2284        0.603         0.01539       ";
    "        15.33         0.1558        0.7231        0.0154        ";
    "        17.19         0.1178        0.8438        0.008262      ";
    "        19.34         0.1025        1.068         0.007097"]));
  ("test_angular_dist", (d <- data_set e nm ent11321 "11321004" " "%char ;; dataset_str nm d),
    (text ["#  Authors:   R.W.Hill";
    "#  Title:     Angular Distributions Of Elastic Scattering Of 5-Mev Neutrons.";
    "#  Year:      1958";
    "#  Institute: Westinghouse Research Lab., Pittsburgh, PA";
    "#  Reference: Physical Review 109, 2105 (1958)";
    "#  Subent:    11321004";
    "#  Reaction:  Differential c/s with respect to angle for 27Al(n,Elastic)27Al ";
    "#  Frame:     Lab";
    "#        EN            EN-RSL        ANG-RSL       COS           DATA          DATA-ERR      ";
    "#        MEV           MEV           ADEG          NO-DIM        MB/SR         MB/SR         ";
    "        5.0           0.1           10.0          0.866         290.0         30.0          ";
    "        5.0           0.1           10.0          0.766         212.0         10.0          ";
    "        5.0           0.1           10.0          0.643         140.0         10.0          ";
    "        5.0           0.1           10.0          0.5           70.0          9.0           ";
    "        5.0           0.1           10.0          0.342         43.0          6.0           ";
    "        5.0           0.1           10.0          0.174         40.0          5.0           ";
    "        5.0           0.1           10.0          0.0           30.0          3.0           ";
    "        5.0           0.1           10.0          -0.174        30.0          5.0           ";
    "        5.0           0.1           10.0          -0.342        25.0          4.0           ";
    "        5.0           0.1           10.0          -0.5          20.0          5.0           ";
    "        5.0           0.1           10.0          -0.643        22.0          5.0           ";
    "        5.0           0.1           10.0          -0.766        22.0          4.0           ";
    "        5.0           0.1           10.0          -0.866        25.0          4.0           ";
    "        "]));
  ("test_angular_dist", (d <- data_set e nm ent11321 "11321004" " "%char ;; d <- simplify acos d ;; dataset_str nm d),
    (text ["#  Authors:   R.W.Hill";
    "#  Title:     Angular Distributions Of Elastic Scattering Of 5-Mev Neutrons.";
    "#  Year:      1958";
    "#  Institute: Westinghouse Research Lab., Pittsburgh, PA";
    "#  Reference: Physical Review 109, 2105 (1958)";
    "#  Subent:    11321004";
    "#  Reaction:  Differential c/s with respect to angle for 27Al(n,Elastic)27Al ";
    "#  Frame:     Lab";
    "#        Energy        Angle         Data          d(Energy)     d(Angle)      d(Data)       ";
    "#        MeV           degrees       barns/ster    MeV           degrees       barns/ster    ";
    "        5.0           30.0029109312 0.29          0.05          5.0           0.03          ";
    "        5.0           40.0039613369 0.212         0.05          5.0           0.01          ";
    "        5.0           49.9841125607 0.14          0.05          5.0           0.01          ";
    "        5.0           60.0          0.07          0.05          5.0           0.009         ";
    "        5.0           70.0012281921 0.043         0.05          5.0           0.006         ";
    "        5.0           79.9795304514 0.04          0.05          5.0           0.005         ";
    "        5.0           90.0          0.03          0.05          5.0           0.003         ";
    "        5.0           100.020469549 0.03          0.05          5.0           0.005         ";
    "        5.0           109.998771808 0.025         0.05          5.0           0.004         ";
    "        5.0           120.0         0.02          0.05          5.0           0.005         ";
    "        5.0           130.015887439 0.022         0.05          5.0           0.005         ";
    "        5.0           139.996038663 0.022         0.05          5.0           0.004         ";
    "        5.0           149.997089069 0.025         0.05          5.0           0.004         ";
    "        "]));
  ("test_angular_dist_cm", (d <- data_set e nm ent11314 "11314002" " "%char ;; dataset_str nm d),
    (text ["#  Authors:   J.L.Fowler, C.H.Johnson";
    "#  Title:     Differential Elastic Scattering Cross Sections For Neutrons On Nitrogen.";
    "#  Year:      1955";
    "#  Institute: Oak Ridge National Laboratory, Oak Ridge, TN";
    "#  Reference: Physical Review 98, 728 (1955)";
    "#  Subent:    11314002";
    "#  Reaction:  Differential c/s with respect to angle for 14N(n,Elastic)14N ";
    "#  Frame:     Center of mass";
    "#        EN            EN-RSL        COS-CM        DATA-CM       ";
    "#        MEV           MEV           NO-DIM        MB/SR         ";
    "        0.8           0.05          0.85          164.0         ";
    "        0.8           0.05          0.65          170.0         ";
    "        0.8           0.05          0.46          157.0         ";
    "        0.8           0.05          0.27          167.0         ";
    "        0.8           0.05          0.07          151.0         ";
    "        0.8           0.05          -0.11         156.0         ";
    "        0.8           0.05          -0.31         165.0         ";
    "        0.8           0.05          -0.51         143.0         ";
    "        0.8           0.05          -0.7          128.0         ";
    "        0.97          0.02          0.49          90.0          ";
    "        0.97          0.02          0.45          88.0          ";
    "        0.97          0.02          0.42          83.0          ";
    "        0.97          0.02          0.39          76.0          ";
    "        0.97          0.02          0.36          76.0          ";
    "        0.97          0.02          0.31          76.0          ";
    "        0.97          0.02          0.28          80.0          ";
    "        0.97          0.02          0.24          83.0          ";
    "        0.97          0.02          0.2           82.0          ";
    "        0.97          0.02          0.17          78.0          ";
    "        0.97          0.02          0.14          78.0          ";
    "        0.97          0.02          0.1           75.0          ";
    "        0.97          0.02          0.06          76.0          ";
    "        0.97          0.02          0.02          78.0          ";
    "        0.97          0.02          -0.01         80.0          ";
    "        0.97          0.02          -0.04         80.0          ";
    "        0.97          0.02          -0.08         73.0          ";
    "        0.97          0.02          -0.12         78.0          ";
    "        0.97          0.02          -0.16         80.0          ";
    "        0.97          0.02          -0.19         70.0          ";
    "        0.97          0.02          -0.22         76.0          ";
    "        0.97          0.02          -0.26         76.0          ";
    "        0.97          0.02          -0.3          74.0          ";
    "        0.97          0.02          -0.34         73.0          ";
    "        0.97          0.02          -0.38         73.0          ";
    "        0.97          0.02          -0.41         70.0          ";
    "        0.97          0.02          -0.46         70.0          ";
    "        0.97          0.02          -0.49         66.0          ";
    "        0.97          0.02          -0.52         70.0          ";
    "        0.97          0.02          -0.54         65.0          ";
    "        0.97          0.02          -0.59         65.0          ";
    "        0.97          0.02          -0.62         70.0          ";
    "        0.97          0.02          -0.65         60.0          ";
    "        0.97          0.02          -0.68         70.0          ";
    "        0.97          0.02          -0.74         65.0          ";
    "        0.97          0.02          -0.76         65.0          ";
    "        0.97          0.02          -0.8          60.0          ";
    "        0.97          0.02          -0.84         63.0          ";
    "        0.97          0.02          -0.88         60.0          ";
    "        0.97          0.02          -0.91         55.0          ";
    "        0.97          0.02          -0.94         45.0          ";
    "        0.97          0.02          -0.98         40.0          ";
    "        1.082         0.01          0.47          148.0         ";
    "        1.082         0.01          0.41          135.0         ";
    "        1.082         0.01          0.34          145.0         ";
    "        1.082         0.01          0.28          133.0         ";
    "        1.082         0.01          0.21          126.0         ";
    "        1.082         0.01          0.15          125.0         ";
    "        1.082         0.01          0.1           135.0         ";
    "        1.082         0.01          0.02          145.0         ";
    "        1.082         0.01          -0.04         140.0         ";
    "        1.082         0.01          -0.11         130.0         ";
    "        1.082         0.01          -0.18         130.0         ";
    "        1.082         0.01          -0.23         147.0         ";
    "        1.082         0.01          -0.3          139.0         ";
    "        1.082         0.01          -0.36         138.0         ";
    "        1.082         0.01          -0.43         143.0         ";
    "        1.082         0.01          -0.5          142.0         ";
    "        1.082         0.01          -0.55         140.0         ";
    "        1.082         0.01          -0.62         143.0         ";
    "        1.082         0.01          -0.68         140.0         ";
    "        1.082         0.01          -0.76         145.0         ";
    "        1.082         0.01          -0.81         130.0         ";
    "        1.082         0.01          -0.88         117.0         ";
    "        1.082         0.01          -0.94         110.0         ";
    "        1.11          0.01          0.47          214.0         ";
    "        1.11          0.01          0.42          204.0         ";
    "        1.11          0.01          0.36          194.0         ";
    "        1.11          0.01          0.3           186.0         ";
    "        1.11          0.01          0.23          182.0         ";
    "        1.11          0.01          0.17          180.0         ";
    "        1.11          0.01          0.12          178.0         ";
    "        1.11          0.01          0.05          172.0         ";
    "        1.11          0.01          -0.02         169.0         ";
    "        1.11          0.01          -0.07         174.0         ";
    "        1.11          0.01          -0.14         168.0         ";
    "        1.11          0.01          -0.2          170.0         ";
    "        1.11          0.01          -0.26         178.0         ";
    "        1.11          0.01          -0.32         178.0         ";
    "        1.11          0.01          -0.39         187.0         ";
    "        1.11          0.01          -0.44         195.0         ";
    "        1.11          0.01          -0.5          190.0         ";
    "        1.11          0.01          -0.56         195.0         ";
    "        1.11          0.01          -0.63         202.0         ";
    "        1.11          0.01          -0.69         185.0         ";
    "        1.11          0.01          -0.76         207.0         ";
    "        1.11          0.01          -0.81         185.0         ";
    "        1.12          0.01          0.47          315.0         ";
    "        1.12          0.01          0.43          270.0         ";
    "        1.12          0.01          0.37          220.0         ";
    "        1.12          0.01          0.3           230.0         ";
    "        1.12          0.01          0.23          220.0         ";
    "        1.12          0.01          0.18          205.0         ";
    "        1.12          0.01          0.12          190.0         ";
    "        1.12          0.01          0.06          215.0         ";
    "        1.12          0.01          0.0           185.0         ";
    "        1.12          0.01          -0.06         195.0         ";
    "        1.12          0.01          -0.12         185.0         ";
    "        1.12          0.01          -0.18         175.0         ";
    "        1.12          0.01          -0.23         175.0         ";
    "        1.12          0.01          -0.3          175.0         ";
    "        1.12          0.01          -0.37         180.0         ";
    "        1.12          0.01          -0.43         175.0         ";
    "        1.12          0.01          -0.47         180.0         ";
    "        1.12          0.01          -0.54         170.0         ";
    "        1.12          0.01          -0.6          190.0         ";
    "        1.12          0.01          -0.66         175.0         ";
    "        1.12          0.01          -0.73         185.0         ";
    "        1.12          0.01          -0.8          180.0         ";
    "        1.12          0.01          -0.86         170.0         ";
    "        1.12          0.01          -0.9          145.0         ";
    "        1.12          0.01          -0.98         130.0         ";
    "        1.13          0.01          0.48          260.0         ";
    "        1.13          0.01          0.42          240.0         ";
    "        1.13          0.01          0.36          207.0         ";
    "        1.13          0.01          0.3           198.0         ";
    "        1.13          0.01          0.25          202.0         ";
    "        1.13          0.01          0.18          182.0         ";
    "        1.13          0.01          0.12          171.0         ";
    "        1.13          0.01          0.05          172.0         ";
    "        1.13          0.01          0.0           155.0         ";
    "        1.13          0.01          -0.06         165.0         ";
    "        1.13          0.01          -0.12         156.0         ";
    "        1.13          0.01          -0.2          142.0         ";
    "        1.13          0.01          -0.25         134.0         ";
    "        1.13          0.01          -0.32         140.0         ";
    "        1.13          0.01          -0.37         130.0         ";
    "        1.13          0.01          -0.44         124.0         ";
    "        1.13          0.01          -0.51         133.0         ";
    "        1.13          0.01          -0.56         133.0         ";
    "        1.13          0.01          -0.62         129.0         ";
    "        1.13          0.01          -0.68         119.0         ";
    "        1.13          0.01          -0.74         140.0         ";
    "        1.13          0.01          -0.8          121.0         ";
    "        1.13          0.01          -0.86         128.0         ";
    "        1.13          0.01          -0.92         114.0         ";
    "        1.16          0.01          0.45          132.0         ";
    "        1.16          0.01          0.385         135.0         ";
    "        1.16          0.01          0.33          127.0         ";
    "        1.16          0.01          0.27          117.0         ";
    "        1.16          0.01          0.2           116.0         ";
    "        1.16          0.01          0.15          120.0         ";
    "        1.16          0.01          0.08          125.0         ";
    "        1.16          0.01          0.04          110.0         ";
    "        1.16          0.01          -0.03         100.0         ";
    "        1.16          0.01          -0.07         105.0         ";
    "        1.16          0.01          -0.14         95.0          ";
    "        1.16          0.01          -0.2          105.0         ";
    "        1.16          0.01          -0.26         99.0          ";
    "        1.16          0.01          -0.32         110.0         ";
    "        1.16          0.01          -0.38         100.0         ";
    "        1.16          0.01          -0.43         110.0         ";
    "        1.16          0.01          -0.5          99.0          ";
    "        1.16          0.01          -0.55         105.0         ";
    "        1.16          0.01          -0.62         105.0         ";
    "        1.16          0.01          -0.67         99.0          ";
    "        1.16          0.01          -0.73         102.0         ";
    "        1.16          0.01          -0.78         105.0         ";
    "        1.16          0.01          -0.84         98.0          ";
    "        1.16          0.01          -0.9          90.0          ";
    "        1.16          0.01          -0.96         67.0          ";
    "        1.35          0.02          0.52          215.0         ";
    "        1.35          0.02          0.41          224.0         ";
    "        1.35          0.02          0.33          185.0         ";
    "        1.35          0.02          0.23          180.0         ";
    "        1.35          0.02          0.14          180.0         ";
    "        1.35          0.02          0.05          170.0         ";
    "        1.35          0.02          -0.04         163.0         ";
    "        1.35          0.02          -0.13         180.0         ";
    "        1.35          0.02          -0.22         168.0         ";
    "        1.35          0.02          -0.33         179.0         ";
    "        1.35          0.02          -0.39         193.0         ";
    "        1.35          0.02          -0.47         187.0         ";
    "        1.35          0.02          -0.57         203.0         ";
    "        1.35          0.02          -0.65         210.0         ";
    "        1.35          0.02          -0.73         218.0         ";
    "        1.35          0.02          -0.81         227.0         ";
    "        1.35          0.02          -0.92         233.0         ";
    "        1.377         0.02          0.53          210.0         ";
    "        1.377         0.02          0.43          192.0         ";
    "        1.377         0.02          0.34          190.0         ";
    "        1.377         0.02          0.23          170.0         ";
    "        1.377         0.02          0.15          176.0         ";
    "        1.377         0.02          0.07          164.0         ";
    "        1.377         0.02          -0.01         156.0         ";
    "        1.377         0.02          -0.11         158.0         ";
    "        1.377         0.02          -0.18         150.0         ";
    "        1.377         0.02          -0.28         144.0         ";
    "        1.377         0.02          -0.35         143.0         ";
    "        1.377         0.02          -0.44         140.0         ";
    "        1.377         0.02          -0.54         145.0         ";
    "        1.377         0.02          -0.63         157.0         ";
    "        1.377         0.02          -0.71         155.0         ";
    "        1.377         0.02          -0.79         158.0         ";
    "        1.377         0.02          -0.88         145.0         ";
    "        1.377         0.02          -0.98         100.0         ";
    "        1.595         0.02          0.44          320.0         ";
    "        1.595         0.02          0.35          303.0         ";
    "        1.595         0.02          0.26          265.0         ";
    "        1.595         0.02          0.16          225.0         ";
    "        1.595         0.02          0.08          223.0         ";
    "        1.595         0.02          -0.02         203.0         ";
    "        1.595         0.02          -0.11         195.0         ";
    "        1.595         0.02          -0.18         170.0         ";
    "        1.595         0.02          -0.27         168.0         ";
    "        1.595         0.02          -0.36         150.0         ";
    "        1.595         0.02          -0.46         160.0         ";
    "        1.595         0.02          -0.53         135.0         ";
    "        1.595         0.02          -0.64         150.0         ";
    "        1.595         0.02          -0.73         125.0         ";
    "        1.595         0.02          -0.82         110.0         ";
    "        1.595         0.02          -0.92         100.0         ";
    "        1.682         0.02          0.5           170.0         ";
    "        1.682         0.02          0.36          153.0         ";
    "        1.682         0.02          0.26          160.0         ";
    "        1.682         0.02          0.16          143.0         ";
    "        1.682         0.02          0.07          150.0         ";
    "        1.682         0.02          -0.05         130.0         ";
    "        1.682         0.02          -0.14         143.0         ";
    "        1.682         0.02          -0.25         140.0         ";
    "        1.682         0.02          -0.34         138.0         ";
    "        1.682         0.02          -0.45         140.0         ";
    "        1.682         0.02          -0.54         140.0         ";
    "        1.682         0.02          -0.66         150.0         ";
    "        1.682         0.02          -0.76         140.0         ";
    "        1.682         0.02          -0.87         125.0         ";
    "        1.682         0.02          -0.97         80.0          ";
    "        1.756         0.025         0.5           193.0         ";
    "        1.756         0.025         0.4           163.0         ";
    "        1.756         0.025         0.3           155.0         ";
    "        1.756         0.025         0.21          137.0         ";
    "        1.756         0.025         0.09          124.0         ";
    "        1.756         0.025         0.0           123.0         ";
    "        1.756         0.025         -0.09         127.0         ";
    "        1.756         0.025         -0.19         122.0         ";
    "        1.756         0.025         -0.28         128.0         ";
    "        1.756         0.025         -0.38         145.0         ";
    "        1.756         0.025         -0.47         144.0         ";
    "        1.756         0.025         -0.59         178.0         ";
    "        1.756         0.025         -0.69         210.0         ";
    "        1.756         0.025         -0.79         221.0         ";
    "        1.756         0.025         -0.88         245.0         ";
    "        1.779         0.025         0.53          170.0         ";
    "        1.779         0.025         0.42          148.0         ";
    "        1.779         0.025         0.32          140.0         ";
    "        1.779         0.025         0.23          130.0         ";
    "        1.779         0.025         0.13          125.0         ";
    "        1.779         0.025         0.03          130.0         ";
    "        1.779         0.025         -0.06         120.0         ";
    "        1.779         0.025         -0.15         120.0         ";
    "        1.779         0.025         -0.25         125.0         ";
    "        1.779         0.025         -0.34         130.0         ";
    "        1.779         0.025         -0.44         140.0         ";
    "        1.779         0.025         -0.54         180.0         ";
    "        1.779         0.025         -0.64         198.0         ";
    "        1.779         0.025         -0.73         230.0         ";
    "        1.779         0.025         -0.83         260.0         ";
    "        1.779         0.025         -0.92         240.0         ";
    "        1.796         0.025         0.47          181.0         ";
    "        1.796         0.025         0.4           146.0         ";
    "        1.796         0.025         0.3           138.0         ";
    "        1.796         0.025         0.2           125.0         ";
    "        1.796         0.025         0.11          121.0         ";
    "        1.796         0.025         0.01          125.0         ";
    "        1.796         0.025         -0.1          118.0         ";
    "        1.796         0.025         -0.18         106.0         ";
    "        1.796         0.025         -0.27         135.0         ";
    "        1.796         0.025         -0.36         133.0         ";
    "        1.796         0.025         -0.46         141.0         ";
    "        1.796         0.025         -0.56         142.0         ";
    "        1.796         0.025         -0.67         158.0         ";
    "        1.796         0.025         -0.75         178.0         ";
    "        1.796         0.025         -0.86         208.0         ";
    "        2.07          0.02          0.52          145.0         ";
    "        2.07          0.02          0.42          135.0         ";
    "        2.07          0.02          0.33          135.0         ";
    "        2.07          0.02          0.24          126.0         ";
    "        2.07          0.02          0.12          122.0         ";
    "        2.07          0.02          0.03          120.0         ";
    "        2.07          0.02          -0.06         114.0         ";
    "        2.07          0.02          -0.16         127.0         ";
    "        2.07          0.02          -0.26         110.0         ";
    "        2.07          0.02          -0.36         108.0         ";
    "        2.07          0.02          -0.44         117.0         ";
    "        2.07          0.02          -0.54         115.0         ";
    "        2.07          0.02          -0.64         115.0         ";
    "        2.07          0.02          -0.73         110.0         ";
    "        2.07          0.02          -0.82         110.0         ";
    "        2.07          0.02          -0.92         95.0          ";
    "        2.25          0.02          0.55          174.0         ";
    "        2.25          0.02          0.46          155.0         ";
    "        2.25          0.02          0.39          149.0         ";
    "        2.25          0.02          0.3           137.0         ";
    "        2.25          0.02          0.21          128.0         ";
    "        2.25          0.02          0.12          116.0         ";
    "        2.25          0.02          0.02          103.0         ";
    "        2.25          0.02          -0.08         105.0         ";
    "        2.25          0.02          -0.18         108.0         ";
    "        2.25          0.02          -0.26         102.0         ";
    "        2.25          0.02          -0.32         103.0         ";
    "        2.25          0.02          -0.42         92.0          ";
    "        2.25          0.02          -0.5          81.0          ";
    "        2.25          0.02          -0.59         78.0          ";
    "        2.25          0.02          -0.67         96.0          ";
    "        2.25          0.02          -0.76         73.0          ";
    "        2.25          0.02          -0.85         77.0          ";
    "        2.36          0.02          0.49          145.0         ";
    "        2.36          0.02          0.41          140.0         ";
    "        2.36          0.02          0.33          125.0         ";
    "        2.36          0.02          0.25          106.0         ";
    "        2.36          0.02          0.17          106.0         ";
    "        2.36          0.02          0.07          105.0         ";
    "        2.36          0.02          0.0           121.0         ";
    "        2.36          0.02          -0.07         102.0         ";
    "        2.36          0.02          -0.16         111.0         ";
    "        2.36          0.02          -0.23         110.0         ";
    "        2.36          0.02          -0.33         115.0         ";
    "        2.36          0.02          -0.41         115.0         ";
    "        2.36          0.02          -0.5          107.0         ";
    "        2.36          0.02          -0.57         106.0         ";
    "        2.36          0.02          -0.66         115.0         ";
    "        2.36          0.02          -0.75         105.0         ";
    "        2.36          0.02          -0.84         103.0         ";
    "        "]));
  ("test_angular_dist_cm", (d <- data_set e nm ent11314 "11314002" " "%char ;; d <- simplify acos d ;; dataset_str nm d),
    (text ["#  Authors:   J.L.Fowler, C.H.Johnson";
    "#  Title:     Differential Elastic Scattering Cross Sections For Neutrons On Nitrogen.";
    "#  Year:      1955";
    "#  Institute: Oak Ridge National Laboratory, Oak Ridge, TN";
    "#  Reference: Physical Review 98, 728 (1955)";
    "#  Subent:    11314002";
    "#  Reaction:  Differential c/s with respect to angle for 14N(n,Elastic)14N ";
    "#  Frame:     Center of mass";
    "#        Energy        Angle         Data          d(Energy)     ";
    "#        MeV           degrees       barns/ster    MeV           ";
    "        0.8           31.7883306171 0.164         0.025         ";
    "        0.8           49.4583981265 0.17          0.025         ";
    "        0.8           62.6128924973 0.157         0.025         ";
    "        0.8           74.3357331486 0.167         0.025         ";
    "        0.8           85.9860127819 0.151         0.025         ";
    "        0.8           96.3153155694 0.156         0.025         ";
    "        0.8           108.059230491 0.165         0.025         ";
    "        0.8           120.663829742 0.143         0.025         ";
    "        0.8           134.427004001 0.128         0.025         ";
    "        0.97          60.659418425  0.09          0.01          ";
    "        0.97          63.2563160496 0.088         0.01          ";
    "        0.97          65.1654125103 0.083         0.01          ";
    "        0.97          67.0455005986 0.076         0.01          ";
    "        0.97          68.8998039759 0.076         0.01          ";
    "        0.97          71.9407695092 0.076         0.01          ";
    "        0.97          73.7397952917 0.08          0.01          ";
    "        0.97          76.1134596374 0.083         0.01          ";
    "        0.97          78.4630409672 0.082         0.01          ";
    "        0.97          80.2121809433 0.078         0.01          ";
    "        0.97          81.9521537527 0.078         0.01          ";
    "        0.97          84.2608295227 0.075         0.01          ";
    "        0.97          86.5601872325 0.076         0.01          ";
    "        0.97          88.8540080016 0.078         0.01          ";
    "        0.97          90.5729673449 0.08          0.01          ";
    "        0.97          92.292442776  0.08          0.01          ";
    "        0.97          94.5885657358 0.073         0.01          ";
    "        0.97          96.8921025793 0.078         0.01          ";
    "        0.97          99.2068962213 0.08          0.01          ";
    "        0.97          100.952784199 0.07          0.01          ";
    "        0.97          102.709032994 0.076         0.01          ";
    "        0.97          105.070062145 0.076         0.01          ";
    "        0.97          107.457603124 0.074         0.01          ";
    "        0.97          109.87687407  0.073         0.01          ";
    "        0.97          112.333682658 0.073         0.01          ";
    "        0.97          114.204834801 0.07          0.01          ";
    "        0.97          117.387107503 0.07          0.01          ";
    "        0.97          119.340581575 0.066         0.01          ";
    "        0.97          121.332251498 0.07          0.01          ";
    "        0.97          122.683638846 0.065         0.01          ";
    "        0.97          126.157008201 0.065         0.01          ";
    "        0.97          128.316134474 0.07          0.01          ";
    "        0.97          130.541601874 0.06          0.01          ";
    "        0.97          132.843643044 0.07          0.01          ";
    "        0.97          137.73141557  0.065         0.01          ";
    "        0.97          139.464197889 0.065         0.01          ";
    "        0.97          143.130102354 0.06          0.01          ";
    "        0.97          147.140119621 0.063         0.01          ";
    "        0.97          151.642363424 0.06          0.01          ";
    "        0.97          155.505351529 0.055         0.01          ";
    "        0.97          160.051556411 0.045         0.01          ";
    "        0.97          168.521659045 0.04          0.01          ";
    "        1.082         61.9657034651 0.148         0.005         ";
    "        1.082         65.7951651985 0.135         0.005         ";
    "        1.082         70.1231259299 0.145         0.005         ";
    "        1.082         73.7397952917 0.133         0.005         ";
    "        1.082         77.8776477552 0.126         0.005         ";
    "        1.082         81.3730734413 0.125         0.005         ";
    "        1.082         84.2608295227 0.135         0.005         ";
    "        1.082         88.8540080016 0.145         0.005         ";
    "        1.082         92.292442776  0.14          0.005         ";
    "        1.082         96.3153155694 0.13          0.005         ";
    "        1.082         100.369759805 0.13          0.005         ";
    "        1.082         103.297071747 0.147         0.005         ";
    "        1.082         107.457603124 0.139         0.005         ";
    "        1.082         111.100196024 0.138         0.005         ";
    "        1.082         115.467560142 0.143         0.005         ";
    "        1.082         120.0         0.142         0.005         ";
    "        1.082         123.367012969 0.14          0.005         ";
    "        1.082         128.316134474 0.143         0.005         ";
    "        1.082         132.843643044 0.14          0.005         ";
    "        1.082         139.464197889 0.145         0.005         ";
    "        1.082         144.095931417 0.13          0.005         ";
    "        1.082         151.642363424 0.117         0.005         ";
    "        1.082         160.051556411 0.11          0.005         ";
    "        1.11          61.9657034651 0.214         0.005         ";
    "        1.11          65.1654125103 0.204         0.005         ";
    "        1.11          68.8998039759 0.194         0.005         ";
    "        1.11          72.5423968763 0.186         0.005         ";
    "        1.11          76.7029282528 0.182         0.005         ";
    "        1.11          80.2121809433 0.18          0.005         ";
    "        1.11          83.1078974207 0.178         0.005         ";
    "        1.11          87.1340160174 0.172         0.005         ";
    "        1.11          91.1459919984 0.169         0.005         ";
    "        1.11          94.0139872181 0.174         0.005         ";
    "        1.11          98.0478462473 0.168         0.005         ";
    "        1.11          101.536959033 0.17          0.005         ";
    "        1.11          105.070062145 0.178         0.005         ";
    "        1.11          108.662924885 0.178         0.005         ";
    "        1.11          112.954499401 0.187         0.005         ";
    "        1.11          116.103881137 0.195         0.005         ";
    "        1.11          120.0         0.19          0.005         ";
    "        1.11          124.055797743 0.195         0.005         ";
    "        1.11          129.050122536 0.202         0.005         ";
    "        1.11          133.630108868 0.185         0.005         ";
    "        1.11          139.464197889 0.207         0.005         ";
    "        1.11          144.095931417 0.185         0.005         ";
    "        1.12          61.9657034651 0.315         0.005         ";
    "        1.12          64.5324398575 0.27          0.005         ";
    "        1.12          68.2843827167 0.22          0.005         ";
    "        1.12          72.5423968763 0.23          0.005         ";
    "        1.12          76.7029282528 0.22          0.005         ";
    "        1.12          79.6302401945 0.205         0.005         ";
    "        1.12          83.1078974207 0.19          0.005         ";
    "        1.12          86.5601872325 0.215         0.005         ";
    "        1.12          90.0          0.185         0.005         ";
    "        1.12          93.4398127675 0.195         0.005         ";
    "        1.12          96.8921025793 0.185         0.005         ";
    "        1.12          100.369759805 0.175         0.005         ";
    "        1.12          103.297071747 0.175         0.005         ";
    "        1.12          107.457603124 0.175         0.005         ";
    "        1.12          111.715617283 0.18          0.005         ";
    "        1.12          115.467560142 0.175         0.005         ";
    "        1.12          118.034296535 0.18          0.005         ";
    "        1.12          122.683638846 0.17          0.005         ";
    "        1.12          126.869897646 0.19          0.005         ";
    "        1.12          131.299872792 0.175         0.005         ";
    "        1.12          136.886394054 0.185         0.005         ";
    "        1.12          143.130102354 0.18          0.005         ";
    "        1.12          149.316582891 0.17          0.005         ";
    "        1.12          154.158067237 0.145         0.005         ";
    "        1.12          168.521659045 0.13          0.005         ";
    "        1.13          61.3145979859 0.26          0.005         ";
    "        1.13          65.1654125103 0.24          0.005         ";
    "        1.13          68.8998039759 0.207         0.005         ";
    "        1.13          72.5423968763 0.198         0.005         ";
    "        1.13          75.5224878141 0.202         0.005         ";
    "        1.13          79.6302401945 0.182         0.005         ";
    "        1.13          83.1078974207 0.171         0.005         ";
    "        1.13          87.1340160174 0.172         0.005         ";
    "        1.13          90.0          0.155         0.005         ";
    "        1.13          93.4398127675 0.165         0.005         ";
    "        1.13          96.8921025793 0.156         0.005         ";
    "        1.13          101.536959033 0.142         0.005         ";
    "        1.13          104.477512186 0.134         0.005         ";
    "        1.13          108.662924885 0.14          0.005         ";
    "        1.13          111.715617283 0.13          0.005         ";
    "        1.13          116.103881137 0.124         0.005         ";
    "        1.13          120.663829742 0.133         0.005         ";
    "        1.13          124.055797743 0.133         0.005         ";
    "        1.13          128.316134474 0.129         0.005         ";
    "        1.13          132.843643044 0.119         0.005         ";
    "        1.13          137.73141557  0.14          0.005         ";
    "        1.13          143.130102354 0.121         0.005         ";
    "        1.13          149.316582891 0.128         0.005         ";
    "        1.13          156.926081934 0.114         0.005         ";
    "        1.16          63.2563160496 0.132         0.005         ";
    "        1.16          67.3562597371 0.135         0.005         ";
    "        1.16          70.7312245085 0.127         0.005         ";
    "        1.16          74.3357331486 0.117         0.005         ";
    "        1.16          78.4630409672 0.116         0.005         ";
    "        1.16          81.3730734413 0.12          0.005         ";
    "        1.16          85.4114342642 0.125         0.005         ";
    "        1.16          87.707557224  0.11          0.005         ";
    "        1.16          91.7191313209 0.1           0.005         ";
    "        1.16          94.0139872181 0.105         0.005         ";
    "        1.16          98.0478462473 0.095         0.005         ";
    "        1.16          101.536959033 0.105         0.005         ";
    "        1.16          105.070062145 0.099         0.005         ";
    "        1.16          108.662924885 0.11          0.005         ";
    "        1.16          112.333682658 0.1           0.005         ";
    "        1.16          115.467560142 0.11          0.005         ";
    "        1.16          120.0         0.099         0.005         ";
    "        1.16          123.367012969 0.105         0.005         ";
    "        1.16          128.316134474 0.105         0.005         ";
    "        1.16          132.067064802 0.099         0.005         ";
    "        1.16          136.886394054 0.102         0.005         ";
    "        1.16          141.260575402 0.105         0.005         ";
    "        1.16          147.140119621 0.098         0.005         ";
    "        1.16          154.158067237 0.09          0.005         ";
    "        1.16          163.739795292 0.067         0.005         ";
    "        1.35          58.6677485024 0.215         0.01          ";
    "        1.35          65.7951651985 0.224         0.01          ";
    "        1.35          70.7312245085 0.185         0.01          ";
    "        1.35          76.7029282528 0.18          0.01          ";
    "        1.35          81.9521537527 0.18          0.01          ";
    "        1.35          87.1340160174 0.17          0.01          ";
    "        1.35          92.292442776  0.163         0.01          ";
    "        1.35          97.4695923164 0.18          0.01          ";
    "        1.35          102.709032994 0.168         0.01          ";
    "        1.35          109.268775491 0.179         0.01          ";
    "        1.35          112.954499401 0.193         0.01          ";
    "        1.35          118.034296535 0.187         0.01          ";
    "        1.35          124.750225754 0.203         0.01          ";
    "        1.35          130.541601874 0.21          0.01          ";
    "        1.35          136.886394054 0.218         0.01          ";
    "        1.35          144.095931417 0.227         0.01          ";
    "        1.35          156.926081934 0.233         0.01          ";
    "        1.377         57.9945451722 0.21          0.01          ";
    "        1.377         64.5324398575 0.192         0.01          ";
    "        1.377         70.1231259299 0.19          0.01          ";
    "        1.377         76.7029282528 0.17          0.01          ";
    "        1.377         81.3730734413 0.176         0.01          ";
    "        1.377         85.9860127819 0.164         0.01          ";
    "        1.377         90.5729673449 0.156         0.01          ";
    "        1.377         96.3153155694 0.158         0.01          ";
    "        1.377         100.369759805 0.15          0.01          ";
    "        1.377         106.260204708 0.144         0.01          ";
    "        1.377         110.487315115 0.143         0.01          ";
    "        1.377         116.103881137 0.14          0.01          ";
    "        1.377         122.683638846 0.145         0.01          ";
    "        1.377         129.050122536 0.157         0.01          ";
    "        1.377         135.234915329 0.155         0.01          ";
    "        1.377         142.185511494 0.158         0.01          ";
    "        1.377         151.642363424 0.145         0.01          ";
    "        1.377         168.521659045 0.1           0.01          ";
    "        1.595         63.8961188627 0.32          0.01          ";
    "        1.595         69.5126848853 0.303         0.01          ";
    "        1.595         74.9299378551 0.265         0.01          ";
    "        1.595         80.7931037787 0.225         0.01          ";
    "        1.595         85.4114342642 0.223         0.01          ";
    "        1.595         91.1459919984 0.203         0.01          ";
    "        1.595         96.3153155694 0.195         0.01          ";
    "        1.595         100.369759805 0.17          0.01          ";
    "        1.595         105.664266851 0.168         0.01          ";
    "        1.595         111.100196024 0.15          0.01          ";
    "        1.595         117.387107503 0.16          0.01          ";
    "        1.595         122.005454828 0.135         0.01          ";
    "        1.595         129.7918195   0.15          0.01          ";
    "        1.595         136.886394054 0.125         0.01          ";
    "        1.595         145.084793753 0.11          0.01          ";
    "        1.595         156.926081934 0.1           0.01          ";
    "        1.682         60.0          0.17          0.01          ";
    "        1.682         68.8998039759 0.153         0.01          ";
    "        1.682         74.9299378551 0.16          0.01          ";
    "        1.682         80.7931037787 0.143         0.01          ";
    "        1.682         85.9860127819 0.15          0.01          ";
    "        1.682         92.8659839826 0.13          0.01          ";
    "        1.682         98.0478462473 0.143         0.01          ";
    "        1.682         104.477512186 0.14          0.01          ";
    "        1.682         109.87687407  0.138         0.01          ";
    "        1.682         116.74368395  0.14          0.01          ";
    "        1.682         122.683638846 0.14          0.01          ";
    "        1.682         131.299872792 0.15          0.01          ";
    "        1.682         139.464197889 0.14          0.01          ";
    "        1.682         150.4586395   0.125         0.01          ";
    "        1.682         165.930132252 0.08          0.01          ";
    "        1.756         60.0          0.193         0.0125        ";
    "        1.756         66.4218215218 0.163         0.0125        ";
    "        1.756         72.5423968763 0.155         0.0125        ";
    "        1.756         77.8776477552 0.137         0.0125        ";
    "        1.756         84.8363929092 0.124         0.0125        ";
    "        1.756         90.0          0.123         0.0125        ";
    "        1.756         95.1636070908 0.127         0.0125        ";
    "        1.756         100.952784199 0.122         0.0125        ";
    "        1.756         106.260204708 0.128         0.0125        ";
    "        1.756         112.333682658 0.145         0.0125        ";
    "        1.756         118.034296535 0.144         0.0125        ";
    "        1.756         126.157008201 0.178         0.0125        ";
    "        1.756         133.630108868 0.21          0.0125        ";
    "        1.756         142.185511494 0.221         0.0125        ";
    "        1.756         151.642363424 0.245         0.0125        ";
    "        1.779         57.9945451722 0.17          0.0125        ";
    "        1.779         65.1654125103 0.148         0.0125        ";
    "        1.779         71.3370751151 0.14          0.0125        ";
    "        1.779         76.7029282528 0.13          0.0125        ";
    "        1.779         82.5304076836 0.125         0.0125        ";
    "        1.779         88.2808686791 0.13          0.0125        ";
    "        1.779         93.4398127675 0.12          0.0125        ";
    "        1.779         98.6269265587 0.12          0.0125        ";
    "        1.779         104.477512186 0.125         0.0125        ";
    "        1.779         109.87687407  0.13          0.0125        ";
    "        1.779         116.103881137 0.14          0.0125        ";
    "        1.779         122.683638846 0.18          0.0125        ";
    "        1.779         129.7918195   0.198         0.0125        ";
    "        1.779         136.886394054 0.23          0.0125        ";
    "        1.779         146.098738003 0.26          0.0125        ";
    "        1.779         156.926081934 0.24          0.0125        ";
    "        1.796         61.9657034651 0.181         0.0125        ";
    "        1.796         66.4218215218 0.146         0.0125        ";
    "        1.796         72.5423968763 0.138         0.0125        ";
    "        1.796         78.4630409672 0.125         0.0125        ";
    "        1.796         83.6846844306 0.121         0.0125        ";
    "        1.796         89.4270326551 0.125         0.0125        ";
    "        1.796         95.7391704773 0.118         0.0125        ";
    "        1.796         100.369759805 0.106         0.0125        ";
    "        1.796         105.664266851 0.135         0.0125        ";
    "        1.796         111.100196024 0.133         0.0125        ";
    "        1.796         117.387107503 0.141         0.0125        ";
    "        1.796         124.055797743 0.142         0.0125        ";
    "        1.796         132.067064802 0.158         0.0125        ";
    "        1.796         138.590377891 0.178         0.0125        ";
    "        1.796         149.316582891 0.208         0.0125        ";
    "        2.07          58.6677485024 0.145         0.01          ";
    "        2.07          65.1654125103 0.135         0.01          ";
    "        2.07          70.7312245085 0.135         0.01          ";
    "        2.07          76.1134596374 0.126         0.01          ";
    "        2.07          83.1078974207 0.122         0.01          ";
    "        2.07          88.2808686791 0.12          0.01          ";
    "        2.07          93.4398127675 0.114         0.01          ";
    "        2.07          99.2068962213 0.127         0.01          ";
    "        2.07          105.070062145 0.11          0.01          ";
    "        2.07          111.100196024 0.108         0.01          ";
    "        2.07          116.103881137 0.117         0.01          ";
    "        2.07          122.683638846 0.115         0.01          ";
    "        2.07          129.7918195   0.115         0.01          ";
    "        2.07          136.886394054 0.11          0.01          ";
    "        2.07          145.084793753 0.11          0.01          ";
    "        2.07          156.926081934 0.095         0.01          ";
    "        2.25          56.6329870308 0.174         0.01          ";
    "        2.25          62.6128924973 0.155         0.01          ";
    "        2.25          67.0455005986 0.149         0.01          ";
    "        2.25          72.5423968763 0.137         0.01          ";
    "        2.25          77.8776477552 0.128         0.01          ";
    "        2.25          83.1078974207 0.116         0.01          ";
    "        2.25          88.8540080016 0.103         0.01          ";
    "        2.25          94.5885657358 0.105         0.01          ";
    "        2.25          100.369759805 0.108         0.01          ";
    "        2.25          105.070062145 0.102         0.01          ";
    "        2.25          108.662924885 0.103         0.01          ";
    "        2.25          114.83458749  0.092         0.01          ";
    "        2.25          120.0         0.081         0.01          ";
    "        2.25          126.157008201 0.078         0.01          ";
    "        2.25          132.067064802 0.096         0.01          ";
    "        2.25          139.464197889 0.073         0.01          ";
    "        2.25          148.211669383 0.077         0.01          ";
    "        2.36          60.659418425  0.145         0.01          ";
    "        2.36          65.7951651985 0.14          0.01          ";
    "        2.36          70.7312245085 0.125         0.01          ";
    "        2.36          75.5224878141 0.106         0.01          ";
    "        2.36          80.2121809433 0.106         0.01          ";
    "        2.36          85.9860127819 0.105         0.01          ";
    "        2.36          90.0          0.121         0.01          ";
    "        2.36          94.0139872181 0.102         0.01          ";
    "        2.36          99.2068962213 0.111         0.01          ";
    "        2.36          103.297071747 0.11          0.01          ";
    "        2.36          109.268775491 0.115         0.01          ";
    "        2.36          114.204834801 0.115         0.01          ";
    "        2.36          120.0         0.107         0.01          ";
    "        2.36          124.750225754 0.106         0.01          ";
    "        2.36          131.299872792 0.115         0.01          ";
    "        2.36          138.590377891 0.105         0.01          ";
    "        2.36          147.140119621 0.103         0.01          ";
    "        "]));
  ("test_nubar", (d <- data_set e nm ent12326 "12326006" " "%char ;; dataset_str nm d),
    (text ["#  Authors:   J.C.Hopkins, B.C.Diven";
    "#  Title:     Prompt Neutrons From Fission.";
    "#  Year:      1963";
    "#  Institute: Los Alamos National Laboratory, NM";
    "#  Reference: Nuclear Physics 48, 433 (1963)";
    "#  Subent:    12326006";
    "#  Reaction:  Prompt neutron yield (nu-bar) for 239Pu(n,Fission) ";
    "#        MONIT         EN            EN-RSL        DATA          ERR-SYS       ERR-T         ";
    "#        PRT/FIS       MEV           MEV           PRT/FIS       PRT/FIS       PRT/FIS       ";
    "        3.771         0.25          0.05          2.931         0.029         0.039         ";
    "        3.771         0.42          0.11          2.957         0.03          0.046         ";
    "        3.771         0.61          0.07          2.904         0.029         0.041         ";
    "        3.771         0.9           0.08          3.004         0.03          0.041         ";
    "        3.771         3.9           0.29          3.422         0.038         0.039         ";
    "        3.771         14.5          1.0           4.942         0.076         0.119         ";
    "        "]));
  ("test_nubar", (d <- data_set e nm ent12326 "12326006" " "%char ;; d <- simplify acos d ;; dataset_str nm d),
    (text ["#  Authors:   J.C.Hopkins, B.C.Diven";
    "#  Title:     Prompt Neutrons From Fission.";
    "#  Year:      1963";
    "#  Institute: Los Alamos National Laboratory, NM";
    "#  Reference: Nuclear Physics 48, 433 (1963)";
    "#  Subent:    12326006";
    "#  Reaction:  Prompt neutron yield (nu-bar) for 239Pu(n,Fission) ";
    "#        Energy        Data          d(Energy)     d(Data)       ";
    "#        MeV           ptcls/fis     MeV           ptcls/fis     ";
    "        0.25          2.931         0.025         0.039         ";
    "        0.42          2.957         0.055         0.046         ";
    "        0.61          2.904         0.035         0.041         ";
    "        0.9           3.004         0.04          0.041         ";
    "        3.9           3.422         0.145         0.039         ";
    "        14.5          4.942         0.5           0.119         ";
    "        "]));
  ("test_energy_spectrum", (d <- data_set e nm ent20576 "20576003" " "%char ;; s <- dataset_str nm d ;; Ok (strip s)),
    (text ["#  Authors:   H.H.Knitter";
    "#  Title:     Measurement Of The Energy Spectrum Of Prompt Neutrons From The Fission Of Pu239 By 0.215 Mev Neutrons";
    "#  Year:      1975";
    "#  Institute: Inst. for Ref. Mat. and Meas. (IRNM), Geel";
    "#  Reference: Atomkernenergie 26, 76 (1975)";
    "#  Subent:    20576003";
    "#  Reaction:  Relative data  for 239Pu(n,Fission) Reference quantity not given";
    "#        EN            EN-RSL        E             E-RSL         DATA          DATA-ERR      ERR-1         ";
    "#        KEV           KEV           MEV           MEV           ARB-UNITS     ARB-UNITS     PER-CENT      ";
    "        215.0         32.0          0.28          0.01          66.8          2.5           2.0           ";
    "        215.0         32.0          0.31          0.01          70.2          2.4           2.0           ";
    "        215.0         32.0          0.34          0.01          65.1          2.2           2.0           ";
    "        215.0         32.0          0.36          0.01          70.5          2.2           2.0           ";
    "        215.0         32.0          0.39          0.01          68.8          2.1           2.0           ";
    "        215.0         32.0          0.41          0.01          74.2          2.1           2.0           ";
    "        215.0         32.0          0.44          0.01          75.6          2.2           2.0           ";
    "        215.0         32.0          0.46          0.01          74.8          2.1           2.0           ";
    "        215.0         32.0          0.49          0.01          74.8          2.1           2.0           ";
    "        215.0         32.0          0.51          0.01          73.6          2.0           2.0           ";
    "        215.0         32.0          0.54          0.01          74.2          2.0           2.0           ";
    "        215.0         32.0          0.56          0.01          75.7          2.0           2.0           ";
    "        215.0         32.0          0.59          0.01          75.8          2.0           2.0           ";
    "        215.0         32.0          0.61          0.01          76.6          2.1           2.0           ";
    "        215.0         32.0          0.63          0.01          75.4          2.0           2.0           ";
    "        215.0         32.0          0.66          0.01          78.7          2.1           2.0           ";
    "        215.0         32.0          0.69          0.01          76.3          2.0           2.0           ";
    "        215.0         32.0          0.71          0.01          78.6          2.1           2.0           ";
    "        215.0         32.0          0.73          0.01          74.6          2.1           2.0           ";
    "        215.0         32.0          0.76          0.01          78.7          2.0           2.0           ";
    "        215.0         32.0          0.79          0.02          79.4          2.1           2.0           ";
    "        215.0         32.0          0.81          0.02          78.3          2.1           2.0           ";
    "        215.0         32.0          0.84          0.02          76.6          2.0           2.0           ";
    "        215.0         32.0          0.86          0.02          80.0          2.2           2.0           ";
    "        215.0         32.0          0.89          0.02          81.0          2.1           2.0           ";
    "        215.0         32.0          0.91          0.02          80.2          2.1           2.0           ";
    "        215.0         32.0          0.94          0.02          79.5          2.1           2.0           ";
    "        215.0         32.0          0.96          0.02          78.4          2.1           2.0           ";
    "        215.0         32.0          0.98          0.02          77.8          2.1           2.0           ";
    "        215.0         32.0          1.01          0.02          76.8          2.2           2.0           ";
    "        215.0         32.0          1.04          0.02          78.4          2.0           2.0           ";
    "        215.0         32.0          1.06          0.02          78.3          2.2           2.0           ";
    "        215.0         32.0          1.09          0.02          77.8          2.1           2.0           ";
    "        215.0         32.0          1.11          0.02          74.9          2.1           2.0           ";
    "        215.0         32.0          1.13          0.03          75.1          2.1           2.0           ";
    "        215.0         32.0          1.16          0.03          76.0          2.1           2.0           ";
    "        215.0         32.0          1.19          0.03          76.1          2.1           2.0           ";
    "        215.0         32.0          1.21          0.03          74.0          2.0           2.0           ";
    "        215.0         32.0          1.24          0.03          73.5          2.2           2.0           ";
    "        215.0         32.0          1.26          0.03          76.7          1.6           2.0           ";
    "        215.0         32.0          1.29          0.03          74.5          1.6           2.0           ";
    "        215.0         32.0          1.32          0.03          72.3          1.5           2.0           ";
    "        215.0         32.0          1.35          0.03          72.8          1.5           2.0           ";
    "        215.0         32.0          1.39          0.04          72.2          1.5           2.0           ";
    "        215.0         32.0          1.42          0.04          72.1          1.5           2.0           ";
    "        215.0         32.0          1.45          0.04          69.1          1.7           2.0           ";
    "        215.0         32.0          1.47          0.04          70.7          1.8           2.0           ";
    "        215.0         32.0          1.5           0.04          71.3          1.8           2.0           ";
    "        215.0         32.0          1.52          0.04          67.3          1.7           2.0           ";
    "        215.0         32.0          1.55          0.04          68.4          1.7           2.0           ";
    "        215.0         32.0          1.58          0.04          65.1          1.6           2.0           ";
    "        215.0         32.0          1.6           0.04          65.7          1.6           2.0           ";
    "        215.0         32.0          1.63          0.04          64.3          1.6           2.0           ";
    "        215.0         32.0          1.66          0.05          64.1          1.6           2.0           ";
    "        215.0         32.0          1.69          0.05          64.7          1.6           2.0           ";
    "        215.0         32.0          1.72          0.05          61.9          1.5           2.0           ";
    "        215.0         32.0          1.75          0.05          63.1          1.5           2.0           ";
    "        215.0         32.0          1.79          0.05          63.0          1.5           2.0           ";
    "        215.0         32.0          1.82          0.05          60.9          1.5           2.0           ";
    "        215.0         32.0          1.85          0.05          59.9          1.5           2.0           ";
    "        215.0         32.0          1.89          0.06          58.7          1.4           2.0           ";
    "        215.0         32.0          1.93          0.06          58.0          1.4           2.0           ";
    "        215.0         32.0          1.96          0.06          57.0          1.4           2.0           ";
    "        215.0         32.0          2.0           0.06          56.1          1.4           2.0           ";
    "        215.0         32.0          2.04          0.06          54.6          1.3           2.0           ";
    "        215.0         32.0          2.07          0.06          54.1          1.8           2.0           ";
    "        215.0         32.0          2.09          0.06          52.7          1.8           2.0           ";
    "        215.0         32.0          2.11          0.07          52.0          1.8           2.0           ";
    "        215.0         32.0          2.14          0.07          51.6          1.8           2.0           ";
    "        215.0         32.0          2.16          0.07          52.9          1.8           2.0           ";
    "        215.0         32.0          2.18          0.07          51.0          1.7           2.0           ";
    "        215.0         32.0          2.2           0.07          51.0          1.7           2.0           ";
    "        215.0         32.0          2.22          0.07          49.6          1.7           2.0           ";
    "        215.0         32.0          2.25          0.07          48.9          1.7           2.0           ";
    "        215.0         32.0          2.27          0.07          47.3          1.6           2.0           ";
    "        215.0         32.0          2.29          0.07          49.5          1.7           2.0           ";
    "        215.0         32.0          2.32          0.07          46.6          1.6           None          ";
    "        215.0         32.0          2.34          0.07          45.4          1.6           None          ";
    "        215.0         32.0          2.37          0.08          46.2          1.6           None          ";
    "        215.0         32.0          2.39          0.08          46.6          1.6           None          ";
    "        215.0         32.0          2.42          0.08          45.3          1.5           None          ";
    "        215.0         32.0          2.44          0.08          44.0          1.5           None          ";
    "        215.0         32.0          2.47          0.08          44.6          1.5           None          ";
    "        215.0         32.0          2.5           0.08          41.6          1.4           None          ";
    "        215.0         32.0          2.53          0.09          43.4          1.5           None          ";
    "        215.0         32.0          2.56          0.09          41.3          1.4           None          ";
    "        215.0         32.0          2.58          0.09          43.2          1.5           None          ";
    "        215.0         32.0          2.61          0.09          41.4          1.4           None          ";
    "        215.0         32.0          2.64          0.09          39.5          1.4           None          ";
    "        215.0         32.0          2.67          0.09          38.9          1.3           None          ";
    "        215.0         32.0          2.7           0.09          39.7          1.4           None          ";
    "        215.0         32.0          2.73          0.1           37.5          1.3           None          ";
    "        215.0         32.0          2.76          0.1           36.4          1.2           None          ";
    "        215.0         32.0          2.79          0.1           36.1          1.2           None          ";
    "        215.0         32.0          2.82          0.1           36.6          1.2           None          ";
    "        215.0         32.0          2.86          0.1           36.2          1.2           None          ";
    "        215.0         32.0          2.89          0.1           34.8          1.2           None          ";
    "        215.0         32.0          2.93          0.1           34.0          1.2           None          ";
    "        215.0         32.0          2.96          0.1           34.1          1.2           None          ";
    "        215.0         32.0          3.0           0.11          33.4          1.2           None          ";
    "        215.0         32.0          3.03          0.11          31.2          1.1           None          ";
    "        215.0         32.0          3.07          0.11          32.4          1.1           None          ";
    "        215.0         32.0          3.11          0.11          31.5          1.1           None          ";
    "        215.0         32.0          3.15          0.12          30.7          1.1           None          ";
    "        215.0         32.0          3.18          0.12          29.3          1.0           None          ";
    "        215.0         32.0          3.22          0.12          28.6          1.0           None          ";
    "        215.0         32.0          3.26          0.12          28.3          1.0           None          ";
    "        215.0         32.0          3.3           0.12          27.1          1.0           None          ";
    "        215.0         32.0          3.34          0.13          27.6          1.0           None          ";
    "        215.0         32.0          3.39          0.13          26.3          0.9           None          ";
    "        215.0         32.0          3.43          0.13          25.4          0.9           None          ";
    "        215.0         32.0          3.48          0.14          24.6          0.9           None          ";
    "        215.0         32.0          3.52          0.14          24.4          0.9           None          ";
    "        215.0         32.0          3.57          0.14          23.7          0.8           None          ";
    "        215.0         32.0          3.61          0.14          22.4          0.8           None          ";
    "        215.0         32.0          3.66          0.15          21.7          0.8           None          ";
    "        215.0         32.0          3.71          0.15          22.5          0.8           None          ";
    "        215.0         32.0          3.76          0.15          21.1          0.8           None          ";
    "        215.0         32.0          3.81          0.155         20.0          0.7           None          ";
    "        215.0         32.0          3.86          0.155         19.0          0.7           None          ";
    "        215.0         32.0          3.92          0.165         19.4          0.7           None          ";
    "        215.0         32.0          3.97          0.165         17.7          0.7           None          ";
    "        215.0         32.0          4.03          0.165         18.0          0.7           None          ";
    "        215.0         32.0          4.08          0.175         16.6          0.6           None          ";
    "        215.0         32.0          4.14          0.175         16.7          0.6           None          ";
    "        215.0         32.0          4.2           0.18          16.0          0.6           None          ";
    "        215.0         32.0          4.26          0.185         15.3          0.6           None          ";
    "        215.0         32.0          4.32          0.185         15.2          0.6           None          ";
    "        215.0         32.0          4.38          0.195         14.5          0.6           None          ";
    "        215.0         32.0          4.45          0.195         13.2          0.5           None          ";
    "        215.0         32.0          4.51          0.2           13.2          0.5           None          ";
    "        215.0         32.0          4.57          0.205         13.1          0.5           None          ";
    "        215.0         32.0          4.64          0.21          12.4          0.5           None          ";
    "        215.0         32.0          4.72          0.215         12.3          0.5           None          ";
    "        215.0         32.0          4.79          0.22          11.3          0.5           None          ";
    "        215.0         32.0          4.86          0.225         10.8          0.4           None          ";
    "        215.0         32.0          4.94          0.23          9.73          0.42          None          ";
    "        215.0         32.0          5.01          0.235         10.0          0.4           None          ";
    "        215.0         32.0          5.09          0.24          9.56          0.41          None          ";
    "        215.0         32.0          5.17          0.245         8.77          0.39          None          ";
    "        215.0         32.0          5.25          0.25          8.61          0.38          None          ";
    "        215.0         32.0          5.34          0.26          8.69          0.38          None          ";
    "        215.0         32.0          5.42          0.26          7.96          0.36          None          ";
    "        215.0         32.0          5.51          0.27          7.16          0.34          None          ";
    "        215.0         32.0          5.6           0.28          7.26          0.34          None          ";
    "        215.0         32.0          5.69          0.28          6.02          0.31          None          ";
    "        215.0         32.0          5.79          0.29          6.06          0.31          None          ";
    "        215.0         32.0          5.88          0.3           6.03          0.31          None          ";
    "        215.0         32.0          5.99          0.305         5.86          0.3           None          ";
    "        215.0         32.0          6.09          0.31          5.16          0.28          None          ";
    "        215.0         32.0          6.19          0.32          4.97          0.28          None          ";
    "        215.0         32.0          6.3           0.33          4.88          0.27          None          ";
    "        215.0         32.0          6.41          0.335         4.18          0.26          None          ";
    "        215.0         32.0          6.53          0.345         4.0           0.25          None          ";
    "        215.0         32.0          6.64          0.355         3.71          0.24          None          ";
    "        215.0         32.0          6.76          0.365         3.61          0.24          None          ";
    "        215.0         32.0          6.88          0.375         3.39          0.23          None          ";
    "        215.0         32.0          7.01          0.385         2.86          0.22          None          ";
    "        215.0         32.0          7.14          0.395         2.67          0.21          None          ";
    "        215.0         32.0          7.28          0.405         2.57          0.21          None          ";
    "        215.0         32.0          7.41          0.42          2.24          0.2           None          ";
    "        215.0         32.0          7.55          0.43          2.22          0.2           None          ";
    "        215.0         32.0          7.7           0.44          1.71          0.19          None          ";
    "        215.0         32.0          7.85          0.46          1.9           0.19          None          ";
    "        215.0         32.0          8.0           0.47          1.61          0.18          None          ";
    "        215.0         32.0          8.16          0.48          1.35          0.17          None          ";
    "        215.0         32.0          8.33          0.495         1.29          0.17          None          ";
    "        215.0         32.0          8.5           0.515         1.0           0.16          None          ";
    "        215.0         32.0          8.67          0.525         1.09          0.15          None          ";
    "        215.0         32.0          8.85          0.545         0.87          0.15          None          ";
    "        215.0         32.0          9.04          0.56          0.91          0.15          None          ";
    "        215.0         32.0          9.23          0.58          0.49          0.14          None          ";
    "        215.0         32.0          9.42          0.6           0.73          0.14          None          ";
    "        215.0         32.0          9.62          0.62          0.4           0.14          None          ";
    "        215.0         32.0          9.84          0.635         0.68          0.14          None          ";
    "        215.0         32.0          10.06         0.655         0.48          0.13          None          ";
    "        215.0         32.0          10.4          0.7           0.15          0.1           None          ";
    "        215.0         32.0          10.88         0.725         0.3           0.09          None          ";
    "        215.0         32.0          11.4          0.805         0.34          0.08          None          ";
    "        215.0         32.0          11.94         0.865         0.09          0.11          None          ";
    "        215.0         32.0          12.54         0.93          0.11          0.09          None          ";
    "        215.0         32.0          13.18         0.995         0.05          0.16          None          ";
    "        215.0         32.0          13.87         1.035         0.05          0.17          None"]));
  ("test_energy_spectrum", (d <- data_set e nm ent20576 "20576003" " "%char ;; d <- simplify acos d ;; s <- dataset_str nm d ;; Ok (strip s)),
    (text ["#  Authors:   H.H.Knitter";
    "#  Title:     Measurement Of The Energy Spectrum Of Prompt Neutrons From The Fission Of Pu239 By 0.215 Mev Neutrons";
    "#  Year:      1975";
    "#  Institute: Inst. for Ref. Mat. and Meas. (IRNM), Geel";
    "#  Reference: Atomkernenergie 26, 76 (1975)";
    "#  Subent:    20576003";
    "#  Reaction:  Relative data  for 239Pu(n,Fission) Reference quantity not given";
    "#        EN            EN-RSL        E             E-RSL         DATA          DATA-ERR      ERR-1         ";
    "#        KEV           KEV           MEV           MEV           ARB-UNITS     ARB-UNITS     PER-CENT      ";
    "        215.0         32.0          0.28          0.01          66.8          2.5           2.0           ";
    "        215.0         32.0          0.31          0.01          70.2          2.4           2.0           ";
    "        215.0         32.0          0.34          0.01          65.1          2.2           2.0           ";
    "        215.0         32.0          0.36          0.01          70.5          2.2           2.0           ";
    "        215.0         32.0          0.39          0.01          68.8          2.1           2.0           ";
    "        215.0         32.0          0.41          0.01          74.2          2.1           2.0           ";
    "        215.0         32.0          0.44          0.01          75.6          2.2           2.0           ";
    "        215.0         32.0          0.46          0.01          74.8          2.1           2.0           ";
    "        215.0         32.0          0.49          0.01          74.8          2.1           2.0           ";
    "        215.0         32.0          0.51          0.01          73.6          2.0           2.0           ";
    "        215.0         32.0          0.54          0.01          74.2          2.0           2.0           ";
    "        215.0         32.0          0.56          0.01          75.7          2.0           2.0           ";
    "        215.0         32.0          0.59          0.01          75.8          2.0           2.0           ";
    "        215.0         32.0          0.61          0.01          76.6          2.1           2.0           ";
    "        215.0         32.0          0.63          0.01          75.4          2.0           2.0           ";
    "        215.0         32.0          0.66          0.01          78.7          2.1           2.0           ";
    "        215.0         32.0          0.69          0.01          76.3          2.0           2.0           ";
    "        215.0         32.0          0.71          0.01          78.6          2.1           2.0           ";
    "        215.0         32.0          0.73          0.01          74.6          2.1           2.0           ";
    "        215.0         32.0          0.76          0.01          78.7          2.0           2.0           ";
    "        215.0         32.0          0.79          0.02          79.4          2.1           2.0           ";
    "        215.0         32.0          0.81          0.02          78.3          2.1           2.0           ";
    "        215.0         32.0          0.84          0.02          76.6          2.0           2.0           ";
    "        215.0         32.0          0.86          0.02          80.0          2.2           2.0           ";
    "        215.0         32.0          0.89          0.02          81.0          2.1           2.0           ";
    "        215.0         32.0          0.91          0.02          80.2          2.1           2.0           ";
    "        215.0         32.0          0.94          0.02          79.5          2.1           2.0           ";
    "        215.0         32.0          0.96          0.02          78.4          2.1           2.0           ";
    "        215.0         32.0          0.98          0.02          77.8          2.1           2.0           ";
    "        215.0         32.0          1.01          0.02          76.8          2.2           2.0           ";
    "        215.0         32.0          1.04          0.02          78.4          2.0           2.0           ";
    "        215.0         32.0          1.06          0.02          78.3          2.2           2.0           ";
    "        215.0         32.0          1.09          0.02          77.8          2.1           2.0           ";
    "        215.0         32.0          1.11          0.02          74.9          2.1           2.0           ";
    "        215.0         32.0          1.13          0.03          75.1          2.1           2.0           ";
    "        215.0         32.0          1.16          0.03          76.0          2.1           2.0           ";
    "        215.0         32.0          1.19          0.03          76.1          2.1           2.0           ";
    "        215.0         32.0          1.21          0.03          74.0          2.0           2.0           ";
    "        215.0         32.0          1.24          0.03          73.5          2.2           2.0           ";
    "        215.0         32.0          1.26          0.03          76.7          1.6           2.0           ";
    "        215.0         32.0          1.29          0.03          74.5          1.6           2.0           ";
    "        215.0         32.0          1.32          0.03          72.3          1.5           2.0           ";
    "        215.0         32.0          1.35          0.03          72.8          1.5           2.0           ";
    "        215.0         32.0          1.39          0.04          72.2          1.5           2.0           ";
    "        215.0         32.0          1.42          0.04          72.1          1.5           2.0           ";
    "        215.0         32.0          1.45          0.04          69.1          1.7           2.0           ";
    "        215.0         32.0          1.47          0.04          70.7          1.8           2.0           ";
    "        215.0         32.0          1.5           0.04          71.3          1.8           2.0           ";
    "        215.0         32.0          1.52          0.04          67.3          1.7           2.0           ";
    "        215.0         32.0          1.55          0.04          68.4          1.7           2.0           ";
    "        215.0         32.0          1.58          0.04          65.1          1.6           2.0           ";
    "        215.0         32.0          1.6           0.04          65.7          1.6           2.0           ";
    "        215.0         32.0          1.63          0.04          64.3          1.6           2.0           ";
    "        215.0         32.0          1.66          0.05          64.1          1.6           2.0           ";
    "        215.0         32.0          1.69          0.05          64.7          1.6           2.0           ";
    "        215.0         32.0          1.72          0.05          61.9          1.5           2.0           ";
    "        215.0         32.0          1.75          0.05          63.1          1.5           2.0           ";
    "        215.0         32.0          1.79          0.05          63.0          1.5           2.0           ";
    "        215.0         32.0          1.82          0.05          60.9          1.5           2.0           ";
    "        215.0         32.0          1.85          0.05          59.9          1.5           2.0           ";
    "        215.0         32.0          1.89          0.06          58.7          1.4           2.0           ";
    "        215.0         32.0          1.93          0.06          58.0          1.4           2.0           ";
    "        215.0         32.0          1.96          0.06          57.0          1.4           2.0           ";
    "        215.0         32.0          2.0           0.06          56.1          1.4           2.0           ";
    "        215.0         32.0          2.04          0.06          54.6          1.3           2.0           ";
    "        215.0         32.0          2.07          0.06          54.1          1.8           2.0           ";
    "        215.0         32.0          2.09          0.06          52.7          1.8           2.0           ";
    "        215.0         32.0          2.11          0.07          52.0          1.8           2.0           ";
    "        215.0         32.0          2.14          0.07          51.6          1.8           2.0           ";
    "        215.0         32.0          2.16          0.07          52.9          1.8           2.0           ";
    "        215.0         32.0          2.18          0.07          51.0          1.7           2.0           ";
    "        215.0         32.0          2.2           0.07          51.0          1.7           2.0           ";
    "        215.0         32.0          2.22          0.07          49.6          1.7           2.0           ";
    "        215.0         32.0          2.25          0.07          48.9          1.7           2.0           ";
    "        215.0         32.0          2.27          0.07          47.3          1.6           2.0           ";
    "        215.0         32.0          2.29          0.07          49.5          1.7           2.0           ";
    "        215.0         32.0          2.32          0.07          46.6          1.6           None          ";
    "        215.0         32.0          2.34          0.07          45.4          1.6           None          ";
    "        215.0         32.0          2.37          0.08          46.2          1.6           None          ";
    "        215.0         32.0          2.39          0.08          46.6          1.6           None          ";
    "        215.0         32.0          2.42          0.08          45.3          1.5           None          ";
    "        215.0         32.0          2.44          0.08          44.0          1.5           None          ";
    "        215.0         32.0          2.47          0.08          44.6          1.5           None          ";
    "        215.0         32.0          2.5           0.08          41.6          1.4           None          ";
    "        215.0         32.0          2.53          0.09          43.4          1.5           None          ";
    "        215.0         32.0          2.56          0.09          41.3          1.4           None          ";
    "        215.0         32.0          2.58          0.09          43.2          1.5           None          ";
    "        215.0         32.0          2.61          0.09          41.4          1.4           None          ";
    "        215.0         32.0          2.64          0.09          39.5          1.4           None          ";
    "        215.0         32.0          2.67          0.09          38.9          1.3           None          ";
    "        215.0         32.0          2.7           0.09          39.7          1.4           None          ";
    "        215.0         32.0          2.73          0.1           37.5          1.3           None          ";
    "        215.0         32.0          2.76          0.1           36.4          1.2           None          ";
    "        215.0         32.0          2.79          0.1           36.1          1.2           None          ";
    "        215.0         32.0          2.82          0.1           36.6          1.2           None          ";
    "        215.0         32.0          2.86          0.1           36.2          1.2           None          ";
    "        215.0         32.0          2.89          0.1           34.8          1.2           None          ";
    "        215.0         32.0          2.93          0.1           34.0          1.2           None          ";
    "        215.0         32.0          2.96          0.1           34.1          1.2           None          ";
    "        215.0         32.0          3.0           0.11          33.4          1.2           None          ";
    "        215.0         32.0          3.03          0.11          31.2          1.1           None          ";
    "        215.0         32.0          3.07          0.11          32.4          1.1           None          ";
    "        215.0         32.0          3.11          0.11          31.5          1.1           None          ";
    "        215.0         32.0          3.15          0.12          30.7          1.1           None          ";
    "        215.0         32.0          3.18          0.12          29.3          1.0           None          ";
    "        215.0         32.0          3.22          0.12          28.6          1.0           None          ";
    "        215.0         32.0          3.26          0.12          28.3          1.0           None          ";
    "        215.0         32.0          3.3           0.12          27.1          1.0           None          ";
    "        215.0         32.0          3.34          0.13          27.6          1.0           None          ";
    "        215.0         32.0          3.39          0.13          26.3          0.9           None          ";
    "        215.0         32.0          3.43          0.13          25.4          0.9           None          ";
    "        215.0         32.0          3.48          0.14          24.6          0.9           None          ";
    "        215.0         32.0          3.52          0.14          24.4          0.9           None          ";
    "        215.0         32.0          3.57          0.14          23.7          0.8           None          ";
    "        215.0         32.0          3.61          0.14          22.4          0.8           None          ";
    "        215.0         32.0          3.66          0.15          21.7          0.8           None          ";
    "        215.0         32.0          3.71          0.15          22.5          0.8           None          ";
    "        215.0         32.0          3.76          0.15          21.1          0.8           None          ";
    "        215.0         32.0          3.81          0.155         20.0          0.7           None          ";
    "        215.0         32.0          3.86          0.155         19.0          0.7           None          ";
    "        215.0         32.0          3.92          0.165         19.4          0.7           None          ";
    "        215.0         32.0          3.97          0.165         17.7          0.7           None          ";
    "        215.0         32.0          4.03          0.165         18.0          0.7           None          ";
    "        215.0         32.0          4.08          0.175         16.6          0.6           None          ";
    "        215.0         32.0          4.14          0.175         16.7          0.6           None          ";
    "        215.0         32.0          4.2           0.18          16.0          0.6           None          ";
    "        215.0         32.0          4.26          0.185         15.3          0.6           None          ";
    "        215.0         32.0          4.32          0.185         15.2          0.6           None          ";
    "        215.0         32.0          4.38          0.195         14.5          0.6           None          ";
    "        215.0         32.0          4.45          0.195         13.2          0.5           None          ";
    "        215.0         32.0          4.51          0.2           13.2          0.5           None          ";
    "        215.0         32.0          4.57          0.205         13.1          0.5           None          ";
    "        215.0         32.0          4.64          0.21          12.4          0.5           None          ";
    "        215.0         32.0          4.72          0.215         12.3          0.5           None          ";
    "        215.0         32.0          4.79          0.22          11.3          0.5           None          ";
    "        215.0         32.0          4.86          0.225         10.8          0.4           None          ";
    "        215.0         32.0          4.94          0.23          9.73          0.42          None          ";
    "        215.0         32.0          5.01          0.235         10.0          0.4           None          ";
    "        215.0         32.0          5.09          0.24          9.56          0.41          None          ";
    "        215.0         32.0          5.17          0.245         8.77          0.39          None          ";
    "        215.0         32.0          5.25          0.25          8.61          0.38          None          ";
    "        215.0         32.0          5.34          0.26          8.69          0.38          None          ";
    "        215.0         32.0          5.42          0.26          7.96          0.36          None          ";
    "        215.0         32.0          5.51          0.27          7.16          0.34          None          ";
    "        215.0         32.0          5.6           0.28          7.26          0.34          None          ";
    "        215.0         32.0          5.69          0.28          6.02          0.31          None          ";
    "        215.0         32.0          5.79          0.29          6.06          0.31          None          ";
    "        215.0         32.0          5.88          0.3           6.03          0.31          None          ";
    "        215.0         32.0          5.99          0.305         5.86          0.3           None          ";
    "        215.0         32.0          6.09          0.31          5.16          0.28          None          ";
    "        215.0         32.0          6.19          0.32          4.97          0.28          None          ";
    "        215.0         32.0          6.3           0.33          4.88          0.27          None          ";
    "        215.0         32.0          6.41          0.335         4.18          0.26          None          ";
    "        215.0         32.0          6.53          0.345         4.0           0.25          None          ";
    "        215.0         32.0          6.64          0.355         3.71          0.24          None          ";
    "        215.0         32.0          6.76          0.365         3.61          0.24          None          ";
    "        215.0         32.0          6.88          0.375         3.39          0.23          None          ";
    "        215.0         32.0          7.01          0.385         2.86          0.22          None          ";
    "        215.0         32.0          7.14          0.395         2.67          0.21          None          ";
    "        215.0         32.0          7.28          0.405         2.57          0.21          None          ";
    "        215.0         32.0          7.41          0.42          2.24          0.2           None          ";
    "        215.0         32.0          7.55          0.43          2.22          0.2           None          ";
    "        215.0         32.0          7.7           0.44          1.71          0.19          None          ";
    "        215.0         32.0          7.85          0.46          1.9           0.19          None          ";
    "        215.0         32.0          8.0           0.47          1.61          0.18          None          ";
    "        215.0         32.0          8.16          0.48          1.35          0.17          None          ";
    "        215.0         32.0          8.33          0.495         1.29          0.17          None          ";
    "        215.0         32.0          8.5           0.515         1.0           0.16          None          ";
    "        215.0         32.0          8.67          0.525         1.09          0.15          None          ";
    "        215.0         32.0          8.85          0.545         0.87          0.15          None          ";
    "        215.0         32.0          9.04          0.56          0.91          0.15          None          ";
    "        215.0         32.0          9.23          0.58          0.49          0.14          None          ";
    "        215.0         32.0          9.42          0.6           0.73          0.14          None          ";
    "        215.0         32.0          9.62          0.62          0.4           0.14          None          ";
    "        215.0         32.0          9.84          0.635         0.68          0.14          None          ";
    "        215.0         32.0          10.06         0.655         0.48          0.13          None          ";
    "        215.0         32.0          10.4          0.7           0.15          0.1           None          ";
    "        215.0         32.0          10.88         0.725         0.3           0.09          None          ";
    "        215.0         32.0          11.4          0.805         0.34          0.08          None          ";
    "        215.0         32.0          11.94         0.865         0.09          0.11          None          ";
    "        215.0         32.0          12.54         0.93          0.11          0.09          None          ";
    "        215.0         32.0          13.18         0.995         0.05          0.16          None          ";
    "        215.0         32.0          13.87         1.035         0.05          0.17          None"]))].

Definition all_cases (_ : unit) := let ds := dicts tt in failures (cases (the_env ds) (the_names ds)).
Check (@eq_refl (list string) [] <: all_cases tt = []).
