(** A hundred entries of the EXFOR library, taken line by line from x4i3/tests/data/db (and
    x4i3/tests/E0783.x4): all that are shorter than about 10 KB, but for 12909 and 40121 (see RealEntriesWell.v) and for 22668 and
    10135, left out because coqdep takes the word From after a full stop for a command even within a string.
    Each is its number and its subentries. *)
From Coq Require Import String List.
Import ListNotations.
Local Open Scope string_scope.
Local Open Scope list_scope.

Definition e10036 : list string := ["SUBENT        10036001   19990719   19990812   20050926       0000
BIB                 12         21
INSTITUTE  (1USAWIS)
REFERENCE  (J,PR/C,1,1226,197004)
AUTHOR     (L.N.ROTHENBERG)
TITLE      Neutron-proton angular distribution at 24 MeV.
FACILITY   (VDGT)
INC-SOURCE (D-T) Deuterons on tritium, tritium gas cell 1.9 cm
            long. Deuteron beam current approx. 0.8 microampere.
SAMPLE     Polyethelene foil 54.1 mg/cm**2 thick on 0.025 cm thick
            platinum backing.
DETECTOR   (TELES) Counter telescope containing target wheel, 2
            deleted Si DE detectors, and one CsI(Ti) crystal.
            CsI detector thick enough to stop 30-MeV recoil
            protons. Triple coincidence required to reduce
            accidental coincidences.
MONITOR    (1-H-1(N,TOT),,SIG)
ERR-ANALYS (DATA-ERR) No information on source of uncertainties.
STATUS      Data taken from private communication
HISTORY    (19700601C)
           (19800728A) Converted to REACTION formalism
           (19841205A) BIB, DATA heading corrections.
           (19990719A) Converted to new date formats, lower case.
ENDBIB              21
NOCOMMON             0          0
ENDSUBENT           24
";
"SUBENT        10036002   19990719   19990812   20050926       0000
BIB                  1          1
REACTION   (1-H-1(N,EL)1-H-1,,DA)
ENDBIB               1
COMMON               4          3
EN         EN-ERR     EN-RSL     MONIT
MEV        KEV        MEV        MB
24.01      10.         0.04       327.2
ENDCOMMON            3
DATA                 3          4
ANG-CM     DATA-CM    DATA-ERR
ADEG       MB/SR      PER-CENT
 89.0      30.3       1.11
118.2      30.8       1.51
146.1      32.9       1.30
164.1      34.4       0.92
ENDDATA              6
ENDSUBENT           16
"].

Definition e10149 : list string := ["SUBENT        10149001   20001211   20010328   20050926       0000
BIB                 16         33
INSTITUTE  (1USAHRV,1USAOBR)
REFERENCE  (J,PR/C,3,144,197101)
AUTHOR     (J.N.PALMIERI,J.P.WOLFE)
TITLE      Neutron-Proton Scattering at 152 MeV
FACILITY   (SYNCY,1USAHRV) Harvard proton synchrocyclotron.
INC-SPECT  Determined energy of 155.1 MeV at peak of neutron beam
            spectrum. Average energy of included counts given.
SAMPLE     Liquid hydrogen target in vertical cylinder container,
            2 in diameter by 5 in long with 002-in Kapton poly-
            imide film walls.
DETECTOR   (TELES) Counter telescope, consisting of four plastic
            scintillators plus a NaI crystal. One plastic
            scintillator in anticoincidence mode.
           (IOCH) Ionization chamber for neutron beam monitoring.
PART-DET   (P) Protons.
MONITOR    (1-H-1(N,EL)1-H-1,,SIG)
MONIT-REF  (11123001,D.F.MEASDAY+,J,PR,142,584,1966)
MISC-COL   Laboratory telescope angle.
CORRECTION Correction for -                   at telescope angle
                   (in percent)                 5 degr. 50 degr.
             --------------------------------   ------- --------
           . reactions in NaI detector              23.     2.
           . scattering in target and telescope      2.5    8.
           . low-energy cut-off of telescope                6.+-2.
ERR-ANALYS (DATA-ERR) Errors include statistical errors and
            contributions of 0.5% each(added quadratically) due
            to alignment, monitoring, and telescope NaI
            corrections.
STATUS     (APRVD) Approved by author.
            Data taken from Table II in reference.
HISTORY    (19711215C)
           (19820527A) Converted to REACTION formalism
           (20001211A) Converted to new date formats, lower case.
ENDBIB              33
COMMON               2          3
EN         EN-ERR
MEV        MEV
 152.       1.
ENDCOMMON            3
ENDSUBENT           40
";
"SUBENT        10149002   20001211   20010328   20050926       0000
BIB                  1          1
REACTION   (1-H-1(N,EL)1-H-1,,DA)
ENDBIB               1
NOCOMMON             0          0
DATA                 4         13
ANG-CM     DATA       DATA-ERR   MISC
ADEG       MB/SR      MB/SR      ADEG
  77.8       2.45      .07        50.0
  87.7       2.47      .05        45.0
  97.8       2.82      .07        40.0
 107.8       3.43      .08        35.0
 118.0       4.20      .07        30.0
 128.2       5.01      .08        25.0
 138.5       6.18      .09        20.0
 148.9       6.93      .11        15.0
 154.1       7.57      .11        12.56
 159.1       8.70      .12        10.07
 164.2       9.67      .14         7.60
 166.3      10.06      .10         6.61
 169.3      10.98      .22         5.15
ENDDATA             15
ENDSUBENT           21
"].

Definition e10187 : list string := ["SUBENT        10187001   20010214   20010404   20050926       0000
BIB                 15         46
INSTITUTE  (1USAMHG,1USAPTN,1USASTF)
REFERENCE  (J,NP/B,30,77,197107)
AUTHOR     (B.G.GIBBARD,M.J.LONGO,L.W.JONES,J.R.FALLON,
            M.N.KREISLER,M.L.PERL)
TITLE      Neutron-proton elastic scattering from 5 to 30 GeV/c
FACILITY   (SYNCH,1USABNL) Brookhaven AGS.
INC-SOURCE (P-BE) 29.4 GeV/c protons incident on beryllium target.
SAMPLE     Liquid hydrogen target flask was made of .025 cm mylar,
            length = 30.5 cm, dia.= 6.35 cm.
METHOD     Angles of the proton and neutron and proton momentum
            were measured and used as inputs for a fitting
            program, which included error estimates on the
            measured quantities.
DETECTOR   (TRD) Scattered neutrons were detected in a thick
            plate spark-chamber array while the recoil protons
            were detected and momentum analyzed in a magnetic
            spectrometer with thin foil spark chambers.
           Neutron beam was 15 mrad with respect to primary proton
            beam. The distance from the internal Be target to
            liquid hydrogen sample was 49.2 m. The defining
            collimator was 2.54 cm in diameter and was located
            34.7 m from internal Be target.
PART-DET   (N,P) Both scattered neutrons and recoil protons were
            detected
MONITOR    (1-H-1(N,TOT),,SIG)
           Normalized by fitting
            to the zero degree point determined from the optical
            theorem and existing data on the real part of the
            forward scattering amplitude. The value of the total
            neutron-proton cross section used was 38 mb. A linear
            variation was assumed in the ratio of the real to the
            imaginary part of the scattering amplitude, with
            a value -0.33 near 20 GeV/c and -.45 near 5 GeV/c.
CORRECTION Corrections were made for proton energy loss as it
            passed through sample, for inelastics, and for target-
            empty events.
ERR-ANALYS (DATA-ERR) A Monte Carlo study indicated that the
            uncertainty in the momentum transfer was essentially
            independent of the momentum transfer and of the
            incident momentum, remaining constant at +/- 0.017
            (GeV/c)**2.
STATUS     (APRVD) Approved by author
           Data received from M. Perl, 14 August 1973.
HISTORY    (19730502C)
           (19820916A) Converted to REACTION formalism
           (20010214A) Converted to new date formats, lower case.
ENDBIB              46
NOCOMMON             0          0
ENDSUBENT           49
";
"SUBENT        10187002   20010214   20010404   20050926       0000
BIB                  2          2
REACTION   (1-H-1(N,EL)1-H-1,,DA)
HISTORY    (19820901A) SUBENTRIES 2-7 COMBINED.
ENDBIB               2
NOCOMMON             0          0
DATA                 5         12
EN         EN-ERR     ANG-CM     DATA-CM    DATA-ERR
GEV        GEV        ADEG       MB/SR      MB/SR
6.5        2.0        13.7       26.09      0.78
6.5        2.0        15.5       18.30      0.58
6.5        2.0        17.2       12.17      0.49
6.5        2.0        18.7       9.73       0.45
6.5        2.0        20.1       6.76       0.39
6.5        2.0        21.4       4.38       0.32
6.5        2.0        22.7       3.05       0.33
6.5        2.0        24.2       3.09       0.27
6.5        2.0        26.6       1.37       0.20
6.5        2.0        28.5       0.91       0.17
6.5        2.0        30.6       0.50       0.13
6.5        2.0        32.1       0.25       0.08
ENDDATA             14
ENDSUBENT           21
"].

Definition e10241 : list string := ["SUBENT        10241001   20011130   20020117   20050926       0000
BIB                 10         14
INSTITUTE  (1USAORL)
REFERENCE  (P,ORNL-4534,5,197007)
AUTHOR     (M.J.Saltmarsh,M.L.Halbert,C.R.Bingham,C.A.Ludemann,
            A.Van Der Woude)
TITLE      n-p ELASTIC SCATTERING AT 60 MeV
FACILITY   (ICTR) Oak Ridge Insulated Core Transformer
METHOD     (TOF,PHD)
DETECTOR   (SCIN)
MONITOR    No information
ERR-ANALYS No information
HISTORY    (19750102C)
           (19760209A) Data added
           (19821018A) Converted to REACTION formalism
           (20011130A) Converted to new date formats, lower case.
ENDBIB              14
NOCOMMON             0          0
ENDSUBENT           17
";
"SUBENT        10241002   20011130   20020117   20050926       0000
BIB                  2          2
REACTION   (1-H-1(N,EL)1-H-1,,DA)
STATUS     (CURVE) Read from Fig. 1.6, page 6 of ORNL-4534.
ENDBIB               2
COMMON               1          3
EN
MEV
60.
ENDCOMMON            3
DATA                 3         10
ANG-CM     DATA-CM    DATA-ERR
ADEG       MB/SR      MB/SR
 88.        6.5       0.94
 98.       10.        0.8
108.        8.9       0.47
118.        7.83      0.4
129.        9.2       0.4
139.       10.7       0.4
149.       11.9       0.67
159.       12.9       0.67
166.       13.1       0.54
174.       13.7       0.88
ENDDATA             12
ENDSUBENT           23
"].

Definition e10315 : list string := ["SUBENT        10315001   20020823   20020925   20050926       0000
BIB                 13         34
INSTITUTE  (1USAWIS)
REFERENCE  (J,PR/C,6,690,197209)
AUTHOR     (T.G.Masterson)
TITLE      Differential Cross Sections for Small Angle Scattering
            of 24-MeV Neutrons by Protons
FACILITY   (ACCEL) Tandem accelerator.
INC-SOURCE (D-T) 7.0 MeV deuterons were incident on a tritium gas
            cell.
SAMPLE     Liquid hydrocarbon scintillator, 2.5cm diam. x 2.5-cm
            high, wrapped in aluminum foil and mounted on RCA 8575
            phototube. Total number of hydrogen atoms in sample
            (0.659 +- 0.003)10**24.
METHOD     Both count rate of neutrons scattered by the target
            and of neutrons of the zero degree incident beam were
            measured. The ratio of these two count rates gives
            the differential cross section and is independent of
            incident neutron flux. The cross section depends only
            on the ratio of the detector efficiencies at nearby
            energies.
           Open shadow bar shielding only.
DETECTOR   (SCIN) 2.5-cm. diam. x 5.1-cm. high liquid scintillator
            mounted on AMPEREX XP1021 photomultiplier tube.
CORRECTION Corrections were made for:
            . multiple scattering,
            . finite geometry,
            . attenuation in detector, target and air,
            . wall effects.
ERR-ANALYS (DATA-ERR) Data uncertainty of approximately 1.5%, due
            principally to uncertainties in exponential
            attenuation, multiple scattering, and bias factors.
STATUS     (APRVD) Approved by author.
HISTORY    (19730530C) TJK
           (19830118A) Converted to REACTION formalism
           (20020823A) Updated to new date formats, lower case.
ENDBIB              34
COMMON               2          3
EN         EN-ERR
MEV        MEV
24.03       0.08
ENDCOMMON            3
ENDSUBENT           41
";
"SUBENT        10315002   20020823   20020925   20050926       0000
BIB                  1          1
REACTION   (1-H-1(N,EL)1-H-1,,DA)
ENDBIB               1
NOCOMMON             0          0
DATA                 3          2
ANG-CM     DATA       DATA-ERR
ADEG       MB/SR      MB/SR
39.3       31.3       0.5
50.5       30.7       0.6
ENDDATA              4
ENDSUBENT           10
"].

Definition e10316 : list string := ["SUBENT        10316001   20020823   20020925   20050926       0000
BIB                 15         36
INSTITUTE  (1USAWIS)
REFERENCE  (J,PR/C,7,1306,197304)
           (T,BURROWS,1972)
AUTHOR     (T.W.Burrows)
TITLE      Angular Distribution of 24.0- and 27.2 MeV Neutrons
            Scattered by Protons
INC-SOURCE (D-T) 3H(d,n)4He reaction. Gas cell target containing
            1.0 atm. of tritium behind a molybdenum foil.
INC-SPECT  Total neutron energy spread (FWHM) caused by:
            . spreading of deuteron beam due to energy straggling
              in slits, entrance foil, and gas,
            . angle subtended by the radiator.
SAMPLE     Polyethylene foils, 22.6 and 67.8 mg/cm**2 thick with
            a hydrogen to carbon ratio of 1.98+-0.01 mounted on
            0.25 mm. thick platinum sheet.
METHOD     Relationship derived by Nakamura was used to obtain
            the mean laboratory recoil angle.
MONITOR    (1-H-1(N,EL)1-H-1,,SIG) Data normalized to total cross
            section calculated by Hopkins and Breit.
MONIT-REF  (,HOPKINS+,J,ND/A,9,137,1971)
CORRECTION Corrected for attenuation of neutrons by inelastic
            processes in the platinum backing and windows (0.7%
            in the ratio of the cross section at 158 degrees
            relative to 71.3 degrees).
           No corrections made for dead-time effects, or Coulomb
            scattering inelastic scattering in the detectors,
            since these corrections were very small.
ERR-ANALYS (DATA-ERR) Uncertainties include uncertainties in
            areal densities and compositions, statistics, and
            normalization.
REL-REF    (R,,NAKAMURA,J,JPJ,15,1359,1960)
STATUS     (APRVD) Approved by T.W.Burrows, 79/7/18.
HISTORY    (19730629C) AP
           (19790607A) BIB corrections and additions. Converted
            to REACTION formalism.
           (20020823A) Updated to new date formats, lower case.
ENDBIB              36
NOCOMMON             0          0
ENDSUBENT           39
";
"SUBENT        10316002   20020823   20020925   20050926       0000
BIB                  4          8
REACTION  1(1-H-1(N,EL)1-H-1,,DA,,REL)
          2(1-H-1(N,EL)1-H-1,,DA)
DETECTOR   (TELES,SOLST,SCIN) Counter telescope containing silicon
            surface-barrier transmission detector and NE-102
            scintillator energy detector thick enough to stop
            30 MeV protons coupled to an RCA-8575 phototube.
STATUS     Data taken from Tablr II in main reference.
HISTORY    (19790712A) Subentries 2, 4 combined. Data modified.
ENDBIB               8
COMMON               1          3
ANG-NRM
ADEG
 158.
ENDCOMMON            3
DATA                 7          9
EN         EN-RSL     ANG-CM     DATA      1DATA-ERR  1DATA      2
DATA-ERR  2
MEV        KEV        ADEG       NO-DIM     NO-DIM     MB/SR
MB/SR
 24.0       80.        71.3       0.88       0.02       30.4
 0.7
 24.0       80.        88.7       0.91       0.02       31.4
 0.8
 24.0       80.       103.0       0.90       0.03       31.0
 1.2
 24.0       80.       157.9       1.00       0.01       34.4
 0.7
 27.2       90.        71.3       0.85       0.02       26.1
 0.7
 27.2       90.        88.6       0.86       0.01       26.6
 0.4
 27.2       90.       111.4       0.89       0.04       27.4
 1.3
 27.2       90.       117.0       0.92       0.03       28.3
 1.0
 27.2       90.       157.8       1.00       0.01       30.8
 0.5
ENDDATA             22
ENDSUBENT           39
";
"SUBENT        10316003   20020823   20020925   20050926       0000
BIB                  3          3
REACTION   (1-H-1(N,EL)1-H-1,,DA,,LEG/REL)Relative to 158 degrees.
STATUS     (DEP,10316002)
HISTORY    (19790712A) Relative coefficients coded.
ENDBIB               3
NOCOMMON             0          0
DATA                 5          6
EN         EN-RSL     NUMBER     DATA       DATA-ERR
MEV        KEV        NO-DIM     NO-DIM     NO-DIM
24.0        80.       0.          0.92       0.02
24.0        80.       1.         -0.06       0.04
24.0        80.       2.          0.03       0.03
27.2        90.       0.          0.889      0.005
27.2        90.       1.         -0.08       0.01
27.2        90.       2.          0.05       0.01
ENDDATA              8
ENDSUBENT           16
";
"SUBENT        10316005   20020823   20020925   20050926       0000
BIB                  4          6
REACTION   (1-H-1(N,EL)1-H-1,,DA)
DETECTOR   (TELES,SOLST,SCIN) Counter telescope consisting of two
            silicon surface-barrier detectors and a Cs-I
            scintillator energy detector.
STATUS     Data taken from thesis
HISTORY    (19790712C)
ENDBIB               6
NOCOMMON             0          0
DATA                 5         12
EN         EN-RSL     ANG-CM     DATA-CM    DATA-ERR
MEV        KEV        ADEG       MB/SR      MB/SR
 23.8       90.        88.7       31.        7.
 23.8       90.       117.        33.        7.
 23.8       90.       144.        37.        8.
 23.8       90.       160.        35.        8.
 26.0       60.        88.7       28.        2.
 26.0       60.       117.        28.        2.
 26.0       60.       145.        31.        2.
 26.0       60.       161.        34.        2.
 29.2       70.        88.7       23.        2.
 29.2       70.       117.        25.        2.
 29.2       70.       145.        29.        2.
 29.2       70.       161.        29.        2.
ENDDATA             14
ENDSUBENT           25
"].

Definition e10355 : list string := ["SUBENT        10355001   20050627   20050909   20050926       1336
BIB                 12         36
INSTITUTE  (1USADAV)
REFERENCE  (J,PR/C,16,499,1977)
           (J,PRL,31,640,1973)
AUTHOR     (T.C.Montgomery,F.P.Brady,B.E.Bonner,W.B.Broste,
           M.W.Mc Naughton)
TITLE      Neutron-proton differential cross section measurements
            at 25.8 and 50.0 MeV
FACILITY   (ISOCY,1USADAV) Crocker Nuclear Laboratory Isochronous
            Cyclotron.
INC-SOURCE (P-LI7)
MONITOR    (1-H-1(N,EL)1-H-1,,SIG) Normalization obtained by a
            preliminary fit integrated to total cross section.
           Forward and backward data renormalized to agree at
            angles of overlap.
MONIT-REF  (,F.P.Brady+,J,PRL,25,1628,1970)
CORRECTION Corrected for:
           . detector efficiency uncertainty,
           . neutron attenuation (up to 0.5%),
           . peak losses from nuclear interaction in target
             detectors (<0.5%),
           . deadtime,
           . finite angle size.
ERR-ANALYS (DATA-ERR) Includes uncertainties in:
           . counting statistics (0.4-1%),
           . beam and peak energy cuts (up to 1%),
           . corrections for peak losses from nuclear interaction
             in target and detectors (<0.5%),
           Uncertainty in neutron detector efficiency (estimated
            3%) and normalization uncertainty not included.
STATUS     (APRVD) Approved by F.P. Brady, 29 November 1977.
HISTORY    (19731031C)
           (19770921A) Complete BIB update. Energy deleted from
                       subentry 1 COMMON.
           (19830422A) Reaction corrected.
           (20011120A) Converted to new date formats, lower case.
           (20050627C) DR Reference corrected
ENDBIB              36
COMMON               1          3
EN-ERR
MEV
  0.1
ENDCOMMON            3
ENDSUBENT           43
";
"SUBENT        10355002   20021120   20030219   20050926       0000
BIB                  5         12
REACTION   (1-H-1(N,EL)1-H-1,,DA)
SAMPLE     Wedge shape scintillating target cut from 2.54 cm cube
            of NE102A.
METHOD     (TOF,PHD) For each forward event, recoil proton pulse
            height in scintillating target, incident time of
            flight, scattered neutron time-of-flight, and neutron
            pulse height were recorded.
           Precision 3%.
DETECTOR   (SCIN) 4 NE102A scintillators; one remained fixed as
            a monitor.
HISTORY    (19770921A) Data from Phys.Rev./C 16,49 (1977) coded
                      BIB recoded.
ENDBIB              12
NOCOMMON             0          0
DATA                 4         16
EN         ANG-CM     DATA-CM    DATA-ERR
MEV        ADEG       MB/SR      MB/SR
25.8        20.15     29.97      0.90
25.8        30.22     29.29      0.88
25.8        40.28     27.81      0.83
25.8        50.34     27.37      0.82
25.8        60.38     27.21      0.82
25.8        70.42     27.02      0.81
25.8        80.45     27.94      0.84
25.8        90.47     28.42      0.85
50.0        20.27     16.17      0.52
50.0        30.40     15.41      0.44
50.0        40.52     14.17      0.36
50.0        50.62     13.02      0.34
50.0        60.70     12.06      0.33
50.0        70.77     11.89      0.32
50.0        80.81     11.17      0.40
50.0        90.83     11.39      0.37
ENDDATA             18
ENDSUBENT           35
";
"SUBENT        10355003   20021120   20030219   20050926       0000
BIB                  7         10
REACTION   (1-H-1(N,EL)1-H-1,,DA)
SAMPLE     Polyethylene sample.
METHOD     (EDE)
DETECTOR   (SOLST) Recoil protons detected by 3 dE-E telescopes;
            1 fixed at 30 degrees for use as monitor.
PART-DET   (P) protons
CORRECTION Corrected for background events from C(n,p), measured
            using carbon targets of appropriate thickness.
           Precision 2%.
HISTORY    (19770921A) Data for 25.8 MeV added. BIB recoded.
ENDBIB              10
NOCOMMON             0          0
DATA                 4         20
EN         ANG-CM     DATA-CM    DATA-ERR
MEV        ADEG       MB/SR      MB/SR
25.8        89.54     28.42      0.93
25.8        99.54     28.97      0.91
25.8       119.58     29.09      0.54
25.8       129.06     30.06      0.33
25.8       135.60     29.99      0.61
25.8       139.60     30.57      0.38
25.8       159.56     33.16      0.47
25.8       178.00     32.71      1.31
50.0        69.24     12.28      0.45
50.0        79.20     11.59      0.29
50.0        89.16     11.57      0.26
50.0        99.20     11.64      0.20
50.0       109.21     11.95      0.19
50.0       119.24     12.86      0.16
50.0       129.30     13.40      0.22
50.0       139.36     14.34      0.20
50.0       149.42     15.79      0.18
50.0       159.42     17.23      0.19
50.0       169.18     18.10      0.23
50.0       173.34     19.16      0.44
ENDDATA             22
ENDSUBENT           37
"].

Definition e10804 : list string := ["SUBENT        10804001     931227              20050926       0000
BIB                 12         38
INSTITUTE  (1USALAS)
REFERENCE  (J,NIM,160,143,79)
AUTHOR     (M.DROSG,D.M.DRAKE)
TITLE      180 DEGREE N-P CROSS SECTIONS FOR FAST NEUTRON
            MEASUREMENTS WITH COUNTER TELESCOPES.
FACILITY   (VDGT)
METHOD     (TOF) PROTON YIELDS COUNTED WITH TELESCOPE AND COMPARED
            WITH MEASUREMENTS FROM CALIBRATED TIME OF FLIGHT
            SYSTEM.
DETECTOR   (TELES,SOLST,NAICR) PROTON RECOIL COUNTER TELESCOPE
MONITOR    (1-H-1(N,EL)1-H-1,,DA)
CORRECTION PROTON YIELDS OF TELESCOPE CORRECTED FOR -
            -BEAM HEATING OF NEUTRON-SOURCE
            -LOSS OF PROTONS IN BOTH DETECTORS
            -ANISOTROPY OF INCIDENT NEUTRONS
            -FINITE OPENING ANGLE OF TELESCOPE
            -EXTRAPOLATION OF DATA TO 180 DEGREES
           YIELDS OF TOF DETECTOR CORRECTED FOR ENERGY DEPENDENCE
            OF EFFICIENCY
ERR-ANALYS (ERR-T) TOTAL ERROR CONSISTING OF -
            -TOF STATISTICAL ERRORS, 1%
            -TELESCOPE STATISTICAL ERRORS, 1.5% (25.3-MEV),
              2.8% (31.06-MEV)
            -LOSS OF PROTONS IN DETECTORS, 0.5% (25.3),
             0.7% (31.06)
            -BEAM HEATING, 0.3% (25.3), 0.2% (31.06)
            -EXTRAPOLATION TO 180 DEGREES, 0.1% (25.3),
              0.3% (31.06)
            -BACKGROUND, LESS THAN 0.2%
           TOTAL ERROR ALSO CONTAINS NORMALIZATION VALUE ERRORS
            -TOF EFFICIENCY, 1%
            -TOF STATISTICAL ERRORS, 0.9%
            -TELESCOPE STATISTICAL ERRORS, 0.7%
            -REFERENCE CROSS SECTION UNCERTAINTY, 0.5%
STATUS     (APRVD) APPROVED BY D.M.DRAKE, 79/2/5.
HISTORY    (781213C)
           (820108A) REFERENCE UPDATE, ADDITIONS TO BIB.
           (931227A) DATA HEADING CORRECTED, BIB UPDATE.
ENDBIB              38
COMMON               3          3
ANG-CM     EN-NRM     MONIT
ADEG       MEV        MB/SR
 180.       12.83      62.9
ENDCOMMON            3
ENDSUBENT           45
";
"SUBENT        10804002     931227              20050926       0000
BIB                  1          1
REACTION   (1-H-1(N,EL)1-H-1,,DA)
ENDBIB               1
NOCOMMON             0          0
DATA                 3          2
EN         DATA       ERR-T
MEV        MB/SR      MB/SR
 25.3       34.6       0.9
 31.1       29.1       1.0
ENDDATA              4
ENDSUBENT           10
"].

Definition e10862 : list string := ["SUBENT        10862001     800710              20050926       0000
BIB                 12         44
INSTITUTE  (1USALAS,1USANMX,1USATEM)
REFERENCE  (J,PRL,41,1341,7811)
           (W,CARLINI,8007)
AUTHOR     (R.CARLINI,B.DIETERLE,J.DONAHUE,C.LEAVITT,T.RUPP,
           W.THOMAS,D.WOLFE,L.B.AUERBACH,V.L.HIGHLAND,K.F.JOHNSON,
           W.K.MC FARLANE,J.PRATT,R.BENTLEY)
TITLE      NEUTRON-PROTON FOWARD ANGLE ELASTIC CROSS SECTIONS AT
            790-MEV
FACILITY   LOS ALAMOS MESON PHYSICS FACILITY
N-SOURCE   (P-D) 800-MEV PROTONS ON LIQUID DEUTERIUM TARGET
SAMPLE     2.5-INCH DIAMETER BY 12-INCH LONG CONTAINER OF LIQUID
            HYDROGEN
DETECTOR   VETO COUNTER TO ELIMINATE CHARGED PARTICLES FROM
            NEUTRON BEAM
           (MWPC) FOUR MULTI-WIRE PROPORTIONAL COUNTERS
           (TELES) RECOIL TELESCOPE LOCATED AT ANGLE CONJUGATE
           (PROPC) THREE HELICAL PROPORTIONAL COUNTERS TO DETER-
            MINE PROTON ORBITS
           (SCIN) SCINTILLATION COUNTERS IN PROTON ARMS TO MEASURE
            TIME OF RECOIL TRACK
           TIME OF FLIGHT COUNTER TO MEASURE NEUTRON FLUX
           (SOLST) CARBON RECOIL SLAB TO CHANGE NEUTRONS INTO
            CHARGED PARTICLES.
METHOD     (TOF) TIME-OF-FLIGHT. ELASTIC NEUTRONS ARRIVE AT UNIQUE
            TIME RELATIVE TO PRIMARY BEAM BURST FROM ACCELERATOR.
            TWO COLLIMATORS USED- PRIMARY COLLIMATOR MADE OF STEEL
            WITH 1-INCH DIAMETER, SECOND COLLIMATOR PLACE ON
            SCATTERED SIDE OF BEAM TO PREVENT PARTICLES PRODUCED
            BY FIRST COLLIMATOR FROM REACHING DETECTORS.
CORRECTION CORRECTED FOR-
            -GAMMA CONTAMINATION IN COUNTS OF NUMBER OF ELASTIC
             NEUTRONS
            -ORTHO-PARA HYDROGEN FRACTIONS
            -TARGET DENSITY
            -TIME OF FLIGHT CUTS
            -FLOOR SCATTERING
            -MONITOR DEAD TIME
            -CHARGED PARTICLES MISTAKEN FOR NEUTRONS
            -DOUBLE SCATTERING
            -FIDUCIAL AREA
ERR-ANALYS STATISTICAL ERRORS ARE 1.7 TO 3.3 PERCENT. SYSTEMATIC
            ERRORS ARE 2.7 TO 3.3 PERCENT.
HISTORY    (800519C)
           (800710A) DATA RECEIVED FROM AUTHOR
ENDBIB              44
NOCOMMON
ENDSUBENT           47
";
"SUBENT        10862002     800710              20050926       0000
BIB                  3          3
REACTION   (1-H-1(N,EL)1-H-1,,DA)
MONITOR    NO INFORMATION
HISTORY    (800710A) DATA INSERTED
ENDBIB               3
COMMON               1          3
EN
MEV
 790.
ENDCOMMON            3
DATA                 3         37
ANG-CM     DATA       DATA-ERR
ADEG       MB/SR      MB/SR
  0.        10.27      0.36
  9.53       9.77      0.25
 11.91       9.79      0.20
 14.29       9.43      0.18
 14.29       9.14      0.19
 16.66       8.60      0.16
 16.66       8.91      0.17
 19.03       8.48      0.16
 20.21       7.78      0.20
 21.39       7.56      0.15
 22.57       7.82      0.19
 24.92       7.69      0.18
 26.10       6.96      0.15
 27.27       6.48      0.18
 28.45       6.97      0.15
 30.79       6.08      0.14
 31.95       5.79      0.11
 33.12       5.59      0.14
 34.28       5.44      0.10
 36.60       4.84      0.10
 37.76       4.73      0.12
 38.91       4.30      0.10
 40.06       4.28      0.11
 42.36       4.11      0.10
 43.51       3.67      0.09
 44.65       3.38      0.10
 45.79       3.48      0.09
 48.06       3.03      0.08
 49.20       2.83      0.08
 50.33       2.88      0.08
 51.46       2.59      0.08
 53.70       2.47      0.08
 54.82       2.12      0.06
 55.94       1.96      0.07
 57.05       1.93      0.06
 59.27       1.63      0.05
 61.48       1.41      0.05
ENDDATA             39
ENDSUBENT           51
"].

Definition e10892 : list string := ["SUBENT        10892001     830620              20050926       0000
BIB                 14         49
INSTITUTE  (1USALAS,1USATAM,1USATEX,1USANMX,2SWTGVE)
REFERENCE  (J,PR/C,26,2525,8212)
           (J,PRL,36,497,7603)
           ((R,LA-7733,7904)=(T,EVANS,7904))
AUTHOR     (M.L.EVANS,G.GLASS,J.C.HIEBERT,M.JAIN,R.A.KENEFICK,
            L.C.NORTHCLIFFE,B.E.BONNER,J.E.SIMMONS,C.W.BJORK,
            P.J.RILEY,H.C.BRYANT,C.G.CASSAPAKIS,B.DIETERLE,
            C.P.LEAVITT,D.M.WOLFE,D.W.WERREN)
TITLE      DIFFERENTIAL CROSS SECTION FOR N-P ELASTIC SCATTERING
            IN THE ANGULAR RANGE 51 DEG. TO 180 DEG. AT 647.5 MEV.
FACILITY   LOS ALAMOS MESON PHYSICS FACILITY
N-SOURCE   (P-D) PROTONS ON DEUTERIUM WITH STEEL COLLIMATOR
SAMPLE     LIQUID HYDROGEN WITH REFRIGERATION SYSTEM. SURROUNDED
            WITH 0.013-MM ALUMINIZED MYLAR, VACUUM SPACE, AND
            MYLAR JACKET.
DETECTOR   (TELES,SCIN) DIFFERENTIAL RANGE TELESCOPE WITH FOUR
            SCINTILLATION COUNTERS AND COPPER ABSORBERS USED TO
            DETECT SCATTERED PROTONS. NEUTRON FLUX MONITORED WITH
            TWO TELESCOPES LOOKING AT A POLYETHYLENE SCATTERER,
            EACH USING TWO SCINTILLATION COUNTERS SEPARATED BY
            COPPER ABSORBERS.
           (MAGSP) MAGNETIC SPECTROMETER SYSTEM USING FOUR MULTI-
            WIRE PROPORTIONAL COUNTERS AND THREE SCINTILLATION
            DETECTORS USED TO DETECT SCATTERED PROTONS
MONITOR    ABSOLUTE NORMALIZATION USES KNOWN CROSS SECTIONS FOR
            NEUTRON-PROTON COLLISIONS YIELDING DEUTERIUM AND
            NEUTRAL PIONS.
METHOD     (TOF) MAGNETIC SPECTROMETER USED TO OBTAIN TIME OF
            FLIGHT INFORMATION FOR SCATTERED PROTONS. BACKGROUND
            MEASURED USING EMPTY TARGET. COMPUTER PROGRAM KIOWA
            USED TO DERIVE CROSS SECTIONS FROM RAW DATA. SINCE
            MONITOR ONLY GOOD FOR ANGLES LESS THAN 13.2-DEGREES,
            AVERAGE VALUE OF ABSOLUTE NORMALIZATION TO DUAL-FLUX-
            MONITOR-COUNTS RATIO USED FOR RELATIVE NORMALIZATION
            OF LARGER ANGLES.
CORRECTION CROSS SECTIONS GENERATED BY COMPUTER PROGRAM KIOWA
            CORRECTED FOR PROTON AND DEUTERON ABSORPTION IN
            SPECTROMETER SYSTEM.
ERR-ANALYS ONLY STATISTICAL ERRORS ARE QUOTED, DOES NOT INCLUDE
            NORMALIZATION UNCERTAINTY OF 7-PERCENT.
           ERRORS IN ANGLES DUE TO SYSTEMATIC ERRORS IN
            -SPECTROMETER ALIGNMENT
            -MULTIPLE SCATTERING AND GEOMETRIC RESOLUTION EFFECTS
             IN SPECTROMETER
            -MULTIPLE SCATTERING OF PROTONS IN TARGET AND SCINTIL-
             LATORS
STATUS     (APRVD) APPROVED BY M.L.EVANS, 80/1/28.
HISTORY    (791211C)
           (830620A) BIB UPDATE.
ENDBIB              49
COMMON               1          3
EN
MEV
 647.
ENDCOMMON            3
ENDSUBENT           56
";
"SUBENT        10892002     791227              20050926       0000
BIB                  1          1
REACTION   (1-H-1(N,EL)1-H-1,,DA)
ENDBIB               1
NOCOMMON
DATA                 3        146
ANG-CM     DATA       DATA-ERR
ADEG       MB/SR      MB/SR
  51.1      3.16       0.12
  51.7      3.19       0.11
  52.3      3.06       0.11
  52.9      2.87       0.11
  53.4      2.92       0.10
  54.0      2.78       0.10
  54.6      2.82       0.10
  55.2      2.80       0.10
  58.7      2.22       0.08
  59.3      2.39       0.09
  59.8      2.13       0.08
  60.4      2.27       0.08
  61.0      2.18       0.08
  61.6      2.11       0.08
  62.2      2.13       0.08
  62.8      2.08       0.08
  63.4      2.05       0.08
  63.8      1.83       0.08
  64.4      1.69       0.08
  65.0      1.75       0.07
  65.6      1.79       0.08
  66.2      1.85       0.08
  66.8      1.70       0.07
  67.4      1.71       0.08
  68.0      1.60       0.07
  68.6      1.68       0.07
  72.1      1.54       0.06
  72.7      1.41       0.06
  73.3      1.36       0.06
  73.9      1.46       0.06
  74.5      1.39       0.06
  75.1      1.34       0.06
  75.7      1.18       0.06
  76.4      1.21       0.06
  77.0      1.25       0.06
  77.6      1.21       0.06
  81.7      0.98       0.05
  82.4      1.03       0.05
  83.0      1.01       0.05
  83.6      1.03       0.05
  84.3      0.91       0.05
  84.9      1.02       0.05
  85.5      0.87       0.04
  86.1      0.81       0.05
  86.8      0.83       0.05
  87.7      0.79       0.05
  88.4      0.90       0.05
  89.0      0.87       0.04
  89.7      0.86       0.04
  90.3      0.83       0.04
  90.9      0.81       0.04
  91.6      0.73       0.04
  92.2      0.78       0.04
  92.9      0.77       0.04
  93.5      0.77       0.04
  94.7      0.73       0.05
  95.4      0.69       0.04
  96.0      0.74       0.04
  96.7      0.70       0.04
  97.3      0.73       0.05
  98.0      0.75       0.04
  98.6      0.69       0.04
  99.3      0.72       0.04
 104.8      0.70       0.03
 105.5      0.75       0.04
 106.2      0.71       0.04
 106.8      0.73       0.04
 107.5      0.76       0.04
 108.2      0.75       0.04
 108.8      0.75       0.04
 109.5      0.83       0.04
 110.2      0.84       0.04
 110.8      0.72       0.04
 112.2      0.70       0.04
 112.9      0.79       0.04
 113.6      0.77       0.04
 114.3      0.85       0.04
 114.9      0.80       0.04
 115.6      0.75       0.04
 116.3      0.89       0.04
 117.0      0.77       0.04
 117.6      0.80       0.04
 118.3      0.77       0.04
 123.6      0.96       0.05
 124.2      1.00       0.05
 124.9      1.01       0.05
 125.6      1.00       0.05
 126.3      1.01       0.05
 127.0      1.09       0.05
 127.7      1.11       0.05
 128.4      1.23       0.05
 129.1      1.19       0.05
 130.9      1.21       0.05
 131.6      1.24       0.06
 132.3      1.31       0.06
 133.0      1.31       0.06
 133.7      1.38       0.06
 134.4      1.41       0.06
 135.1      1.47       0.06
 135.8      1.51       0.06
 136.5      1.44       0.06
 137.2      1.52       0.06
 139.4      1.65       0.06
 140.1      1.72       0.06
 140.8      1.91       0.07
 141.5      1.98       0.07
 142.2      1.99       0.07
 142.9      2.00       0.07
 143.6      2.06       0.07
 144.3      2.15       0.07
 145.1      2.20       0.07
 145.8      2.19       0.07
 152.0      2.78       0.09
 152.7      3.09       0.09
 153.4      2.89       0.09
 154.2      3.13       0.09
 154.9      3.03       0.09
 155.6      3.17       0.09
 156.3      3.16       0.09
 157.0      3.25       0.10
 159.4      3.64       0.13
 160.1      3.69       0.13
 160.8      3.63       0.13
 161.6      3.86       0.13
 162.3      3.84       0.13
 163.0      3.98       0.14
 163.7      4.18       0.14
 164.5      4.14       0.14
 165.2      4.17       0.14
 168.5      4.77       0.17
 169.2      4.98       0.17
 170.0      5.50       0.18
 170.7      5.64       0.18
 171.4      5.86       0.18
 172.1      6.53       0.19
 172.9      6.36       0.19
 173.6      7.10       0.20
 174.3      7.15       0.20
 174.5      7.35       0.16
 175.2      7.77       0.08
 176.0      8.34       0.08
 176.7      8.59       0.07
 177.4      8.73       0.05
 178.2      9.06       0.06
 178.9      9.04       0.08
 179.6      9.19       0.15
ENDDATA            148
ENDSUBENT          154
"].

Definition e10903 : list string := ["SUBENT        10903001     860520              20050926       0000
BIB                 14         48
INSTITUTE  (1USADAV,1USALAS)
REFERENCE  (J,PR/C,21,1185,8004)
           (C,78GRAZ,1,137,7806)
AUTHOR     (N.S.P.KING,J.D.REBER,J.L.ROMERO,D.H.FITZGERALD,
           J.L.ULLMANN,T.S.SUBRAMANIAN,F.P.BRADY)
TITLE      NEUTRON-PROTON SCATTERING. I.DIFFERENTIAL CROSS SECTION
            AT 63.1-MEV
FACILITY   (CYCLO,1USADAV)
INC-SOURCE (P-LI7) PROTONS ON LITHIUM, COLLIMATED AT 0-DEGREES TO
            24-MM HIGH BY 12-MM WIDE
SAMPLE     TWO SAMPLES USED-
            -CH(2) SOLID TARGET, 0.144 G/SQ-CM AT ANGLES OF 25 TO
             60 DEGREES
            -LIQUID NITROGEN COOLED HYDROGEN GAS IN ALUMINUM CAN
             AT ANGLES OF 25 TO 70 DEGREES
DETECTOR   (TELES,NAICR,SOLST) DATA COLLECTED WITH A NAI AND
            SILICON DETECTOR TELESCOPE
           (TELES) CHARGED PARTICLE TELESCOPE AND PROTON RECOIL
            TELESCOPE USED TO MONITOR NEUTRON BEAM INTENSITY
           FARADAY CUP USED TO COLLECT PROTONS FROM NEUTRON SOURCE
            REACTION AS A SECONDARY BEAM MONITOR
MONITOR    (1-H-1(N,TOT),,SIG) VALUE USED TO NORMALIZE DATA. FROM
            J.BINSTOCK, PHYS.REV.C, VOL.10, PAGE 19(1974)
           CARBON TARGET USED TO ADJUST DATA FROM CH(2) SAMPLE
METHOD     (TOF) TIME OF FLIGHT. SAMPLE PLACED 3.4 METERS FROM
            NEUTRON SOURCE. OVERLAP OF BOTH SAMPLES USED FOR
            NORMALIZATION OF FINAL DATA. RUNS MADE WITH CARBON
            SAMPLE TO DETERMINE CARBON CONTRIBUTION TO CH(2)
            SAMPLE YIELD.
CORRECTION DATA CORRECTED FOR-
            -FINITE SOLID ANGLE
            -EFFECTIVE TARGET THICKNESS (GAS SAMPLE)
            -TELESCOPE DETECTOR EFFICIENCY
            -NUCLEAR REACTIONS IN NAI DETECTOR
ERR-ANALYS MAJOR UNCERTAINTY IN PEAK EXTRACTION IS BACKGROUND
            UNCERTAINTY
           UNCERTAINTIES IN CROSS SECTION DATA DUE TO-
            -COUNTING STATISTICS OF RECOIL PROTON PEAK, LESS THAN
             2-PERCENT
            -ESTIMATED UNCERTAINTY IN BACKGROUND DETERMINATION,
             LESS THAN 3-PERCENT
            -EFFECTIVE SOLID ANGLES, LESS THAN 1-PERCENT
            -RELATIVE GAS TARGET THICKNESS, LESS THAN 1-PERCENT
            -NUCLEAR INTERACTION CORRECTION, LESS THAN 0.5-PERCENT
            -TELESCOPE EFFICIENCY, LESS THAN 0.5-PERCENT
STATUS     (APRVD) APPROVED BY N.KING, 80/9/30.
HISTORY    (800710C)
           (860520A) BIB UPDATE.
ENDBIB              48
COMMON               1          3
EN
MEV
 63.1
ENDCOMMON            3
ENDSUBENT           55
";
"SUBENT        10903002     800813              20050926       0000
BIB                  1          1
REACTION   (1-H-1(N,EL)1-H-1,,DA)
ENDBIB               1
NOCOMMON
DATA                 3         19
ANG-CM     DATA-CM    DATA-ERR
ADEG       MB/SR      MB/SR
  39.4      11.01      0.68
  49.3       9.61      0.26
  59.2       8.75      0.17
  69.1       8.45      0.18
  79.1       7.91      0.16
  86.2       8.28      0.14
  89.0       8.23      0.15
  99.1       7.97      0.16
 109.1       8.91      0.16
 110.3       8.54      0.28
 119.2       9.40      0.14
 125.2       9.39      0.34
 126.4       9.83      0.16
 129.3      10.08      0.23
 139.4      10.68      0.33
 149.5      11.81      0.27
 150.7      11.77      0.44
 159.7      12.79      0.31
 165.8      13.60      0.46
ENDDATA             21
ENDSUBENT           27
"].

Definition e11036 : list string := ["SUBENT        11036001     820106              20050926       0000
BIB                  6          7
INSTITUTE  (1USABRK)
REFERENCE  (J,PR,79,96,5007)
AUTHOR     (E.KELLY,C.LEITH,E.SEGRE,C.WEIGAND)
TITLE      EXPERIMENTS ON N-P SCATTERING WITH 260-MEV NEUTRONS.
STATUS     (SCSRS)
HISTORY    (760628T) TRANSLATED FROM SCISRS
           (820106A) CONVERTED TO REACTION FORMALISM
ENDBIB               7
NOCOMMON             0          0
ENDSUBENT           10
";
"SUBENT        11036002     820106              20050926       0000
BIB                  4          6
REACTION   (1-H-1(N,EL)1-H-1,,DA)
DETECTOR   (TELES)    COUNTER TELESCOPE
MONITOR    (1-H-0(N,TOT),,SIG)
            NORMALIZED TO HYDROGEN TOTAL=35MB.
COMMENT    AUTHORS ESTIMATE 180 DEGR.VALUE LOW BY 10 PERCENT DUE
            TO ANGULAR RESOLUTION.
ENDBIB               6
COMMON               3          3
EN         EN-RSL     ANG-RSL
MEV        MEV        ADEG
 2.60   +02 5.0    +01 6.
ENDCOMMON            3
DATA                 3         15
COS-CM     DATA       DATA-ERR
NO-DIM     MB/SR      MB/SR
 0.79100    3.6    +00    7.  -01
 0.67900    3.3    +00    6.  -01
 0.54800    1.1    +00    6.  -01
 0.39700    1.7    +00    4.  -01
 0.23500    1.9    +00    7.  -01
 0.06500    1.85   +00   14.  -02
-0.1100     1.09   +00   26.  -02
-0.2840     2.02   +00   21.  -02
-0.4490     1.90   +00   24.  -02
-0.6030     2.8    +00    4.  -01
-0.7380     4.5    +00    3.  -01
-0.8490     4.7    +00    4.  -01
-0.9320     6.4    +00    3.  -01
-0.9830     7.8    +00    8.  -01
-1.000      7.8    +00 2.1    +00
ENDDATA             17
ENDSUBENT           32
"].

Definition e11042 : list string := ["SUBENT        11042001     830909   20050616   20050926       0000
BIB                  6          9
INSTITUTE  (1USABRK)
REFERENCE  (J,PR,81,493,51)
AUTHOR     (R.WALLACE)
TITLE      90-MEV NEUTRON-PROTON SCATTERING AT LARGE PROTON
           ANGLES.
STATUS     (SCSRS)
HISTORY    (760628T) TRANSLATED FROM SCISRS
           (820106A) CONVERTED TO REACTION FORMALISM
           (830817A) BIB, DATA HEADING CORRECTIONS
ENDBIB               9
NOCOMMON             0          0
ENDSUBENT           12
";
"SUBENT        11042002     830909   20050616   20050926       0000
BIB                  4          6
REACTION   (1-H-1(N,EL)1-H-1,,DA)
DETECTOR   (TRD)      NUCLEAR EMULSIONS
MONITOR    (1-H-0(N,TOT),,SIG)
            RENORMALIZATION BY HESS,REV.MOD.PHYS.30,
            368(1958) TO H TOTAL=78.3MB.
ERR-ANALYS  DATA-ERR GIVEN IS STATISTICAL ERROR ONLY
ENDBIB               6
COMMON               3          3
EN         EN-RSL     ANG-RSL
MEV        MEV        ADEG
 9.0    +01 2.0    +01 3.
ENDCOMMON            3
DATA                 3          9
COS-CM     DATA-CM    DATA-ERR
NO-DIM     MB/SR      MB/SR
 0.89900    7.84   +00   40.
 0.84800    8.26   +00   35.
 0.78800    6.97   +00   30.
 0.71900    6.30   +00   27.
 0.64300    6.20   +00   25.
 0.55900    5.65   +00   23.
 0.47000    5.59   +00   23.
 0.37500    4.95   +00   21.
 0.27600    4.41   +00   20.
ENDDATA             11
ENDSUBENT           26
";
"SUBENT        11042003     830909   20050616   20050926       0000
BIB                  5          7
REACTION   (1-H-1(N,EL)1-H-1,,DA)
STATUS     (OUTDT,11042002)
DETECTOR   (TRD)      NUCLEAR EMULSIONS
MONITOR    (1-H-0(N,TOT),,SIG)
            NORMALIZED TO SMOOTH CURVE BY HADLEY, PHYS.
            REV.75,351(1949).
ERR-ANALYS  DATA-ERR GIVEN IS STATISTICAL ERROR ONLY
ENDBIB               7
COMMON               2          3
EN         EN-RSL
MEV        MEV
 9.0    +01 2.0    +01
ENDCOMMON            3
DATA                 3          9
COS-CM     DATA-CM    DATA-ERR
NO-DIM     MB/SR      MB/SR
 0.89900    7.60   +00   39.
 0.84800    8.01   +00   34.
 0.78800    6.77   +00   29.
 0.71900    6.11   +00   26.
 0.64300    6.02   +00   24.
 0.55900    5.48   +00   22.
 0.47000    5.42   +00   22.
 0.37500    4.8    +00    2.
 0.27600    4.28   +00   19.
ENDDATA             11
ENDSUBENT           27
"].

Definition e11055 : list string := ["SUBENT        11055001     830909   20050616   20050926       0000
BIB                  6          9
INSTITUTE  (1USAROC)
REFERENCE  (J,PR,88,15,52)
AUTHOR     (G.GUERNSEY,G.MOTT,B.K.NELSON)
TITLE      DIFFERENTIAL N-P SCATTERING CROSS SECTION FOR 220-MEV
           NEUTRONS.
STATUS     (SCSRS)
HISTORY    (760628T) TRANSLATED FROM SCISRS
           (820106A) CONVERTED TO REACTION FORMALISM
           (830817A) BIB CORRECTIONS. MONIT ADDED TO DATA.
ENDBIB               9
NOCOMMON             0          0
ENDSUBENT           12
";
"SUBENT        11055002     830909   20050616   20050926       0000
BIB                  4          6
REACTION   (1-H-1(N,EL)1-H-1,,DA)
DETECTOR   (TELES)    COUNTER TELESCOPE
MONITOR    (1-H-0(N,TOT),,SIG) RENORMALIZED BY HESS,
            REV.MOD.PHYS.30,368(1958) TO ACCOUNT FOR ASYMMETRY.
            ASYMMETRY.
ERR-ANALYS  DATA-ERR GIVEN IS STATISTICAL ERROR ONLY
ENDBIB               6
COMMON               2          3
ANG-RSL    MONIT
ADEG       MB
 5.         41.3
ENDCOMMON            3
DATA                 4         20
EN         COS-CM     DATA       DATA-ERR
MEV        NO-DIM     MB/SR      MB/SR
 172.       0.21600    2.37   +00   71.
 172.      -0.1290     2.47   +00   41.
 172.      -0.4650     2.57   +00   61.
 172.      -0.4730     2.16   +00   92.
 172.      -0.7720     3.61   +00   92.
 172.      -0.8550     5.46   +00   82.
 172.      -0.9260     7.21   +00  123.
 172.      -0.9350     7.83   +00  154.
 172.      -0.9640     1.124  +01  144.
 172.      -1.         1.71   +01   70.
 215.       0.22700    1.49   +00   23.
 215.      -0.1200     1.35   +00   12.
 215.      -0.4570     2.47   +00   33.
 215.      -0.4650     2.61   +00   38.
 215.      -0.7650     4.30   +00   36.
 215.      -0.8520     5.54   +00   49.
 215.      -0.9220     7.18   +00  135.
 215.      -0.9320     7.80   +00   77.
 215.      -0.9620     9.15   +00   68.
 215.      -1.         1.38   +01   29.
ENDDATA             22
ENDSUBENT           37
";
"SUBENT        11055003     830909   20050616   20050926       0000
BIB                  5          7
REACTION   (1-H-1(N,EL)1-H-1,,DA)
STATUS     (OUTDT,11055002)
DETECTOR   (TELES)    COUNTER TELESCOPE
MONITOR    (1-H-0(N,TOT),,SIG)
            NORMALIZED TO H TOTAL=41.3MB, ASSUMING
            SYMMETRY ABOUT 90DEG.
ERR-ANALYS  DATA-ERR GIVEN IS STATISTICAL ERROR ONLY
ENDBIB               7
NOCOMMON             0          0
DATA                 4         20
EN         COS-CM     DATA       DATA-ERR
MEV        NO-DIM     MB/SR      MB/SR
 172.       0.21600    2.3    +00    7.
 172.      -0.1290     2.4    +00    4.
 172.      -0.4650     2.5    +00    4.
 172.      -0.4730     2.1    +00    9.
 172.      -0.7720     3.5    +00    9.
 172.      -0.8550     5.3    +00    8.
 172.      -0.9260     7.0    +00   12.
 172.      -0.9350     7.6    +00   15.
 172.      -0.9640     1.09   +01   14.
 172.      -1.         1.66   +01   68.
 215.       0.22700    1.45   +00   22.
 215.      -0.1200     1.31   +00   12.
 215.      -0.4570     2.40   +00   32.
 215.      -0.4650     2.53   +00   37.
 215.      -0.7650     4.18   +00   35.
 215.      -0.8520     5.38   +00   47.
 215.      -0.9220     6.97   +00  131.
 215.      -0.9320     7.58   +00   75.
 215.      -0.9620     8.89   +00   66.
 215.      -1.         1.34   +01   28.
ENDDATA             22
ENDSUBENT           34
"].

Definition e11066 : list string := ["SUBENT        11066001     830909              20050926       0000
BIB                  7         10
INSTITUTE  (1USALAS)
REFERENCE  (J,PR,91,90,5307)
AUTHOR     (J.C.ALLRED,A.H.ARMSTRONG,L.ROSEN)
TITLE      THE INTERACTION OF 14-MEV NEUTRONS WITH PROTONS AND
           DEUTERONS.
DETECTOR   (TRD) NUCLEAR EMULSIONS
STATUS     (SCSRS)
HISTORY    (760628T) TRANSLATED FROM SCISRS
           (820106A) CONVERTED TO REACTION FORMALISM
           (830817U) BIB, DATA HEADING CORRECTIONS.
ENDBIB              10
NOCOMMON             0          0
ENDSUBENT           13
";
"SUBENT        11066002     830909              20050926       0000
BIB                  1          1
REACTION   (1-H-1(N,EL)1-H-1,,DA)
ENDBIB               1
COMMON               2          3
EN         EN-RSL
MEV        MEV
 1.41   +01 1.     -01
ENDCOMMON            3
DATA                 3          8
COS-CM     DATA-CM    DATA-ERR
NO-DIM     MB/SR      PER-CENT
 0.66910    5.07   +01    4.6
 0.39230    4.93   +01    5.0
 0.10280    5.33   +01    4.4
-0.1822     5.13   +01    4.7
-0.4116     5.18   +01    3.5
-0.6652     5.33   +01    3.8
-0.8349     5.40   +01    3.5
-0.9026     5.47   +01    2.6
ENDDATA             10
ENDSUBENT           20
";
"SUBENT        11066003     830909              20050926       0000
BIB                  2          2
REACTION   (1-H-1(N,EL)1-H-1,,SIG)
STATUS     (DEP,11066002) INTEGRATED ANGULAR DISTRIBUTION
ENDBIB               2
NOCOMMON             0          0
DATA                 4          1
EN         EN-RSL     DATA       DATA-ERR
MEV        MEV        B          B
 1.41   +01 1.     -01 6.6    -01 5.     -02
ENDDATA              3
ENDSUBENT           10
";
"SUBENT        11066004     830909              20050926       0000
BIB                  2          2
REACTION   (1-H-2(N,EL)1-H-2,,SIG)
STATUS     (DEP,11066005) INTEGRATED ANGULAR DISTRIBUTION
ENDBIB               2
NOCOMMON             0          0
DATA                 4          1
EN         EN-RSL     DATA       DATA-ERR
MEV        MEV        B          B
 1.41   +01 1.     -01 6.70   -01 1.00   -01
ENDDATA              3
ENDSUBENT           10
";
"SUBENT        11066005     830909              20050926       0000
BIB                  1          1
REACTION   (1-H-2(N,EL)1-H-2,,DA)
ENDBIB               1
COMMON               2          3
EN         EN-RSL
MEV        MEV
 1.41   +01 1.     -01
ENDCOMMON            3
DATA                 3         26
COS-CM     DATA-CM    DATA-ERR
NO-DIM     MB/SR      PER-CENT
 0.69470    8.59   +01   11.
 0.65610    8.41   +01    6.5
 0.43210    5.98   +01    3.9
 0.35180    5.2    +01    7.7
 0.25540    4.77   +01    5.4
 0.21470    4.22   +01    5.5
 0.05931    3.55   +01    5.1
-0.2215     1.71   +01    5.7
-0.3486     1.32   +01    8.4
-0.4131     1.22   +01    6.4
-0.4909     1.15   +01    6.5
-0.5210     1.15   +01    8.5
-0.5962     1.10   +01    8.5
-0.6587     1.13   +01   12.
-0.6794     1.23   +01    9.7
-0.6972     1.50   +01    8.3
-0.7478     1.91   +01    9.2
-0.8028     2.98   +01    6.2
-0.8192     3.28   +01    7.1
-0.8660     4.89   +01    8.0
-0.8746     5.37   +01    5.1
-0.8829     5.05   +01    5.8
-0.8988     5.9    +01    6.0
-0.9078     5.85   +01    5.0
-0.9272     7.95   +01    5.9
-0.9976     1.10   +02    3.4
ENDDATA             28
ENDSUBENT           38
"].

Definition e11069 : list string := ["SUBENT        11069001     830909   20050616   20050926       0000
BIB                  7          9
INSTITUTE  (1USAHRV)
REFERENCE  (J,PR,92,724,5311)
AUTHOR     (W.SELOVE,K.STRAUCH,F.TITUS)
TITLE      NEUTRON-PROTON SCATTERING NEAR 180 DEGREES AT 93 MEV.
DETECTOR   (TELES)
STATUS     (SCSRS)
HISTORY    (760628T) TRANSLATED FROM SCISRS
           (820106A) CONVERTED TO REACTION FORMALISM
           (830817A) BIB CORRECTIONS. MONIT ADDED TO DATA.
ENDBIB               9
NOCOMMON             0          0
ENDSUBENT           12
";
"SUBENT        11069002     830909   20050616   20050926       0000
BIB                  3          4
REACTION   (1-H-1(N,EL)1-H-1,,DA)
MONITOR    (1-H-0(N,TOT),,SIG)
            RENORMALIZATION BY HESS,REV.MOD.PHYS.30,368(1958)
ERR-ANALYS  DATA-ERR GIVEN IS STATISTICAL ERROR ONLY
ENDBIB               4
COMMON               3          3
EN         EN-RSL     MONIT
MEV        MEV        MB
 9.3    +01 1.7    +01 78.3
ENDCOMMON            3
DATA                 3          6
COS-CM     DATA-CM    DATA-ERR
NO-DIM     MB/SR      MB/SR
-0.9092     9.83   +00   27.
-0.9478     1.108  +01   28.
-0.9763     1.232  +01   30.
-0.9890     1.289  +01   31.
-0.9968     1.312  +01   32.
-0.9990     1.330  +01   34.
ENDDATA              8
ENDSUBENT           21
";
"SUBENT        11069003     830909   20050616   20050926       0000
BIB                  4          6
REACTION   (1-H-1(N,EL)1-H-1,,DA)
STATUS     (OUTDT,11069002)
MONITOR    (1-H-0(N,TOT),,SIG)
            NORMALIZED TO SMOOTH CURVE BY HADLEY,PHYS.
            REV.75,351(1949).
ERR-ANALYS  DATA-ERR GIVEN IS STATISTICAL ERROR ONLY
ENDBIB               6
COMMON               2          3
EN         EN-RSL
MEV        MEV
 9.3    +01 1.7    +01
ENDCOMMON            3
DATA                 3          6
COS-CM     DATA-CM    DATA-ERR
NO-DIM     MB/SR      MB/SR
-0.9092     9.53   +00   26.
-0.9478     1.075  +01   27.
-0.9763     1.196  +01   29.
-0.9890     1.250  +01   30.
-0.9968     1.273  +01   31.
-0.9990     1.290  +01   33.
ENDDATA              8
ENDSUBENT           23
"].

Definition e11072 : list string := ["SUBENT        11072001     830909   20050616   20050926       0000
BIB                  7          9
INSTITUTE  (1USABRK)
REFERENCE  (J,PR,94,208,5404)
AUTHOR     (O.CHAMBERLAIN,J.W.EASLEY)
TITLE      SMALL-ANGLE SCATTERING AT 90 MEV.
DETECTOR   (TELES)
STATUS     (SCSRS)
HISTORY    (760628T) TRANSLATED FROM SCISRS
           (820106A) CONVERTED TO REACTION FORMALISM
           (830817A) BIB, DATA HEADING CORRECTIONS.
ENDBIB               9
NOCOMMON             0          0
ENDSUBENT           12
";
"SUBENT        11072002     830909   20050616   20050926       0000
BIB                  3          4
REACTION   (1-H-1(N,EL)1-H-1,,DA)
MONITOR    (1-H-1(N,TOT),,SIG)
            RENORMALIZED BY HESS,REV.MOD.PHYS.30,368(1958)
ERR-ANALYS  DATA-ERR GIVEN IS STATISTICAL ERROR ONLY
ENDBIB               4
COMMON               3          3
EN         EN-RSL     MONIT
MEV        MEV        MB
 9.0    +01 2.0    +01 78.3
ENDCOMMON            3
DATA                 3          4
COS-CM     DATA-CM    DATA-ERR
NO-DIM     MB/SR      MB/SR
 0.99600    1.33   +01   12.
 0.98400    1.24   +01    7.
 0.93500    1.06   +01    6.
 0.80900    7.8    +00    4.
ENDDATA              6
ENDSUBENT           19
";
"SUBENT        11072003     830909   20050616   20050926       0000
BIB                  4          6
REACTION   (1-H-1(N,EL)1-H-1,,DA)
STATUS     (OUTDT,11072002)
MONITOR    (1-H-1(N,TOT),,SIG)
            NORMALIZED AT 36DEG TO HADLEY,PHYS.REV.75,
            351(1959).
ERR-ANALYS  DATA-ERR GIVEN IS STATISTICAL ERROR ONLY
ENDBIB               6
COMMON               2          3
EN         EN-RSL
MEV        MEV
 9.0    +01 2.0    +01
ENDCOMMON            3
DATA                 3          4
COS-CM     DATA-CM    DATA-ERR
NO-DIM     MB/SR      MB/SR
 0.99600    1.29   +01   12.
 0.98400    1.20   +01    7.
 0.93500    1.03   +01    6.
 0.80900    7.6    +00    4.
ENDDATA              6
ENDSUBENT           21
"].

Definition e11078 : list string := ["SUBENT        11078001     820106              20050926       0000
BIB                  6          7
INSTITUTE  (1USACAR)
REFERENCE  (J,PR,95,591,5407)
AUTHOR     (A.J.HARTZLER,R.T.SIEGEL,W.OPITZ)
TITLE      SMALL-ANGLE NEUTRON-PROTON SCATTERING AT 400 MEV.
STATUS     (SCSRS)
HISTORY    (760628T) TRANSLATED FROM SCISRS
           (820106A) CONVERTED TO REACTION FORMALISM
ENDBIB               7
NOCOMMON             0          0
ENDSUBENT           10
";
"SUBENT        11078002     860331              20050926       0000
BIB                  4          4
REACTION   (1-H-1(N,EL)1-H-1,,DA)
DETECTOR   (TELES)    COUNTER TELESCOPE
MONITOR    (1-H-0(N,EL)1-H-0,,SIG)
HISTORY    (860331A) BIB, DATA HEADING CORRECTIONS.
ENDBIB               4
COMMON               3          3
EN         EN-RSL     MONIT
MEV        MEV        MB
 4.00   +02 1.5    +01 33.
ENDCOMMON            3
DATA                 3         23
COS-CM     DATA-CM    DATA-ERR
NO-DIM     MB/SR      MB/SR
 0.97600    3.73   +00 2.10   +00
 0.96600    4.43   +00 4.6    -01
 0.94000    3.07   +00 3.7    -01
 0.86600    2.84   +00 5.7    -01
 0.76600    3.33   +00 2.0    -01
 0.70700    3.35   +00 2.0    -01
 0.64300    3.38   +00 1.2    -01
 0.57400    2.56   +00 2.3    -01
 0.50000    2.48   +00 8.     -02
 0.34200    2.22   +00 9.     -02
 0.17400    1.85   +00 6.     -02
 0.00000    1.54   +00 6.     -02
-0.1740     1.42   +00 8.     -02
-0.3420     1.50   +00 8.     -02
-0.5000     1.94   +00 8.     -02
-0.6430     2.50   +00 9.     -02
-0.7660     3.21   +00 9.     -02
-0.8660     4.17   +00 1.1    -01
-0.9400     5.25   +00 1.4    -01
-0.9660     5.82   +00 2.2    -01
-0.9850     7.93   +00 2.8    -01
-0.9962     9.57   +00 3.4    -01
-1.         1.349  +01 9.1    -01
ENDDATA             25
ENDSUBENT           38
"].

Definition e11079 : list string := ["SUBENT        11079001     820106              20050926       0000
BIB                  6          8
INSTITUTE  (1USARIC)
REFERENCE  (J,PR,95,730,54)
AUTHOR     (J.R.SMITH)
TITLE      SCATTERING OF 14.1-MEV NEUTRONS IN HELIUM, HYDROGEN AND
           NITROGEN.
STATUS     (SCSRS)
HISTORY    (760628T) TRANSLATED FROM SCISRS
           (820106A) CONVERTED TO REACTION FORMALISM
ENDBIB               8
NOCOMMON             0          0
ENDSUBENT           11
";
"SUBENT        11079002     820106              20050926       0000
BIB                  2          2
REACTION   (1-H-1(N,EL)1-H-1,,DA,,REL)
DETECTOR   (TRD) CLOUD CHAMBER
ENDBIB               2
COMMON               2          3
EN         EN-RSL
MEV        MEV
 14.1       0.1
ENDCOMMON            3
DATA                 2         12
ANG-CM     DATA
ADEG       ARB-UNITS
 15.        108.
 25.        105.
 35.         88.
 45.        106.
 55.         76.
 65.        101.
 75.        101.
 90.        102.
110.         96.
130.         87.
150.         88.
170.         85.
ENDDATA             14
ENDSUBENT           25
";
"SUBENT        11079003     820106              20050926       0000
BIB                  2          2
REACTION   (2-HE-4(N,EL)2-HE-4,,DA,,REL)
DETECTOR   (TRD) CLOUD CHAMBER
ENDBIB               2
COMMON               2          3
EN         EN-RSL
MEV        MEV
 14.1       0.1
ENDCOMMON            3
DATA                 2         10
ANG-CM     DATA
ADEG       ARB-UNITS
 29.        0.238
 40.        0.194
 60.        0.150
 70.        0.110
 80.        0.065
 95.        0.023
105.        0.013
120.        0.023
135.        0.018
155.        0.053
ENDDATA             12
ENDSUBENT           23
";
"SUBENT        11079004     860326              20050926       0000
BIB                  4          5
REACTION   (7-N-0(N,EL)7-N-0,,SIG)
DETECTOR   (TRD)      CLOUD CHAMBER
MONITOR    (7-N-0(N,TOT),,SIG)
            BASED ON NITROGEN TOTAL=1.59B.
HISTORY    (860326A) REACTION PRODUCT ADDED.
ENDBIB               5
NOCOMMON             0          0
DATA                 3          1
EN         EN-RSL     DATA
MEV        MEV        B
 1.41   +01 1.     -01 8.2    -01
ENDDATA              3
ENDSUBENT           13
";
"SUBENT        11079005     860120              20050926       0000
BIB                  4          5
REACTION   (7-N-0(N,INL)7-N-0,,SIG)
DETECTOR   (TRD)      CLOUD CHAMBER
MONITOR    (7-N-0(N,TOT),,SIG)
            BASED ON NITROGEN TOTAL=1.59B.
HISTORY    (860120A) REACTION PRODUCT ADDED.
ENDBIB               5
NOCOMMON             0          0
DATA                 3          1
EN         EN-RSL     DATA
MEV        MEV        B
 1.41   +01 1.     -01 4.8    -01
ENDDATA              3
ENDSUBENT           13
"].

Definition e11083 : list string := ["SUBENT        11083001     820106              20050926       0000
BIB                  6          7
INSTITUTE  (1USAHRV)
REFERENCE  (J,PR,96,1310,5412)
AUTHOR     (R.H.STAHL,N.F.RAMSEY)
TITLE      NEUTRON-PROTON SCATTERING AT 91 MEV.
STATUS     (SCSRS)
HISTORY    (760628T) TRANSLATED FROM SCISRS
           (820106A) CONVERTED TO REACTION FORMALISM
ENDBIB               7
NOCOMMON             0          0
ENDSUBENT           10
";
"SUBENT        11083002     820106              20050926       0000
BIB                  3          4
REACTION   (1-H-1(N,EL)1-H-1,,DA)
DETECTOR   (TELES)    COUNTER TELESCOPE
MONITOR    (1-H-0(N,TOT),,SIG)
            NORMALIZED TO HYDROGEN TOTAL=78.3+-3MB.
ENDBIB               4
COMMON               2          3
EN         EN-RSL
MEV        MEV
 9.1    +01 1.7    +01
ENDCOMMON            3
DATA                 4         25
COS-CM     ANG-RSL    DATA       DATA-ERR
NO-DIM     ADEG       MB/SR      PER-CENT
 .5020         4.7     5.61   +00    5.9
 .4260                 4.88   +00    5.9
 .3560                 4.26   +00    4.3
 .2730                 4.08   +00    4.7
 .2050         3.1     4.17   +00    3.7
 .1370                 3.96   +00    3.3
 .0328                 4.19   +00    3.5
-.1540         2.5     4.53   +00    3.0
-.3210                 4.93   +00    3.3
-.4820         2.2     5.99   +00    2.5
-.6300                 6.51   +00    2.6
-.7560         1.9     7.74   +00    2.5
-.7560         2.1     8.08   +00    3.5
-.8600                 9.13   +00    2.6
-.9060                 9.97   +00    3.0
-.9360         1.9     1.042  +01    2.5
-.9360                 1.084  +01    4.0
-.9510                 1.085  +01    2.8
-.9640         1.9     1.182  +01    2.6
-.9760                 1.184  +01    2.5
-.9840                 1.261  +01    2.5
-.9890         1.9     1.324  +01    2.6
-.9940                 1.330  +01    2.5
-.9970         1.9     1.309  +01    2.9
-.9980         2.1     1.308  +01    3.1
ENDDATA             27
ENDSUBENT           40
"].

Definition e11084 : list string := ["SUBENT        11084001     830909              20050926       0000
BIB                  7         10
INSTITUTE  (1USALAS)
REFERENCE  (J,PR,97,757,5502)
AUTHOR     (J.D.SEAGRAVE)
TITLE      RECOIL DEUTERONS AND DISINTEGRATION PROTONS FROM THE
           N-D INTERACTION, AND N-P SCATTERING AT 14.1 MEV.
DETECTOR   (TELES)
STATUS     (SCSRS)
HISTORY    (760628T) TRANSLATED FROM SCISRS
           (820106A) CONVERTED TO REACTION FORMALISM
           (830817A) BIB, DATA HEADING CORRECTIONS.
ENDBIB              10
NOCOMMON             0          0
ENDSUBENT           13
";
"SUBENT        11084002     830909              20050926       0000
BIB                  1          1
REACTION   (1-H-1(N,EL)1-H-1,,DA)
ENDBIB               1
COMMON               2          3
EN         EN-RSL
MEV        MEV
 1.410  +01 5.     -02
ENDCOMMON            3
DATA                 3          6
COS-CM     DATA-CM    DATA-ERR
NO-DIM     MB/SR      MB/SR
 0.34200    5.24   +01 3.0    +00
 0.00000    5.30   +01 2.5    +00
-0.5000     5.4    +01 2.     +00
-0.7660     5.55   +01 2.0    +00
-0.9400     5.5    +01 1.     +00
-0.9925     5.6    +01 1.     +00
ENDDATA              8
ENDSUBENT           18
";
"SUBENT        11084003     830909              20050926       0000
BIB                  2          2
REACTION   (1-H-2(N,EL)1-H-2,,SIG)
STATUS     (DEP,11084004) INTEGRATED ANGULAR DISTRIBUTION.
ENDBIB               2
NOCOMMON             0          0
DATA                 4          1
EN         EN-ERR     DATA       DATA-ERR
MEV        MEV        B          B
 1.410  +01 5.     -02 6.10   -01 3.0    -02
ENDDATA              3
ENDSUBENT           10
";
"SUBENT        11084004     830909              20050926       0000
BIB                  1          1
REACTION   (1-H-2(N,2N)1-H-1,,DA,P)
ENDBIB               1
COMMON               3          3
EN         EN-RSL     ANG-RSL
MEV        MEV        ADEG
 1.410  +01 5.     -02 3.5
ENDCOMMON            3
DATA                 3          9
COS        DATA-CM    DATA-ERR
NO-DIM     MB/SR      MB/SR
 0.99600    6.02   +01 4.5    +00
 0.98500    6.08   +01 6.1    +00
 0.95800    4.95   +01 4.6    +00
 0.86600    3.59   +01 4.7    +00
 0.70700    2.32   +01 4.1    +00
 0.57400    1.5    +01 5.     +00
 0.42300    7.5    +00 3.3    +00
 0.34200    8.1    +00 2.6    +00
 0.17400    7.3    +00 5.0    +00
ENDDATA             11
ENDSUBENT           21
";
"SUBENT        11084005     830909              20050926       0000
BIB                  1          1
REACTION   (1-H-2(N,EL)1-H-2,,DA)
ENDBIB               1
COMMON               3          3
EN         EN-RSL     ANG-RSL
MEV        MEV        ADEG
 1.410  +01 5.     -02 3.5
ENDCOMMON            3
DATA                 3          8
COS-CM     DATA-CM    DATA-ERR
NO-DIM     MB/SR      MB/SR
 0.34200    5.27   +01 4.     +00
 0.00000    2.65   +01 1.8    +00
-0.5000     8.8    +00 9.     -01
-0.8387     4.3    +01 3.     +00
-0.8910     5.64   +01 2.6
-0.9397     8.6    +01 2.3
-0.9816     1.015  +02 1.5
-0.9945     1.175  +02 3.5
ENDDATA             10
ENDSUBENT           20
"].

Definition e11090 : list string := ["SUBENT        11090001   20110914   20120207   20111126       1377
BIB                  9         19
INSTITUTE  (1USAORL)
REFERENCE  (J,PR,100,121,1955)
AUTHOR     (A.Galonsky,J.P.Judish)
TITLE      Angular distributions of n-p scattering at 17.9 MeV.
FACILITY   (VDG,1USAORL) 2.5-MV electrostatic generator
INC-SOURCE (D-T) Deuterons accelerated to 1.96 MeV by the 2.5-MV
           electrostatic generator entered a 1.5-in. long
           tritium gas target through a 0.05-mil nickel foil.
DETECTOR   (TELES,PROPC,NAICR) The polyethylene radiator, two
           proportional counters, and the NaI spectrometer.
           (LONGC) A long propane recoil counter biased above
           D-D neutrons was the neutron flux monitor.
STATUS     (SCSRS)
HISTORY    (19760628T) Translated from SCISRS
           (19820106A) converted to REACTION formalism
           (20110914A) SD:Updated to new date formats,lower case.
                corrected according to last EXFOR rules and Dict.
                BIB updated; SF1, SF4 in REACTION and MONITOR
                          codes changed (H-0 => H-1) in Subent.2
ENDBIB              19
NOCOMMON             0          0
ENDSUBENT           22
";
"SUBENT        11090002   20110914   20120207   20111126       1377
BIB                  3          6
REACTION   (1-H-1(N,EL)1-H-1,,DA)
MONITOR    (1-H-1(N,EL)1-H-1,,SIG)
HISTORY    (19860326A) REACTION product added, COMMON,
                                           DATA heading updated.
           (20110914A) SD: SF1, SF4 in REACTION and MONITOR
                                       codes changed (H-0 => H-1)
ENDBIB               6
COMMON               4          3
EN         EN-RSL     ANG-RSL    MONIT
MEV        MEV        ADEG       MB
 17.9        0.1         3.         535.
ENDCOMMON            3
DATA                 3         11
COS-CM     DATA-CM    DATA-ERR
NO-DIM     MB/SR      MB/SR
 0.15600    38.4
 0.00000    42.3
-0.1730     40.6
-0.3420     43.3
-0.5000     39.4
-0.6420     43.2
-0.7660     43.3
-0.8660     44.0
-0.9390     45.0
-0.9840     44.0
-0.9970     45.0        1.0
ENDDATA             13
ENDSUBENT           28
"].

Definition e11096 : list string := ["SUBENT        11096001     830909   20050616   20050926       0000
BIB                  7          9
INSTITUTE  (1USABRK)
REFERENCE  (J,PR,106,539,57)
AUTHOR     (C.Y.CHIH,W.M.POWELL)
TITLE      NEUTRON-PROTON SCATTERING AT 90 MEV.
DETECTOR   (TRD) CLOUD CHAMBER
STATUS     (SCSRS)
HISTORY    (760628T) TRANSLATED FROM SCISRS
           (820106A) CONVERTED TO REACTION FORMALISM
           (830817A) BIB, DATA HEADING CORRECTIONS.
ENDBIB               9
NOCOMMON             0          0
ENDSUBENT           12
";
"SUBENT        11096002     830909   20050616   20050926       0000
BIB                  3          4
REACTION   (1-H-1(N,EL)1-H-1,,DA)
MONITOR    (1-H-0(N,TOT),,SIG) RENORMALIZED BY
            HESS,REV.MOD.PHYS.30,368(1958).
ERR-ANALYS  DATA-ERR GIVEN IS STATISTICAL ERROR ONLY
ENDBIB               4
COMMON               3          3
EN         EN-RSL     MONIT
MEV        MEV        MB
 9.0    +01 1.5    +01 78.3
ENDCOMMON            3
DATA                 4         18
COS-CM     ANG-RSL    DATA-CM    DATA-ERR
NO-DIM     ADEG       MB/SR      MB/SR
 0.98800       2.      1.29   +01 2.7    +00
 0.96600       5.      9.9    +00 7.     -01
 0.90600       5.      1.00   +01 6.     -01
 0.81900       5.      7.92   +00 4.     -01
 0.70700       5.      6.8    +00 5.     -01
 0.57400       5.      6.5    +00 5.     -01
 0.42300       5.      5.05   +00 4.     -01
 0.25900       5.      4.52   +00 3.     -01
 0.08700       5.      4.73   +00 3.     -01
-0.0870        5.      4.52   +00 3.     -01
-0.2590        5.      4.52   +00 3.     -01
-0.4230        5.      5.35   +00 3.     -01
-0.5740        5.      5.55   +00 3.     -01
-0.7070        5.      6.7    +00 4.     -01
-0.8190        5.      7.3    +00 3.     -01
-0.9060        5.      9.77   +00 4.     -01
-0.9660        5.      1.225  +01 5.     -01
-0.9960        5.      1.330  +01 1.0    +00
ENDDATA             20
ENDSUBENT           33
";
"SUBENT        11096003     830909   20050616   20050926       0000
BIB                  4          4
REACTION   (1-H-1(N,EL)1-H-1,,DA)
STATUS     (OUTDT,11096002)
MONITOR    (1-H-0(N,TOT),,SIG)
ERR-ANALYS  DATA-ERR GIVEN IS STATISTICAL ERROR ONLY
ENDBIB               4
COMMON               3          3
EN         EN-RSL     MONIT
MEV        MEV        MB
 9.0    +01 1.5    +01 76.
ENDCOMMON            3
DATA                 4         18
COS-CM     ANG-RSL    DATA       DATA-ERR
NO-DIM     ADEG       MB/SR      MB/SR
 0.98800       2.      1.25   +01 2.6    -01
 0.96600       5.      9.6    +00    7.  -01
 0.90600       5.      9.7    +00    6.  -01
 0.81900       5.      7.7    +00    4.  -01
 0.70700       5.      6.6    +00    5.  -01
 0.57400       5.      6.3    +00    5.  -01
 0.42300       5.      4.9    +00    4.  -01
 0.25900       5.      4.4    +00    3.  -01
 0.08700       5.      4.6    +00    3.  -01
-0.0870        5.      4.4    +00    3.  -01
-0.2590        5.      4.4    +00    3.  -01
-0.4230        5.      5.2    +00    3.  -01
-0.5740        5.      5.4    +00    3.  -01
-0.7070        5.      6.5    +00    4.  -01
-0.8190        5.      7.1    +00    3.  -01
-0.9060        5.      9.5    +00    4.  -01
-0.9660        5.      1.19   +01    5.  -01
-0.9960        5.      1.29   +01   10.  -01
ENDDATA             20
ENDSUBENT           33
"].

Definition e11109 : list string := ["SUBENT        11109001   20040122              20050926       0000
BIB                 12         17
INSTITUTE  (1USAHRV)
REFERENCE  (J,PR,120,2201,1960)
AUTHOR     (R.K.Hobbie,D.Miller)
TITLE      Neutron-Proton Polarization and Differential Cross
            Section at 128 MeV.
INC-SOURCE (POLNS)
SAMPLE     Liquid hydrogen target in Mylar cylinder..
DETECTOR   (TELES) Counter telescope
MONITOR    Beam monitored using recoil proton telescope.
METHOD     Measured left-right asymmetries.
ERR-ANALYS (DATA-ERR1) Relative error
           (DATA-ERR2) Normalization error
STATUS     Data taken from table in reference.
HISTORY    (19760924T) Translated from SCISRS
           (19800814A) Converted to REACTION formalism
           (20040122A) Converted to new date formats, lower case.
              Updated as per reference from SCISRS translation.
ENDBIB              17
COMMON               3          3
EN         EN-RSL     EN-ERR
MEV        MEV        MEV
128.        13.         1.
ENDCOMMON            3
ENDSUBENT           24
";
"SUBENT        11109002   20040122              20050926       0000
BIB                  4         11
REACTION   (1-H-1(N,EL)1-H-1,,DA)
MONITOR    (1-H-1(N,TOT),,SIG)
MONIT-REF  (,J.J.Thresher+,J,PRS/A,229,492,1955)
CORRECTION Asymmetries corrected for:
           . counter height,
           . angular and beam energy resolution,
           . background energy loss,
           . target volume correction,
           . double scattering in target,
           . absorber losses,
           . uncertainty in energy cutoff.
ENDBIB              11
COMMON               3          3
MONIT      MONIT-ERR  DATA-ERR2
MB         MB         PER-CENT
 56.         2.         7.
ENDCOMMON            3
DATA                 3         10
ANG-CM     DATA-CM    DATA-ERR1
ADEG       MB/SR      MB/SR
 78.1       2.74       0.11
 88.1       2.61       0.09
 98.1       2.83       0.11
108.2       3.45       0.12
118.4       4.29       0.15
128.5       5.20       0.19
138.8       6.28       0.23
149.0       7.30       0.26
159.3       9.08       0.33
169.7      11.37       0.41
ENDDATA             12
ENDSUBENT           32
";
"SUBENT        11109003   20040122              20050926       0000
BIB                  2          7
REACTION   (1-H-1(N,EL)1-H-1,,POL/DA)
CORRECTION Asymmetries corrected for:
           . alignment of defining counter,
           . counter and target height,
           . energy spread of beam,
           . magnetic field in region transversed by recoil
             proton.
ENDBIB               7
COMMON               3          3
DATA-ERR2  POL-BM     POL-BM-ERR
PER-CENT   NO-DIM     NO-DIM
  8.        0.425      0.034
ENDCOMMON            3
DATA                 3         10
ANG-CM     DATA       DATA-ERR1
ADEG       NO-DIM     NO-DIM
 78.1       0.384      0.028
 88.1       0.275      0.028
 98.1       0.186      0.028
108.2       0.052      0.025
118.4       0.054      0.021
128.5      -0.016      0.021
138.8      -0.072      0.017
149.0      -0.061      0.021
159.3      -0.045      0.021
169.7       0.002      0.021
ENDDATA             12
ENDSUBENT           28
"].

Definition e11117 : list string := ["SUBENT        11117001     800814              20050926       0000
BIB                  6          7
INSTITUTE  (1USALAS)
REFERENCE  (J,PR,128,1268,62)
AUTHOR     (E.R.FLYNN,P.J.BENDT)
TITLE      N-P DIFFERENTIAL SCATTERING CROSS SECTION AT 22.5 MEV.
STATUS     (SCSRS)
HISTORY    (760628T) TRANSLATED FROM SCISRS
           (800814A) CONVERTED TO REACTION FORMALISM
ENDBIB               7
NOCOMMON             0          0
ENDSUBENT           10
";
"SUBENT        11117002     800814              20050926       0000
BIB                  4          4
REACTION   (1-H-1(N,EL)1-H-1,,DA)
DETECTOR   (TRD)      BUBBLE CHAMBER
MONITOR    (1-H-0(N,TOT),,SIG)
ERR-ANALYS  DATA-ERR GIVEN IS STATISTICAL ERROR ONLY
ENDBIB               4
COMMON               3          3
EN         EN-RSL     ANG-RSL
MEV        MEV        ADEG
 2.250  +01 6.5    -01 5.
ENDCOMMON            3
DATA                 3         12
COS-CM     DATA       DATA-ERR
NO-DIM     MB/SR      MB/SR
 0.42300    3.33   +01   19.
 0.25900    3.28   +01   15.
 0.08700    3.27   +01   12.
-0.0870     3.32   +01   12.
-0.2590     3.22   +01   12.
-0.4230     3.24   +01   13.
-0.5740     3.47   +01   14.
-0.7070     3.56   +01   15.
-0.8190     3.70   +01   17.
-0.9060     3.40   +01   19.
-0.9660     3.43   +01   26.
-0.9960     3.59   +01   43.
ENDDATA             14
ENDSUBENT           27
"].

Definition e11123 : list string := ["SUBENT        11123001     800814              20050926       0000
BIB                  6          8
INSTITUTE  (1USAHRV)
REFERENCE  (J,PR,142,584,66)
AUTHOR     (D.F.MEASDAY)
TITLE      NEUTRON-PROTON DIFFERENTIAL CROSS SECTION AT 129 AND
           150 MEV.
STATUS     (SCSRS)
HISTORY    (760628T) TRANSLATED FROM SCISRS
           (800814A) CONVERTED TO REACTION FORMALISM
ENDBIB               8
NOCOMMON             0          0
ENDSUBENT           11
";
"SUBENT        11123002     800814              20050926       0000
BIB                  4          5
REACTION   (1-H-1(N,EL)1-H-1,,DA)
MONITOR    (1-H-1(N,TOT),,SIG)      PHASE SHIFT ANALYSIS IN BULL.
            AM.PHYS.SOC.9,378(1964) WITH TOTAL=56.6MB.
INC-SPECT  ENERGY SPREAD 6.0MEV. PEAK ENERGY 131.6+-1.0MEV.
DETECTOR   (SCIN)  PLASTIC SCINTILLATOR COUNTING PROTON RECOILS.
ENDBIB               5
COMMON               3          3
EN         EN-ERR     ANG-RSL
MEV        MEV        ADEG
 1.290  +02 1.0    +00 8.0
ENDCOMMON            3
DATA                 3         15
COS-CM     DATA       DATA-ERR
NO-DIM     MB/SR      MB/SR
 0.28900    2.79   +00 1.6    -01
 0.20620    2.54   +00 1.4    -01
 0.03320    2.73   +00 1.4    -01
-0.1409     3.00   +00 1.4    -01
-0.3123     3.36   +00 9.     -02
-0.4741     4.22   +00 1.2    -01
-0.6225     5.07   +00 1.4    -01
-0.7513     5.85   +00 1.5    -01
-0.8572     7.17   +00 2.2    -01
-0.8996     7.76   +00 3.6    -01
-0.9348     8.66   +00 2.6    -01
-0.9622     9.89   +00 4.9    -01
-0.9826     1.034  +01 5.5    -01
-0.9947     1.115  +01 8.0    -01
-0.9984     1.155  +01 1.12   +00
ENDDATA             17
ENDSUBENT           31
";
"SUBENT        11123003     800814              20050926       0000
BIB                  4          5
REACTION   (1-H-1(N,EL)1-H-1,,DA)
MONITOR    (1-H-1(N,TOT),,SIG)      PHASE SHIFT ANALYSIS IN BULL.
            AM.PHYS.SOC.9,378(1964) WITH TOTAL=50.3MB.
INC-SPECT  ENERGY SPREAD 6.0MEV. PEAK ENERGY 150.8+-1.0 MEV.
DETECTOR   (SCIN)  PLASTIC SCINTILLATOR COUNTING PROTON RECOILS.
ENDBIB               5
COMMON               3          3
EN         EN-ERR     ANG-RSL
MEV        MEV        ADEG
 1.500  +02 1.0    +00 8.0
ENDCOMMON            3
DATA                 3         16
COS-CM     DATA       DATA-ERR
NO-DIM     MB/SR      MB/SR
 0.45090    2.56   +00 1.2    -01
 0.37620    2.39   +00 1.0    -01
 0.21130    2.11   +00 8.     -02
 0.03840    2.16   +00 7.     -02
-0.1357     2.49   +00 6.     -02
-0.3074     2.96   +00 7.     -02
-0.4695     3.70   +00 1.2    -01
-0.6184     4.78   +00 1.5    -01
-0.7490     5.82   +00 1.8    -01
-0.8563     6.62   +00 2.2    -01
-0.8988     7.20   +00 1.7    -01
-0.9342     8.08   +00 1.3    -01
-0.9613     9.27   +00 1.9    -01
-0.9823     1.046  +01 4.7    -01
-0.9945     1.159  +01 7.5    -01
-0.9984     1.116  +01 7.3    -01
ENDDATA             18
ENDSUBENT           32
"].

Definition e11124 : list string := ["SUBENT        11124001     820107              20050926       0000
BIB                  7         10
INSTITUTE  (1USAROC)
REFERENCE  (J,PR,167,1240,6803)
AUTHOR     (A.R.THOMAS,D.SPALDING,E.H.THORNDIKE)
TITLE      N-P DIFFERENTIAL CROSS SECTION AND POLARIZATION AT
           199MEV.
DETECTOR   (TELES)
STATUS     (SCSRS)
HISTORY    (760924T) TRANSLATED FROM SCISRS
           (800814A) CONVERTED TO REACTION FORMALISM
           820107U) BIB UPDATE
ENDBIB              10
COMMON               3          3
EN         EN-RSL     EN-ERR
MEV        MEV        MEV
 199.       12.        1.5
ENDCOMMON            3
ENDSUBENT           17
";
"SUBENT        11124002     820107              20050926       0000
BIB                  1          1
REACTION   (1-H-1(N,EL)1-H-1,,DA,,REL)
ENDBIB               1
NOCOMMON             0          0
DATA                 3          8
COS-CM     DATA       DATA-ERR
NO-DIM     ARB-UNITS  ARB-UNITS
 0.22670    2.73   -01 8.     -03
 0.05930    2.92   -01 7.     -03
-0.1097     3.20   -01 8.     -03
-0.4555     4.61   -01 1.0    -02
-0.6074     5.78   -01 1.3    -02
-0.7408     7.01   -01 1.5    -02
-0.8490     8.36   -01 1.7    -02
-0.9278     1.000  +00 2.1    -02
ENDDATA             10
ENDSUBENT           16
";
"SUBENT        11124003     800814              20050926       0000
BIB                  1          1
REACTION   (1-H-1(N,EL)1-H-1,,POL/DA)
ENDBIB               1
NOCOMMON             0          0
DATA                 3          8
ANG-CM     DATA       DATA-ERR
ADEG       NO-DIM     NO-DIM
 76.9       0.132      0.028
 86.6       0.029      0.017
 96.3      -0.075      0.014
117.1      -0.111      0.011
127.4      -0.125      0.010
137.8      -0.125      0.009
148.1      -0.117      0.011
158.1      -0.071      0.012
ENDDATA             10
ENDSUBENT           16
"].

Definition e11128 : list string := ["SUBENT        11128001     800814              20050926       0000
BIB                  6          7
INSTITUTE  (1USABRK)
REFERENCE  (R,UCRL-867,50)
AUTHOR     (R.H.FOX)
TITLE      NEUTRON-PROTON SCATTERING AT 90 MEV.
STATUS     (SCSRS)
HISTORY    (760628T) TRANSLATED FROM SCISRS
           (800814A) CONVERTED TO REACTION FORMALISM
ENDBIB               7
NOCOMMON             0          0
ENDSUBENT           10
";
"SUBENT        11128002     840207              20050926       0000
BIB                  5          5
REACTION   (1-H-1(N,EL)1-H-1,,DA)
STATUS     (OUTDT,11128003)
DETECTOR   (TELES)    COUNTER TELESCOPE
ERR-ANALYS  DATA-ERR GIVEN IS STATISTICAL ERROR ONLY
HISTORY    (840207A) BIB UPDATE.
ENDBIB               5
COMMON               2          3
EN         EN-RSL
MEV        MEV
 9.0    +01 1.5    +01
ENDCOMMON            3
NODATA               0          0
ENDSUBENT           13
";
"SUBENT        11128003     800814              20050926       0000
BIB                  3          4
REACTION   (1-H-1(N,EL)1-H-1,,DA)
DETECTOR   (TELES) COUNTER TELESCOPE.
COMMENT    RENORMALIZED BY HESS, REV.MOD.PHYS.30,368(1958) TO H
            TOTAL=78.3 MB.
ENDBIB               4
COMMON               2          3
EN         EN-RSL
MEV        MEV
 9.0    +01 1.5    +01
ENDCOMMON            3
DATA                 3          8
COS-CM     DATA       DATA-ERR
NO-DIM     MB/SR      MB/SR
-0.629      8.3    +00 7.5    -01
-0.937      1.00   +01 8.6    -01
-0.969      1.17   +01 9.5    -01
-0.985      1.22   +01 5.2    -01
-0.990      1.21   +01 6.0    -01
-0.994      1.39   +01 5.2    -01
-0.997      1.24   +01 6.3    -01
-0.999      1.20   +01 6.6    -01
ENDDATA             10
ENDSUBENT           23
"].

Definition e11129 : list string := ["SUBENT        11129001     800814              20050926       0000
BIB                  6          8
INSTITUTE  (1USABRK)
REFERENCE  (R,UCRL-2693,54)
AUTHOR     (J.W.EASLEY)
TITLE      SMALL-ANGLE NEUTRON-PROTON SCATTERING AT 90 AND 290
           MEV.
STATUS     (SCSRS)
HISTORY    (760628T) TRANSLATED FROM SCISRS
           (800814A) CONVERTED TO REACTION FORMALISM
ENDBIB               8
NOCOMMON             0          0
ENDSUBENT           11
";
"SUBENT        11129002     800814              20050926       0000
BIB                  4          5
REACTION   (1-H-1(N,EL)1-H-1,,DA)
DETECTOR   (TELES)    COUNTER TELESCOPE
MONITOR    (1-H-1(N,EL)1-H-1,,DA)              DATA OF
            KELLY,PHYS.REV.101,1079(1956).
ERR-ANALYS  DATA-ERR GIVEN IS STATISTICAL ERROR ONLY
ENDBIB               5
COMMON               3          3
EN         EN-RSL     ANG-NRM
MEV        MEV        ADEG
 2.90   +02 6.0    +01 37.8
ENDCOMMON            3
DATA                 3          3
COS-CM     DATA       DATA-ERR
NO-DIM     MB/SR      MB/SR
 0.98300    5.6    +00   11.
 0.92900    4.3    +00    9.
 0.79000    3.6    +00    7.
ENDDATA              5
ENDSUBENT           19
"].

Definition e11131 : list string := ["SUBENT        11131001     800814              20050926       0000
BIB                  6          7
INSTITUTE  (1USACAL)
REFERENCE  (J,PR,55,131,39)
AUTHOR     (H.STAUB,W.E.STEPHENS)
TITLE      ANOMALOUS SCATTERING OF NEUTRONS BY HELIUM.
STATUS     (SCSRS)
HISTORY    (760628T) TRANSLATED FROM SCISRS
           (800814A) CONVERTED TO REACTION FORMALISM
ENDBIB               7
NOCOMMON             0          0
ENDSUBENT           10
";
"SUBENT        11131002     860121              20050926       0000
BIB                  3          3
REACTION   ((2-HE-0(N,EL)2-HE-0,,DA)/(1-H-1(N,EL)1-H-1,,DA))
DETECTOR   (FISCH)    IONIZATION CHAMBER
HISTORY    (860121A) REACTION, DATA HEADING UPDATED.
ENDBIB               3
COMMON               1          3
COS
NO-DIM
-1.
ENDCOMMON            3
DATA                 3         10
EN         DATA       DATA-ERR
MEV        NO-DIM     NO-DIM
 5.     -01 4.     -01 2.     -01
 1.0    +00 9.5    +00 1.4    +00
 1.2    +00 6.5    +00 8.     -01
 2.2    +00 1.4    +00 3.     -01
 2.4    +00 1.8    +00 4.     -01
 2.5    +00 1.41   +00 1.8    -01
 3.6    +00 1.4    +00 3.     -01
 3.8    +00 8.     -01 2.     -01
 4.1    +00 1.2    +00 5.     -01
 4.3    +00 1.3    +00 5.     -01
ENDDATA             12
ENDSUBENT           24
"].

Definition e11167 : list string := ["SUBENT        11167001   20071108   20080131   20080131       Y001
BIB                  7         10
INSTITUTE  (1USABRK)
REFERENCE  (J,PR,75,351,194902)
AUTHOR     (J.HADLEY,E.KELLY,C.LEITH,E.SEGRE,C.WIEGAND,H.YORK)
TITLE      Experiments on n-p scattering with 90- and 40-MeV
            neutrons.
FACILITY   (CYCLO,1USABRK)
STATUS     (SCSRS)
HISTORY    (19760628T) Translated from SCISRS
           (19800814A) Converted to REACTION formalism
           (20071108A) BIB Update
ENDBIB              10
NOCOMMON             0          0
ENDSUBENT           13
";
"SUBENT        11167002   20071108   20080131   20080131       Y001
BIB                  6          7
REACTION   (1-H-1(N,EL)1-H-1,,DA)
STATUS     (OUTDT,11167003)
           (OUTDT,11167004)
DETECTOR   (TELES)    Counter telescope
MONITOR    (1-H-1(N,TOT),,SIG) Normalized to hydrogen total=170mb.
ERR-ANALYS (ERR-S) Statistical error.
HISTORY    (19840207A) BIB update.
ENDBIB               7
COMMON               1          3
ANG-RSL
ADEG
 6.
ENDCOMMON            3
DATA                 4         32
EN         COS-CM     DATA       ERR-S
MEV        NO-DIM     MB/SR      MB/SR
 42.        0.47000    1.165  +01   38.
 42.        0.34200    1.140  +01   43.
 42.        0.17400    1.137  +01   55.
 42.        0.00000    1.158  +01   20.
 42.       -0.1740     1.240  +01   31.
 42.       -0.3420     1.202  +01   23.
 42.       -0.5000     1.271  +01   22.
 42.       -0.6430     1.450  +01   35.
 42.       -0.7660     1.455  +01   23.
 42.       -0.8660     1.560  +01   33.
 42.       -0.9400     1.702  +01   23.
 42.       -0.9850     1.710  +01   50.
 42.       -1.         1.902  +01   70.
 90.        0.80900    7.66   +00   37.
 90.        0.65600    5.91   +00   34.
 90.        0.51600    5.19   +00   28.
 90.        0.48800    3.13   +00   55.
 90.        0.36200    3.86   +00   16.
 90.        0.19600    3.87   +00   29.
 90.        0.02300    4.21   +00    9.
 90.       -0.1510     4.51   +00   17.
 90.       -0.3220     5.34   +00   17.
 90.       -0.4820     6.09   +00   17.
 90.       -0.6290     6.53   +00   19.
 90.       -0.7560     7.88   +00   19.
 90.       -0.8560     8.92   +00   23.
 90.       -0.9370     1.090  +01   14.
 90.       -0.9690     1.117  +01   43.
 90.       -0.9840     1.235  +01   32.
 90.       -0.9943     1.285  +01   28.
 90.       -0.9974     1.348  +01  134.
 90.       -1.         1.550  +01   70.
ENDDATA             34
ENDSUBENT           50
";
"SUBENT        11167003   20071108   20080131   20080131       Y001
BIB                  5          6
REACTION   (1-H-1(N,EL)1-H-1,,DA)
DETECTOR   (TELES)    Statistical error
MONITOR    (1-H-1(N,TOT),,SIG) Renormalized to  total=78.3mb by
            HESS,REV.MOD.PHYS.30,368(1958).
ERR-ANALYS (ERR-S) DATA-ERR given is Statistical error only
HISTORY    (19840207A) COMMON, DATA update.
ENDBIB               6
COMMON               4          3
EN         EN-RSL     ANG-RSL    MONIT
MEV        MEV        ADEG       MB
 9.0    +01 2.0    +01 6.         78.3
ENDCOMMON            3
DATA                 3         19
COS-CM     DATA       ERR-S
NO-DIM     MB/SR      MB/SR
 0.80900    7.89   +00   38.
 0.65600    6.09   +00   35.
 0.51600    5.35   +00   29.
 0.48800    3.22   +00   57.
 0.36200    3.98   +00   16.
 0.19600    3.99   +00   30.
 0.02300    4.34   +00    9.
-0.1510     4.65   +00   18.
-0.3220     5.50   +00   18.
-0.4820     6.27   +00   18.
-0.6290     6.72   +00   20.
-0.7560     8.11   +00   20.
-0.8560     9.20   +00   24.
-0.9370     1.122  +01   14.
-0.9690     1.150  +01   44.
-0.9840     1.271  +01   33.
-0.9943     1.322  +01   29.
-0.9974     1.388  +01  138.
-1.         1.597  +01   72.
ENDDATA             21
ENDSUBENT           36
";
"SUBENT        11167004   20071108   20080131   20080131       Y001
BIB                  4          5
REACTION   (1-H-1(N,EL)1-H-1,,DA)
DETECTOR   (TELES)    Counter telescope
MONITOR    (1-H-1(N,TOT),,SIG) Renormalized to  total=203mb by
            HESS,REV.MOD.PHYS.30,368(1958).
ERR-ANALYS (ERR-S) DATA-ERR given is Statistical error only
ENDBIB               5
COMMON               2          3
EN         ANG-RSL
MEV        ADEG
 4.2    +01 6.
ENDCOMMON            3
DATA                 3         13
COS-CM     DATA       ERR-S
NO-DIM     MB/SR      MB/SR
 0.47000    1.391  +01   45.
 0.34200    1.361  +01   51.
 0.17400    1.358  +01   66.
 0.00000    1.381  +01   24.
-0.1740     1.480  +01   37.
-0.3420     1.436  +01   28.
-0.5000     1.519  +01   26.
-0.6430     1.731  +01   42.
-0.7660     1.738  +01   27.
-0.8660     1.862  +01   39.
-0.9400     2.035  +01   27.
-0.9850     2.041  +01   66.
-1.         2.271  +01   84.
ENDDATA             15
ENDSUBENT           29
"].

Definition e11321 : list string := ["SUBENT        11321001   20110727   20111215   20111113       1374
BIB                 13         39
INSTITUTE  (1USAWES)
REFERENCE  (J,PR,109,2105,1958)
AUTHOR     (R.W.Hill)
TITLE      Angular distributions of elastic scattering of 5-MeV
           neutrons.
FACILITY   (NGEN,1USAWES) electrostatic generator
INC-SOURCE (D-D) The gas target chamber was 3.2 centimeters in
           length and was separated from the vacuum system by
           an aperture 3/16-in. in diameter covered with a
           0.0001-in. thick nickel foil. A pump circulated the
           deuterium through a cooling system and returned the
           cold gas to the chamber through a jet aimed at the foil
SAMPLE     Scatterers were cylinders two inches long with
           diameters equal to approximately one-half of a mean
           free path for 5-MeV neutrons, except oxygen and barium.
DETECTOR   (SCIN) Biased scintillator. The neutron detector
           consisted of twenty layers of plastic scintillator
           0.001 inch thick separated by glass disks 0.050 inch
           thick and 2 inches in diam., all mounted on an
           RCA 6342 photomultiplier.
CORRECTION The cross sections were corrected for the difference
           in counter efficiency for the detection of the primary
           and scattered neutrons, since momentum transfer to the
           target nucleus reduces the energy of the scattered
           neutrons.Also corrections were made for the attenuation
           of the incident flux in the scatterers and for
           multiple scattering.
REL-REF    (M,,J.Blok+,J,PHY,18,809,1952) -method of the
           multiple-scattering corrections calculation
ERR-ANALYS (DATA-ERR) Statistical errors plus an estimation of
                      the errors in the multiple scattering
STATUS     (SCSRS)
           (TABLE) data received in private comm., Hill, 1961/8.
HISTORY    (19761014T) Translated from SCISRS
           (19820324A) converted to reaction formalism
           (20110727A) SD:Updated to new date formats,lower case.
                corrected according to last EXFOR rules and Dict.
                BIB updated. In Subent 010 SF4 in REACTION code
                            changed according to the ref.
ENDBIB              39
COMMON               3          3
EN         EN-RSL     ANG-RSL
MEV        MEV        ADEG
 5.         0.1        10.
ENDCOMMON            3
ENDSUBENT           46
";
"SUBENT        11321002   20110727   20111215   20111113       1374
BIB                  1          1
REACTION   (6-C-12(N,EL)6-C-12,,DA)
ENDBIB               1
NOCOMMON             0          0
DATA                 3         13
ANG-CM     DATA-CM    DATA-ERR
ADEG       B/SR       B/SR
 30.        0.14
 40.        0.13       0.010
 50.        0.10       0.005
 60.        0.065      0.005
 70.        0.046      0.004
 80.        0.057      0.004
 90.        0.057      0.008
100.        0.085      0.010
110.        0.074      0.010
120.        0.035      0.008
130.        0.022      0.009
140.        0.026      0.007
150.        0.026      0.002
ENDDATA             15
ENDSUBENT           21
";
"SUBENT        11321003   20110727   20111215   20111113       1374
BIB                  3         17
REACTION   (8-O-16(N,EL)8-O-16,,DA)
SAMPLE     High purity sample of sintered Al2O3
METHOD     Two methods were used to obtain the oxygen cross
           section. This cross section was measured with a high
           purity sample of sintered Al2O3, and then the
           appropriate subtraction of the Al cross section was
           made. Since the subtraction of two not too dissimilar
           numbers may be subject to considerable error, a more
           direct approach was tried. A thin-walled brass can was
           constructed in order to measure the scattering from
           water. Of all the compounds of oxygen, water has a
           decided advantage for elastic-scattering measurement in
           that the contribution from the scattering from hydrogen
           is almost negligible for angles larger than about
           40. degr. because of the large energy loss of the
           scattered neutrons. Background runs were made with the
           empty can in place.
ENDBIB              17
NOCOMMON             0          0
DATA                 3         10
COS        DATA       DATA-ERR
NO-DIM     MB/SR      MB/SR
  0.85      128.       10.
  0.74      120.        5.
  0.605      70.        5.
  0.452      50.        5.
  0.286      43.        7.
 -0.063      36.        8.
 -0.397      94.       13.
 -0.542      80.       10.
 -0.791      13.5       4.
 -.8810      15.       15.
ENDDATA             12
ENDSUBENT           34
";
"SUBENT        11321004   20110727   20111215   20111113       1374
BIB                  1          1
REACTION   (13-AL-27(N,EL)13-AL-27,,DA)
ENDBIB               1
NOCOMMON             0          0
DATA                 3         13
COS        DATA       DATA-ERR
NO-DIM     MB/SR      MB/SR
  0.866     290.       30.
  0.766     212.       10.
  0.643     140.       10.
  0.5        70.        9.
  0.342      43.        6.
  0.174      40.        5.
  0.         30.        3.
 -0.174      30.        5.
 -0.342      25.        4.
 -0.5        20.        5.
 -0.643      22.        5.
 -0.766      22.        4.
 -0.866      25.        4.
ENDDATA             15
ENDSUBENT           21
";
"SUBENT        11321005   20110727   20111215   20111113       1374
BIB                  2          2
REACTION   (26-FE-0(N,EL)26-FE-0,,DA)
HISTORY    (19860326A) Reaction product added.
ENDBIB               2
NOCOMMON             0          0
DATA                 3         13
COS        DATA       DATA-ERR
NO-DIM     MB/SR      MB/SR
  0.866      698.       80.
  0.766      370.       40.
  0.643      190.       40.
  0.5         94.       10.
  0.342       13.        2.
  0.174        9.        3.
  0.          25.        4.
 -0.174       28.        7.
 -0.342       36.        7.
 -0.5         21.        4.
 -0.643       15.8       5.
 -0.766        8.9       4.
 -0.866       14.        3.
ENDDATA             15
ENDSUBENT           22
";
"SUBENT        11321006   20110727   20111215   20111113       1374
BIB                  2          2
REACTION   (28-NI-0(N,EL)28-NI-0,,DA)
HISTORY    (19860326A) Reaction product added.
ENDBIB               2
NOCOMMON             0          0
DATA                 3         13
COS        DATA       DATA-ERR
NO-DIM     MB/SR      MB/SR
  0.866     610.       80.
  0.766     320.       20.
  0.643     157.       30.
  0.5        66.       10.
  0.342      10.        4.
  0.174      10.        4.
  0.         24.8       5.
 -0.174      31.        5.
 -0.342      35.        5.
 -0.5        13.        5.
 -0.643      13.        5.
 -0.766      12.        5.
 -0.866      13.        5.
ENDDATA             15
ENDSUBENT           22
";
"SUBENT        11321007   20110727   20111215   20111113       1374
BIB                  2          2
REACTION   (29-CU-0(N,EL)29-CU-0,,DA)
HISTORY    (19860326A) Reaction product added.
ENDBIB               2
NOCOMMON             0          0
DATA                 3         13
COS        DATA       DATA-ERR
NO-DIM     MB/SR      MB/SR
 0.866      600.
 0.766      340.
 0.643      123.
 0.500       36.        5.
 0.342        9.8       3.
 0.174       23.        5.
 0.          40.        5.
-0.174       41.        5.
-0.342       32.        5.
-0.5         16.        3.
-0.643        8.9       3.
-0.766        7.9       3.
-0.866       10.        3.
ENDDATA             15
ENDSUBENT           22
";
"SUBENT        11321008   20110727   20111215   20111113       1374
BIB                  2          2
REACTION   (42-MO-0(N,EL)42-MO-0,,DA)
HISTORY    (19860326A) Reaction product added.
ENDBIB               2
NOCOMMON             0          0
DATA                 3         13
COS        DATA       DATA-ERR
NO-DIM     MB/SR      MB/SR
 0.866      497.       50.
 0.766      200.       50.
 0.643       44.        8.
 0.500       31.        8.
 0.342       74.        6.
 0.174      115.       15.
 0.000       83.       10.
-0.174       18.7       7.
-0.342        4.7       2.5
-0.5         17.        6.
-0.643       30.        5.
-0.766       29.        5.
-0.866       16.6       5.
ENDDATA             15
ENDSUBENT           22
";
"SUBENT        11321009   20110727   20111215   20111113       1374
BIB                  3          4
REACTION   (56-BA-0(N,EL)56-BA-0,,DA)
SAMPLE     The barium scatterer was rectangular in cross section
           and two niches long
HISTORY    (19860326A) Reaction product added.
ENDBIB               4
NOCOMMON             0          0
DATA                 3         10
COS        DATA       DATA-ERR
NO-DIM     MB/SR      MB/SR
 0.866      820.       100.
 0.766      330.        80.
 0.643      158.        40.
 0.500      110.        20.
 0.342      100.        15.
 0.000       27.         6.
-0.342       51.        10.
-0.643       52.        10.
-0.766       44.        15.
-0.866       71.        13.
ENDDATA             12
ENDSUBENT           21
";
"SUBENT        11321010   20110727   20111215   20111113       1374
BIB                  2          4
REACTION   (74-W-0(N,EL)74-W-0,,DA)
HISTORY    (19860326A) Reaction product added.
           (20110727A) SD: SF4 in REACTION code changed:
             56-BA-0 -> 74-W-0  according to the PR,109,2105,1958.
ENDBIB               4
NOCOMMON             0          0
DATA                 3         13
COS        DATA       DATA-ERR
NO-DIM     MB/SR      MB/SR
 0.866      780.       100.
 0.766      480.        50.
 0.643      110.        10.
 0.500       60.4       18.
 0.342       32.        10.
 0.174       41.5        9.
 0.000       54.         6.
-0.174       53.         7.
-0.342       58.        14.
-0.5         27.5       15.
-0.643       21.4        9.
-0.766       21.4        9.
-0.866       17.8       12.
ENDDATA             15
ENDSUBENT           24
";
"SUBENT        11321011   20110727   20111215   20111113       1374
BIB                  2          2
REACTION   (82-PB-0(N,EL)82-PB-0,,DA)
HISTORY    (19860326A) Reaction product added.
ENDBIB               2
NOCOMMON             0          0
DATA                 3         13
ANG-CM     DATA-CM    DATA-ERR
ADEG       B/SR       B/SR
  30.        1.52       0.1
  40.        0.5        0.03
  50.        0.12       0.005
  60.        0.056      0.005
  70.        0.037      0.004
  80.        0.068      0.005
  90.        0.087      0.005
 100.        0.063      0.006
 110.        0.036      0.004
 120.        0.02       0.005
 130.        0.051      0.005
 140.        0.069      0.007
 150.        0.05       0.005
ENDDATA             15
ENDSUBENT           22
"].

Definition e12326 : list string := ["SUBENT        12326001   20070426   20070824   20070809       1344
BIB                  8         13
INSTITUTE  (1USALAS)
REFERENCE  (J,NP,48,433,1963)
AUTHOR     (J.C.Hopkins,B.C.Diven)
TITLE      Prompt neutrons from fission.
MONITOR    (98-CF-252(0,F),,NU)
STATUS     (SCSRS)
ERR-ANALYS (ERR-SYS) Systematic uncertainty
           (ERR-T) Total uncertainty
HISTORY    (19760804T) Translated from SCISRS
           (19841005A) Converted to reaction formalism
           (20070426A) DR Format updated and ERR-SYS and ERR-T
                        added from Table 1 of reference
                        Subentry 8 added
ENDBIB              13
COMMON               1          3
MONIT
PRT/FIS
 3.771
ENDCOMMON            3
ENDSUBENT           20
";
"SUBENT        12326002   20070426   20070824   20070809       1344
BIB                  3          3
REACTION   (92-U-233(N,F),PR,NU,,MXW)
DETECTOR   (MTANK)    Moderating tank detector
INC-SPECT   Thermal spectrum
ENDBIB               3
NOCOMMON             0          0
DATA                 4          1
EN-DUMMY   DATA       ERR-SYS    ERR-T
MEV        PRT/FIS    PRT/FIS    PRT/FIS
   2.53E-08  2.473E+00  0.022     0.026
ENDDATA              3
ENDSUBENT           11
";
"SUBENT        12326003   20070426   20070824   20070809       1344
BIB                  2          2
REACTION   (92-U-233(N,F),PR,NU)
DETECTOR   (MTANK)    Moderating tank detector
ENDBIB               2
NOCOMMON             0          0
DATA                 5          5
EN         EN-RSL     DATA       ERR-SYS    ERR-T
MEV        MEV        PRT/FIS    PRT/FIS    PRT/FIS
   2.80E-01    9.0E-02  2.489     0.023      0.033
   4.40E-01    8.0E-02  2.502     0.023      0.033
   9.80E-01    5.0E-02  2.553     0.023      0.035
   1.08E+00     5.E-02  2.510     0.023      0.030
   3.93E+00    2.9E-01  2.983     0.030      0.040
ENDDATA              7
ENDSUBENT           14
";
"SUBENT        12326004   20070426   20070824   20070809       1344
BIB                  2          2
REACTION   (92-U-235(N,F),PR,NU)
DETECTOR   (MTANK) Moderating tank detector
ENDBIB               2
NOCOMMON             0          0
DATA                 5          7
EN         EN-RSL     DATA       ERR-SYS    ERR-T
MEV        MEV        PRT/FIS    PRT/FIS    PRT/FIS
   2.53E-08            2.425     0.022      0.020
   2.80E-01    9.0E-02 2.438     0.022      0.022
   4.70E-01    8.0E-02 2.456     0.022      0.022
   8.15E-01    6.0E-02 2.471     0.022      0.026
   1.08E+00     5.E-02 2.530     0.023      0.026
   3.93E+00    2.9E-01 2.937     0.029      0.030
   1.45E+01    1.0E+00 4.626     0.066      0.075
ENDDATA              9
ENDSUBENT           16
";
"SUBENT        12326005   20070426   20070824   20070809       1344
BIB                  3          3
REACTION   (94-PU-239(N,F),PR,NU,,MXW)
DETECTOR   (MTANK)    Moderating tank detector
INC-SPECT   Thermal spectrum
ENDBIB               3
NOCOMMON             0          0
DATA                 6          1
EN-DUMMY   DATA       ERR-SYS    ERR-T      MONIT      MONIT-ERR
EV         PRT/FIS    PRT/FIS    PRT/FIS    PRT/FIS    PRT/FIS
 0.0253     2.831      0.028     0.028        3.771      0.031
ENDDATA              3
ENDSUBENT           11
";
"SUBENT        12326006   20070426   20070824   20070809       1344
BIB                  2          2
REACTION   (94-PU-239(N,F),PR,NU)
DETECTOR   (MTANK)    Moderating tank detector
ENDBIB               2
NOCOMMON             0          0
DATA                 5          6
EN         EN-RSL     DATA       ERR-SYS    ERR-T
MEV        MEV        PRT/FIS    PRT/FIS    PRT/FIS
   2.50E-01    5.0E-02 2.931     0.029      0.039
   4.20E-01   1.10E-01 2.957     0.030      0.046
   6.10E-01    7.0E-02 2.904     0.029      0.041
   9.00E-01    8.0E-02 3.004     0.030      0.041
   3.90E+00    2.9E-01 3.422     0.038      0.039
   1.45E+01    1.0E+00 4.942     0.076      0.119
ENDDATA              8
ENDSUBENT           15
";
"SUBENT        12326007   20070426   20070824   20070809       1344
BIB                  2          2
REACTION   (98-CF-252(0,F),,NU)
HISTORY    (19800512A) ISO-QUANT corrected to NUC-QUANT
ENDBIB               2
NOCOMMON             0          0
DATA                 2          1
DATA       DATA-ERR
PRT/FIS    PRT/FIS
  3.771      .030
ENDDATA              3
ENDSUBENT           10
";
"SUBENT        12326008   20070426   20070824   20070809       1344
BIB                  1          1
REACTION   (94-PU-240(0,F),,NU)
ENDBIB               1
NOCOMMON             0          0
DATA                 3          1
DATA       ERR-SYS    ERR-T
PRT/FIS    PRT/FIS    PRT/FIS
  2.189    0.019      0.026
ENDDATA              3
ENDSUBENT            9
"].

Definition e12643 : list string := ["SUBENT        12643001     790313              20050926       0000
BIB                 12         23
INSTITUTE  (1USACAR)
REFERENCE  (J,PR,83,495,5108)
AUTHOR     (E.M.BALDWIN)
TITLE      NEUTRON-PROTON SCATTERING IN THE ENERGY RANGE OF 18 TO
            21 MEV
FACILITY   (CYCLO,1USAPUP)
N-SOURCE   (A-BE)
SAMPLE     POLYETHYLENE FOILS
MONITOR    (90-TH-232(N,F),,SIG)
DETECTOR   (TELES,PROPC) FOUR CYLINDRICAL PROPORTIONAL COUNTERS
            WITH LEAD SLEEVES TO REDUCE PROTONS FROM BRASS WALLS.
           (THRES) SILVER THRESHOLD DETECTORS TO MEASURE ANGULAR
            DISTRIBUTION OF NEUTRON BEAM.
METHOD     COUNTER SYSTEM FILLED WITH MIXTURE OF ARGON AND
            3-PERCENT CO(2) AT 20-CM HG PRESSURE. POLONIUM ALPHA
            SOURCE USED TO CALIBRATE GAS FILLING AND ELECTRONICS.
            2-FT THICK BY 4-FT WIDE CEMENT SHIELD USED TO PROTECT
            COUNTER TELESCOPE FROM DIRECT NEUTRON BEAM. LEAD FOIL
            1/16-INCH THICK REMOVES PROTONS PRODUCED IN SHIELD.
            TARGET THICKNESSES CHOSEN SO THAT EACH ANGLE CHOOSES
            IDENTICAL SEGMENTS OF NEUTRON SPECTRUM
ERR-ANALYS ERROR IN LOCATION OF TELESCOPE LESS THAN 0.25-DEGREE.
HISTORY    (790220C)
ENDBIB              23
NOCOMMON
ENDSUBENT           26
";
"SUBENT        12643002     790313              20050926       0000
BIB                  2          3
REACTION   (1-H-1(N,EL)1-H-1,,DA,,REL) RATIO OF 15-DEG CROSS
            SECTION TO 44-DEG 24-MIN CROSS SECTION.
SAMPLE     SAMPLES OF 0.01527 AND 0.05327 G/CM-SQ USED
ENDBIB               3
COMMON               3          3
ANG1       ANG2       ANG2
ADEG       ADEG       AMIN
 15.        44.        24.
ENDCOMMON            3
DATA                 4          1
EN-MIN     EN-MAX     DATA-CM    DATA-ERR
MEV        MEV        NO-DIM     NO-DIM
 18.        21.        1.06       0.16
ENDDATA              3
ENDSUBENT           15
"].

Definition e12656 : list string := ["SUBENT        12656001     930309              20050926       0000
BIB                 14         29
INSTITUTE  (1USACLA)
REFERENCE  (J,DA/B,27,2085,6612)
           (T,TAGLIAFERRI,66)
AUTHOR     (E.TAGLIAFERRI JR)
TITLE      THE DIFFERENTIAL CROSS SECTION OF 40 MEV NEUTRONS
            SCATTERED FROM PROTONS.
FACILITY   (CYCLO) UCLA 50 MEV CYCLOTRON.
INC-SOURCE (P-D) NEUTRONS FROM DEUTERON BREAK UP IN HEAVY WATER.
SAMPLE     PROTONS IN PLASTIC SCINTILLATOR.
METHOD     (COINC,TOF) RECOIL PROTON DETECTED IN COINCIDENCE WITH
             SCATTERED NEUTRON.
           ENERGY OF SCATTERED NEUTRON DETERMINED BY TIME OF
             FLIGHT.
DETECTOR   (SCIN) PLASTIC SCINTILLATOR, DIFFERENT FROM SAMPLE.
MONITOR    (1-H-1(N,EL)1-H-1,,SIG)
ANALYSIS   AVERAGE OF THREE MEASUREMENTS.
CORRECTION DATA TAKEN AT 40 DEGREES(CMS) ADJUSTED UPWARD BY 33.2%.
           DATA FROM 90 TO 140 DEGREES(CMS) ADJUSTED DOWNWARD.
           CORRECTIONS INCREASED IN SIZE WITH INCREASING
            SCATTERING SCATTERING ANGLE AND RANGED FROM
            1.7+-0.3% AT 90 DEGREES TO 29+-7% AT 140 DEGREES.
           CORRECTED FOR:
           . BACKGROUND
           . NEUTRON DETECTION EFFICIENCY
           . ATTENUATION IN TARGET
ERR-ANALYS (DATA-ERR) STATISTICAL UNCERTAINTY
HISTORY    (790726C)
           (930309A) UPDATED AS PER THESIS. CONVERTED TO LOWER
                     CASE. ENERGY MOVED TO SUBENTRY 1.
ENDBIB              29
COMMON               2          3
EN         EN-ERR
MEV        MEV
   40.0     4.
ENDCOMMON            3
ENDSUBENT           36
";
"SUBENT        12656002     930309              20050926       0000
BIB                  2          2
REACTION   (1-H-1(N,EL)1-H-1,,DA,,COS)
STATUS     (DEP,12656003)
ENDBIB               2
NOCOMMON             0          0
DATA                 3          3
NUMBER     DATA       DATA-ERR
NO-DIM     B/SR       B/SR
  0.0       13.04       0.38
  1.0       -2.98       1.15
  2.0        7.11       1.62
ENDDATA              5
ENDSUBENT           12
";
"SUBENT        12656003     930309              20050926       0000
BIB                  2          2
REACTION   (1-H-1(N,EL)1-H-1,,DA)
HISTORY    (930309C)
ENDBIB               2
NOCOMMON             0          0
DATA                 3         11
ANG-CM     DATA-CM    DATA-ERR
ADEG       MB/SR      MB/SR
 40.        15.3        1.5
 50.        13.4        0.5
 60.        14.6        0.6
 70.        11.4        0.7
 80.        15.6        0.9
 90.        12.8        0.6
100.        13.3        0.9
110.        13.6        0.6
120.        19.2        1.1
130.        17.7        1.2
140.        19.2        3.9
ENDDATA             13
ENDSUBENT           20
"].

Definition e12780 : list string := ["SUBENT        12780001     850821              20050926       0000
BIB                 10         12
INSTITUTE  (1USALAS)
REFERENCE  (R,LA-7269-MS,7805)
AUTHOR     (M.DROSG)
TITLE      INTERACTION OF FAST NEUTRONS WITH 4HE, 3HE AND 1H.
            ADDITIONAL AND IMPROVED DATA.
FACILITY   (VDGT)
INC-SOURCE (D-T)
METHOD     (TOF)
DETECTOR   (SCIN) NE123 LIQUID SCINTILLATOR
                  FLUX MONITORED BY PLASTIC SCINTILLATOR.
STATUS     (APRVD) M. DROSG, 85/9/5.
HISTORY    (850808C)
ENDBIB              12
NOCOMMON             0          0
ENDSUBENT           15
";
"SUBENT        12780002     850821              20050926       0000
BIB                  4          7
REACTION   (1-H-1(N,EL)1-H-1,,DA)
MONITOR    (1-H-1(N,EL)1-H-1,,SIG) NORMALIZED LEGENDRE FIT TO
            TOTAL SCATTERING CROSS SECTION
CORRECTION ANALYTICAL CORRECTION FOR MULTIPLE SCATTERING (SLAB
            GEOMETRY).
ERR-ANALYS (DATA-ERR) INCLUDES COUNTING STATISTICS, BACKGROUND
            SUBTRACTION AND RELATIVE EFFICIENCY UNCERTAINTIES.
ENDBIB               7
NOCOMMON             0          0
DATA                 5         32
EN         EN-RSL-FW  ANG-CM     DATA-CM    DATA-ERR
MEV        MEV        ADEG       MB/SR      PER-CENT
 22.4       0.5        28.38      33.2       4.9
 22.4       0.5        38.44      33.6       2.8
 22.4       0.5        49.09      35.6       4.0
 22.4       0.5        59.34      33.0       1.4
 22.4       0.5        64.35      32.6       1.5
 22.4       0.5        69.37      32.6       1.5
 22.4       0.5        74.39      32.1       1.5
 22.4       0.5        79.20      33.4       1.4
 22.4       0.5        89.22      33.5       1.2
 22.4       0.5        99.03      34.0       1.1
 22.4       0.5       118.83      33.3       2.5
 23.7                  53.13      31.0       2.4
 23.7                  69.79      30.4       2.0
 23.7                  99.25      31.1       1.5
 27.1                  40.29      26.7       8.0
 27.1                  46.33      25.8       4.4
 27.1                  50.35      24.8       4.4
 27.1                  57.19      26.6       5.9
 27.1                  60.40      27.3       4.3
 27.1                  66.83      27.1       6.3
 27.1                  70.44      26.5       4.0
 27.1                  80.47      27.0       7.4
 27.1                  90.49      25.8       4.1
 27.1                 100.50      26.0       4.2
 27.1                 105.70      26.2       6.1
 27.1                 110.50      28.4       4.8
 28.5       0.3        41.31      24.8       5.6
 28.5       0.3        47.15      25.4       4.6
 28.5       0.3        52.38      24.4       5.6
 28.5       0.3        57.41      25.0       3.7
 28.5       0.3        71.26      24.2       3.2
 28.5       0.3        79.49      24.9       2.1
ENDDATA             34
ENDSUBENT           46
"].

Definition e12917 : list string := ["SUBENT        12917001     850917              20050926       0000
BIB                 12         17
INSTITUTE  (1USAINU)
REFERENCE  (J,PR/C,31,309,8502)
AUTHOR     (H.O.MEYER,J.R.HALL,M.HUGI,H.J.KARWOSKI,R.E.POLLACK,
           P.SCHWANDT)
TITLE      NEUTRON-PROTON RADIATIVE CAPTURE CROSS SECTION AT
           TN = 185 MEV.
FACILITY   (CYCLO)
METHOD     (TOF)
INC-SOURCE (P-LI7)
DETECTOR   PROTONS AND DEUTERONS DETECTED WITH AN ARRAY OF PLASTIC
             SCINTILLATORS.
SAMPLE     LIQUID HYDROGEN IN THIN-WALLED CYLINDRICAL STAINLESS
            STEEL CONTAINER 11.2 CM IN DIAMETER AND 6.4 CM THICK.
CORRECTION CORRESPONDING BACKGROUND EVENTS CORRECTED FOR PROTONS
             AND DEUTERONS.
STATUS     NO REPLY TO AUTHOR PROOF.
HISTORY    (850605C)
ENDBIB              17
COMMON               3          3
EN         EN-RSL     ANG-RSL
MEV        MEV        ADEG
 185.       5.         0.35
ENDCOMMON            3
ENDSUBENT           24
";
"SUBENT        12917002     850917              20050926       0000
BIB                  4         21
REACTION  1((1-H-1(N,G)1-H-2,,DA,D)/(1-H-1(N,EL)1-H-1,,DA,P))
          2(1-H-1(N,G)1-H-2,,DA,D)
MONITOR   2(1-H-1(N,N)1-H-1,,DA,P)
           THE STANDARD (N,P) CROSS SECTION WAS ARBITRARILY
             ASSUMED TO BE SIMILAR IN SHAPE TO THE RESULT OF THE
             PHASE SHIFT ANALYSIS BUT IN AGREEMENT WITH THE DATA
             AT THE MOST FORWARD ANGLES.
ADD-RES    THE ZERO DEGREE(CM) VALUE OBTAINED FROM A THIRD ORDER
             POLYNOMIAL(IN COSINE) FIT TO THE DATA.
                = 4.83 +- 0.45 MICRO-BARNS.
ERR-ANALYS (DATA-ERR)
             BACKGROUND SUBTRACTION  2 PERCENT
             DETECTECTOR EFFICIENCY  3 PERCENT
             DEUTERON BACKGROUND     2 PERCENT
            POSSIBLE SYSTEMATIC ERRORS DUE TO
                 . MULTIPLE SCATTERING OF THE OUTGOING PARTICLES
                 . REACTION LOSSES IN THE SCINTILLATORS AND THE
                   AIR BETWEEN THEM
               HAVE BEEN ESTIMATED TO BE NEGLIGIBLE.
            NO ERROR WAS CONSIDERED FOR THE STANDARD
               CROSS SECTION IN OBTAINING THE CAPTURE RESULTS.
ENDBIB              21
NOCOMMON             0          0
DATA                 6         11
ANG        DATA      1DATA-ERR  1DATA      2DATA-ERR  2MONIT     2
ADEG       NO-DIM     NO-DIM     MU-B/SR    MU-B/SR    MB/SR
 0.35       0.75   -03 0.07   -03 37.4       3.7        49.8
 1.05       0.80   -03 0.05   -03 39.4       2.5        49.1
 1.75       0.86   -03 0.05   -03 41.4       2.2        48.1
 2.45       0.92   -03 0.04   -03 43.1       2.0        46.9
 3.15       1.00   -03 0.04   -03 45.4       2.0        45.5
 3.85       1.16   -03 0.05   -03 50.7       2.0        43.9
 4.55       1.19   -03 0.05   -03 50.2       2.1        42.1
 5.25       1.41   -03 0.06   -03 56.7       2.4        40.3
 5.95       1.74   -03 0.08   -03 67.0       3.0        38.4
 6.65       2.07   -03 0.13   -03 75.3       4.6        36.4
 7.35       2.37   -03 0.23   -03 81.5       7.8        34.5
ENDDATA             13
ENDSUBENT           39
"].

Definition e13150 : list string := ["SUBENT        13150001     890410              20050926       0000
BIB                 11         18
INSTITUTE  (1CANTMF)
REFERENCE  (J,PL/B,201,25,8801)
AUTHOR     (K.P.JACKSON,A.CELLER,W.P.ALFORD,K.RAYWOOD,R.ABEGG,
           R.E.AZUMA,C.K.CAMPBELL,S.EL-KATEB,D.FREKERS,P.W.GREEN,
           O.HAUSSER,R.L.HELMER,R.S.HENDERSON,K.H.HICKS,
           R.JEPPESEN,P.LEWIS,C.A.MILLER,A.MOALEM,M.A.MOINESTER,
           R.B.SCHUBANK,G.G.SHUTE,B.M.SPICER,M.C.VETTERLI,
           A.I.YAVIN,S.YEN)
TITLE      THE (N,P) REACTION AS A PROBE OF GAMOW-TELLER STRENGTH
FACILITY   TRIUMF CHARGE EXCHANGE FACILITY
INC-SOURCE (P-LI7)
DETECTOR   (PROPC) MULTIWIRE PROPORTIONAL COUNTERS
MONITOR   2(1-H-1(N,EL)1-H-1,,DA) GIVEN IN LAB SYSTEM
ERR-ANALYS1NO INFORMATION ON SOURCE OF UNCERTAINTIES
          2ERRORS DO NOT INCLUDE UNCERTAINTY IN STANDARD
            VALUE.
STATUS     NO REPLY TO AUTHOR PROOF
HISTORY    (881130C)
ENDBIB              18
COMMON               3          3
EN         ANG        MONIT     2
MEV        ADEG       MB/SR
 198.       0.         55.3
ENDCOMMON            3
ENDSUBENT           25
";
"SUBENT        13150002     890123              20050926       0000
BIB                  1          2
REACTION  1((3-LI-6(N,P)2-HE-6,,DA)/(1-H-1(N,EL)1-H-1,,DA))
          2(3-LI-6(N,P)2-HE-6,,DA)
ENDBIB               2
NOCOMMON             0          0
DATA                 4          1
DATA      1DATA-ERR  1DATA-CM   2DATA-ERR  2
NO-DIM     NO-DIM     MB/SR      MB/SR
 0.403      0.015     15.51       0.55
ENDDATA              3
ENDSUBENT           10
";
"SUBENT        13150003     890123              20050926       0000
BIB                  2          3
REACTION  1((6-C-12(N,P)5-B-12,,DA)/(1-H-1(N,EL)1-H-1,,DA))
          2(6-C-12(N,P)5-B-12,,DA)
SAMPLE     NATURAL C
ENDBIB               3
NOCOMMON             0          0
DATA                 4          1
DATA      1DATA-ERR  1DATA-CM   2DATA-ERR  2
NO-DIM     NO-DIM     MB/SR      MB/SR
 0.180      0.006      8.19       0.27
ENDDATA              3
ENDSUBENT           11
";
"SUBENT        13150004     890123              20050926       0000
BIB                  2          3
REACTION  1((6-C-13(N,P)5-B-13,,DA)/(1-H-1(N,EL)1-H-1,,DA))
          2(6-C-13(N,P)5-B-13,,DA)
SAMPLE     POWDER SAMPLE, 99% 13C. SAMPLE THICKNESS 81 MG/CM**2
ENDBIB               3
NOCOMMON             0          0
DATA                 4          1
DATA      1DATA-ERR  1DATA-CM   2DATA-ERR  2
NO-DIM     NO-DIM     MB/SR      MB/SR
 0.157      0.007      7.24       0.33
ENDDATA              3
ENDSUBENT           11
"].

Definition e13623 : list string := ["SUBENT        13623001     961204              20050926       0000
BIB                 14         32
INSTITUTE  (1USALAS,1USATAM,1USATEX)
REFERENCE  (J,PR/C,47,36,9301)
AUTHOR     (L.C.NORTHCLIFFE,M.JAIN,M.L.EVANS,G.GLASS,J.C.HIEBERT,
           R.A.KENEFICK,B.E.BONNER,J.E.SIMMONS,C.W.BJORK,
           P.J.RILEY)
TITLE      Differential cross section for n-p elastic scattering
            in the angular region 50 degrees<theta<180 degrees at
            459 MeV
FACILITY   (MESON,1USALAS) LAMPF
INC-SOURCE (P-D) protons on liquid deuterium target.
SAMPLE     Liquid hydrogen.
METHOD     (TOF)
DETECTOR   (MAGSP,SCIN,MWPC) Magnetic spectrometer containing 2
            scintillator planes, and 4 multiwire proportional
            counters.
           Neutron beam flux monitored using a pair of counter
            telescopes.
MONITOR    ((MONIT)1-H-1(N,PI0)1-H-2,,SIG) USED FOR absolute
            calibration of beam monitor
CORRECTION Corrected for:
           . background
           . multiple scattering in liquid deuterium target,
             scintillator, and spectrometer
           . energy-loss effects in liquid deuterium target and
             in the spectrometer
           . uncertainty in spectrometer position
           . absorption of of both protons and deuterons in the
             target and spectrometer
ERR-ANALYS (ERR-S) Statistical uncertainty.
STATUS     Data taken from reference
           No reply to author proof
HISTORY    (961015C)
ENDBIB              32
COMMON               3          3
EN         EN-ERR     MONIT
MEV        MEV        MB
 459.        3.        0.83
ENDCOMMON            3
ENDSUBENT           39
";
"SUBENT        13623002     961021              20050926       0000
BIB                  1          1
REACTION   (1-H-1(N,EL)1-H-1,,DA,P)
ENDBIB               1
NOCOMMON             0          0
DATA                 3        189
ANG-CM     DATA-CM    ERR-S
ADEG       MB/SR      MB/SR
179.65      9.601      0.281
178.95      9.693      0.130
178.24      9.485      0.100
177.54      9.386      0.107
176.84      9.355      0.095
176.13      9.123      0.118
175.43      8.935      0.120
174.73      8.432      0.168
174.56      8.037      0.153
173.86      8.184      0.151
173.16      7.843      0.148
172.81      7.692      0.148
172.45      7.595      0.147
172.11      7.478      0.146
171.75      7.419      0.148
171.40      7.395      0.147
170.70      6.902      0.140
170.00      6.540      0.138
169.30      6.528      0.138
168.60      6.245      0.136
167.89      5.891      0.131
167.19      5.534      0.130
167.06      5.608      0.110
166.49      5.361      0.126
166.36      5.286      0.108
165.66      5.449      0.107
164.96      4.933      0.106
164.37      4.848      0.110
164.26      5.289      0.107
163.67      5.036      0.111
163.56      4.601      0.103
162.97      4.853      0.110
162.86      4.636      0.102
162.27      4.525      0.107
161.57      4.546      0.105
160.87      4.588      0.104
160.17      4.403      0.104
159.47      4.394      0.102
158.77      4.292      0.104
158.07      4.132      0.104
155.93      4.010      0.079
155.23      3.846      0.078
154.53      3.970      0.078
153.84      3.885      0.078
153.14      3.740      0.076
152.45      3.599      0.075
151.75      3.617      0.075
151.06      3.398      0.074
150.36      3.542      0.075
149.67      3.554      0.075
147.53      3.141      0.060
146.83      3.089      0.059
146.14      3.185      0.060
145.45      2.940      0.058
144.76      3.061      0.059
144.07      2.854      0.057
143.38      2.826      0.057
142.69      2.826      0.057
142.00      2.771      0.056
139.36      2.431      0.053
138.68      2.524      0.054
137.99      2.418      0.053
137.31      2.379      0.052
136.62      2.272      0.052
135.94      2.059      0.050
135.26      2.150      0.051
134.57      2.096      0.049
133.89      2.009      0.048
130.00      1.645      0.054
129.32      1.835      0.057
128.65      1.826      0.057
127.97      1.776      0.056
127.63      1.655      0.055
127.29      1.637      0.054
126.96      1.704      0.054
126.62      1.719      0.056
126.28      1.495      0.052
125.61      1.621      0.054
124.94      1.524      0.052
124.26      1.497      0.052
123.59      1.591      0.054
122.92      1.430      0.051
122.25      1.350      0.049
120.48      1.417      0.041
119.81      1.409      0.041
119.14      1.327      0.039
118.48      1.355      0.040
117.81      1.257      0.038
117.14      1.319      0.040
116.48      1.312      0.040
115.82      1.269      0.039
115.15      1.218      0.038
114.49      1.186      0.039
113.06      1.228      0.034
112.40      1.127      0.033
111.74      1.172      0.034
111.08      1.154      0.033
110.42      1.166      0.034
109.76      1.168      0.034
109.10      1.138      0.034
108.45      1.129      0.034
107.79      1.140      0.033
105.73      1.134      0.045
105.08      1.157      0.045
104.42      1.125      0.044
103.77      1.177      0.045
103.12      1.122      0.046
102.47      1.002      0.043
102.15      1.062      0.044
101.83      1.083      0.045
101.51      1.047      0.044
101.18      1.095      0.045
100.86      1.092      0.044
100.21      1.082      0.045
 99.57      1.159      0.045
 98.92      1.110      0.045
 98.28      1.052      0.045
 97.63      1.096      0.045
 96.99      1.051      0.045
 95.82      1.176      0.034
 95.18      1.107      0.034
 94.54      1.081      0.034
 93.90      1.207      0.035
 93.26      1.154      0.035
 92.63      1.144      0.034
 91.99      1.113      0.034
 91.35      1.208      0.036
 90.72      1.112      0.035
 89.10      1.208      0.045
 88.47      1.094      0.043
 87.84      1.190      0.045
 87.21      1.237      0.045
 86.58      1.250      0.046
 85.95      1.272      0.047
 85.45      1.199      0.045
 85.32      1.279      0.047
 84.82      1.253      0.046
 84.69      1.179      0.046
 84.19      1.265      0.048
 83.57      1.316      0.049
 82.94      1.292      0.048
 82.32      1.294      0.049
 81.69      1.338      0.049
 81.07      1.360      0.050
 79.75      1.378      0.038
 79.13      1.435      0.039
 78.51      1.522      0.040
 77.89      1.487      0.040
 77.27      1.459      0.041
 76.65      1.539      0.041
 76.03      1.520      0.041
 75.42      1.435      0.041
 74.80      1.549      0.042
 73.58      1.500      0.045
 72.96      1.607      0.046
 72.35      1.637      0.045
 71.74      1.667      0.046
 71.13      1.694      0.049
 70.75      1.598      0.046
 70.52      1.690      0.048
 70.14      1.739      0.046
 69.53      1.749      0.049
 68.92      1.751      0.047
 68.31      1.857      0.049
 67.70      1.842      0.050
 67.09      1.890      0.050
 66.48      1.874      0.050
 65.10      1.931      0.050
 64.50      1.911      0.050
 63.89      2.091      0.054
 63.29      2.038      0.053
 62.69      2.084      0.053
 62.08      2.148      0.054
 61.96      2.148      0.055
 61.48      2.129      0.055
 61.36      2.129      0.555
 60.76      2.173      0.056
 60.16      2.151      0.057
 59.56      2.216      0.058
 58.96      2.186      0.058
 58.36      2.318      0.061
 57.77      2.253      0.059
 56.67      2.381      0.049
 56.08      2.382      0.048
 55.48      2.448      0.050
 54.89      2.537      0.050
 54.29      2.527      0.049
 53.70      2.596      0.052
 53.11      2.649      0.052
ENDDATA            191
ENDSUBENT          197
"].

Definition e13782 : list string := ["SUBENT        13782001   20101130   20110323   20110301       1370
BIB                 14         28
INSTITUTE  (1USAOHO,1USALAS,1USANIS)
REFERENCE  (J,PR/C,65,014004,200201)  Main reference
           (J,PR/C,82,039901,2010)  Correction to main reference
AUTHOR     (N.Boukharouba,F.B.Bateman,C.E.Brient,A.D.Carlson,
           S.M.Grimes,R.C.Haight,T.N.Massey,O.A.Wasson)
TITLE      Measurement of the n-p elastic scattering angular
            distribution at E(n)=10 MeV
FACILITY   (VDGT,1USAOHO)
INC-SOURCE (D-D) 7.27-MeV deuteron beam on deuterium-filled gas
            cell.
SAMPLE     CH2 targets, bonded to tantalum backing with ethyl
            cyanoacrylate. Thin sample (1.4 mg/cm2 used at all
            angles. Thick sample (3.8 mg/cm2) used for all angles
            but 60 degrees.
METHOD     (EDE)
DETECTOR   (TELES) 11 telescopes consisting of DE-E silicon
            surface barrier detectors.
MONITOR    (1-H-1(N,EL)1-H-1,,DA) Normalized to Breit-Hopkins
            total cross section value after radiative
            capture correction (negligible).
MONIT-REF  (,Hopkins+,J,ND/A,9,137,1971)
CORRECTION Corrected for finite-size effects and background
            using MC program.
STATUS     (APRVD) Approved by A. Carlson, 2004/5/11.
HISTORY    (20020215C)
           (20040511A) Author approval, BIB, energy updates.
           (20101113A) S.H. Data in sub.2 corrected according
                       to PR/C 82, added sub. 3.
ENDBIB              28
COMMON               3          3
EN         EN-ERR     MONIT
MEV        KEV        MB
 10.04      20.0       943.2
ENDCOMMON            3
ENDSUBENT           35
";
"SUBENT        13782002   20101114   20110323   20110301       1370
BIB                  4         11
REACTION   (1-H-1(N,EL)1-H-1,,DA)
ERR-ANALYS (ERR-T) Total estimated uncertainty
            See Table II in main reference for list of major
            uncertainties.
MISC-COL   Mean angle in CM system. The central center-of-mass
           ANG-CM angle is defined as the angle for the neutrons
           in the center-of-mass system for a proton striking the
           center of the detector. For all angles except the
           0 deg proton telescope, these angles are close to
           the mean angles.
STATUS     (TABLE) Data taken from Table 1 in PR/C 82.
ENDBIB              11
NOCOMMON             0          0
DATA                 4          6
ANG-CM     MISC       DATA-CM    ERR-T
ADEG       ADEG       MB/SR      MB/SR
  180.00     175.24       78.06   0.65
  155.94     155.49       76.93   0.39
  131.89     131.70       76.20   0.40
  107.86     107.76       75.36   0.42
   83.85      83.84       73.75   0.45
   59.87      59.83       73.15   1.23
ENDDATA              8
ENDSUBENT           24
";
"SUBENT        13782003   20101114   20110323   20110301       1370
BIB                  4          5
REACTION   (1-H-1(N,EL)1-H-1,,DA,,LEG)
ERR-ANALYS (ERR-T) Total estimated uncertainty
STATUS     (TABLE) Data taken from tab. 1 of PR/C 82
           (DEP,13782002)
HISTORY    (20101113C) Compiled by S.H.
ENDBIB               5
NOCOMMON             0          0
DATA                 3          3
NUMBER-CM  DATA-CM    ERR-T
NO-DIM     MB/SR      MB/SR
    0.0      74.36     0.48
    1.0       2.83     0.58
    2.0       0.29     0.70
ENDDATA              5
ENDSUBENT           15
"].

Definition e13793 : list string := ["SUBENT        13793001   20021202   20030219   20050926       0000
BIB                 12         14
INSTITUTE  (1USADAV)
REFERENCE  (C,85SANTA,,959,198505)
AUTHOR     (J.R.Drummond,F.P.Brady,J.L.Romero,T.D.Ford,
           C.M.Castaneda,B.McEachern,M.A.Hamilton)
TITLE      A measurement of the n-p 180/90 degree cross section
            at 65 and 50 MeV.
FACILITY   (ISOCY,1USADAV)
INC-SOURCE (P-LI7)
SAMPLE     CH2 and C targets mounted in air.
METHOD     (BCINT)
DETECTOR   (PSSCN) Position sensitive wire chambers.
ERR-ANALYS (DATA-ERR) No information on sources of uncertainty.
STATUS     Data taken from paper.
HISTORY    (20021202C)
ENDBIB              14
COMMON               2          3
EN-RSL-FW  EN-ERR
MEV        KEV
  1.       300.
ENDCOMMON            3
ENDSUBENT           21
";
"SUBENT        13793002   20030103   20030219   20050926       0000
BIB                  1          1
REACTION   (1-H-1(N,EL)1-H-1,,DA,,RSD)
ENDBIB               1
NOCOMMON             0          0
DATA                 4          1
EN         ANG        DATA       DATA-ERR
MEV        ADEG       NO-DIM     PER-CENT
 65.       180.         1.76       7.
ENDDATA              3
ENDSUBENT            9
"].

Definition e13795 : list string := ["SUBENT        13795001   20020724   20020925   20050926       0000
BIB                  9          9
INSTITUTE  (1USALAS)
REFERENCE  (P,ERDA-NDC-3,101,197605)
AUTHOR     (M.DROSG)
TITLE      180 degree n-p cross sections near 25 MeV.
METHOD     (TOF)
DETECTOR   (TELES) Proton recoil counter telescope.
ERR-ANALYS (DATA-ERR) Absolute uncertainties given.
STATUS     Data taken from reference.
HISTORY    (20020624C) IS
ENDBIB               9
COMMON               1          3
ANG-CM
ADEG
 180.
ENDCOMMON            3
ENDSUBENT           16
";
"SUBENT        13795002   20020724   20020925   20050926       0000
BIB                  1          1
REACTION   ((1-H-1(N,EL)1-H-1,,DA)//(1-H-1(N,EL)1-H-1,,DA))
ENDBIB               1
NOCOMMON             0          0
DATA                 4          1
EN-NM      EN-DN      DATA       DATA-ERR
MEV        MEV        NO-DIM     NO-DIM
 11.2       25.3       2.22       0.06
ENDDATA              3
ENDSUBENT            9
"].

Definition e13883 : list string := ["SUBENT        13883001   20031104   20031222   20050926       0000
BIB                  8         12
INSTITUTE  (1USALRL)
REFERENCE  (J,RCA,90,833,2002)
AUTHOR     (R.W.Lougheed,W.Webster,M.N.Namboodiri,D.R.Nethaway,
           K.J.Moody,J.H.Landrum,R.W.Hoff,R.J.Dupzyk,J.H.McQuaid,
           R.Gunnink,E.D.Watkins)
TITLE      239Pu and 241Am(n,2n) cross-section measurements near
            E(n) = 14 MeV
FACILITY   (ICTR,1USALRL)
INC-SOURCE (D-T)
STATUS     Data taken from table in reference.
           No reply from R.W.Lougheed to author proof.
HISTORY    (20030910C)
ENDBIB              12
NOCOMMON             0          0
ENDSUBENT           15
";
"SUBENT        13883002   20030911   20031222   20050926       0000
BIB                  8         19
REACTION   (94-PU-239(N,2N)94-PU-238,,SIG)
SAMPLE     High purity mass-separated 239Pu sample with
            238Pu/239Pu ratio of about 6E-10.
METHOD     (CHSEP) Irradiated samples dissolved and ion-exchange
            spearations performed using Dowex anion-exchange
            resin to remove any excess mass. Resulting Pu
            fractions electroplated onto Pt disks, which were
            heated to fix deposits.
           (ACTIV) Counts performed for 1 year after irradiation.
MONITOR    (79-AU-197(N,2N)79-AU-196,,SIG) Flux monitor.
           Neutron energy determined using 54Fe(n,p) reaction.
DECAY-DATA (94-PU-238,87.75YR,A,5500.)
           (94-PU-239,2.41E+4YR)
CORRECTION Data corrected for pileup in alpha spectrum and
            for background.
ERR-ANALYS (DATA-ERR) Uncertainties given include counting errors
            from determining 238Pu/239Pu ratios, and neutron
            fluence errors.
EXP-YEAR   (1978) Irradiations in 1977 and 1978.
ENDBIB              19
NOCOMMON             0          0
DATA                 4          3
EN         DATA       DATA-ERR   MONIT
MEV        MB         PER-CENT   MB
 13.8      228.         2.8      2112.
 14.0      219.         3.6      2112.
 14.8      214.         1.4      2136.
ENDDATA              5
ENDSUBENT           29
";
"SUBENT        13883003   20030911   20031222   20050926       0000
BIB                  9         16
REACTION   (95-AM-241(N,2N)95-AM-240,,SIG)
SAMPLE     High purity AmO2 sample, 99.95% 241Am, in quartz tubes.
            238Pu/239Pu ratio of about 6E-10.
METHOD     (ACTIV) Data irradiated for 15 hrs. Counts done
            starting 2 days and continued until 30-40 days after
            irradiation.
DETECTOR   (GELI)
MONITOR    (13-AL-27(N,A)11-NA-24,,SIG) Flux monitor.
           Neutron energy determined using Ni foils.
DECAY-DATA (95-AM-240,50.8HR,DG,988.)
           (95-AM-241,432.7YR,DG,662.,, DG,722.)
CORRECTION Corrected for decay during irradiation.
ERR-ANALYS (DATA-ERR) Uncertainties given include counting errors
            from determining 220Am/241Am ratios, and neutron
            fluence errors.
EXP-YEAR   (1973)
ENDBIB              16
NOCOMMON             0          0
DATA                 4          5
EN         DATA       DATA-ERR   MONIT
MEV        MB         PER-CENT   MB
 13.67     260.         1.4      124.5
 13.98     259.         1.8      120.9
 14.29     251.         1.7      119.1
 14.77     233.         1.8      111.4
 15.12     222.         1.6      107.6
ENDDATA              7
ENDSUBENT           28
";
"SUBENT        13883004   20030911   20031222   20050926       0000
BIB                  9         13
REACTION   (95-AM-241(N,F)ELEM/MASS,CUM,SIG)
SAMPLE     High purity AmO2 sample, 99.95% 241Am, in quartz tubes.
            238Pu/239Pu ratio of about 6E-10.
METHOD     (ACTIV) Data irradiated for 15 hrs. Counts done at end
            of irradiation.
DETECTOR   (GELI)
MONITOR    (13-AL-27(N,A)11-NA-24,,SIG) Flux monitor.
           Neutron energy determined using Ni foils.
DECAY-DATA (95-AM-241,432.7YR,DG,662.,, DG,722.)
CORRECTION Not corrected for any additional production from down-
            scattered neutrons.
ERR-ANALYS (ERR-S) Statistical uncertainties given.
EXP-YEAR   (1973)
ENDBIB              13
NOCOMMON             0          0
DATA                 5         72
EN         MASS       ELEMENT    DATA       ERR-S
MEV        NO-DIM     NO-DIM     MB         PER-CENT
13.7        91.        38.        57.0        1.8
13.7        93.        39.       105.8       15.5
13.7        97.        40.       113.0        1.0
13.7        99.        42.       105.5       15.7
13.7       103.        44.       128.8        6.8
13.7       105.        45.       124.4        5.3
13.7       115.        48.        45.5       14.5
13.7       125.        50.        38.1       31.9
13.7       127.        51.        72.1       10.9
13.7       128.        51.        35.6        1.8
13.7       131.        53.        86.7        4.3
13.7       132.        52.        65.3        3.9
13.7       133.        53.       121.3        2.1
13.7       140.        56.        75.5        2.2
14.0        91.        38.        59.1        4.3
14.0        93.        39.       115.6       45.3
14.0        97.        40.       103.8        1.2
14.0        99.        42.        99.5       16.3
14.0       103.        44.       130.8        4.3
14.0       105.        45.       126.0        4.2
14.0       115.        48.        46.0        9.0
14.0       125.        50.        22.7       21.2
14.0       127.        51.        63.6        7.0
14.0       128.        51.        32.1        7.7
14.0       131.        53.       103.3        2.7
14.0       132.        52.        65.0        2.4
14.0       133.        53.       112.7        1.9
14.0       140.        56.        82.1        1.5
14.0       143.        58.        72.5       14.4
14.3        91.        38.        63.9        9.9
14.3        97.        40.       102.2        1.7
14.3        99.        42.        68.4       23.7
14.3       103.        44.       136.8        6.7
14.3       105.        45.       146.5        7.3
14.3       115.        48.        57.3       14.4
14.3       125.        50.        29.5       30.1
14.3       127.        51.        58.0        5.5
14.3       128.        51.        32.7       38.9
14.3       131.        53.       114.1        4.2
14.3       132.        52.        71.9        1.9
14.3       133.        53.       120.8        3.4
14.3       140.        56.        87.8        2.1
14.3       143.        58.        82.4       11.5
14.8        91.        38.        61.5        5.0
14.8        97.        40.       104.7        1.2
14.8        99.        42.        93.2       15.3
14.8       103.        44.       126.2        4.8
14.8       105.        45.       141.1        5.2
14.8       115.        48.        45.8        7.7
14.8       125.        50.        27.4       22.3
14.8       127.        51.        59.0        3.6
14.8       128.        51.        30.4        6.6
14.8       131.        53.        93.4        4.2
14.8       132.        52.        61.9        1.9
14.8       133.        53.       116.7        2.7
14.8       140.        56.        76.5        1.6
14.8       143.        58.        73.8        8.3
15.1        91.        38.        58.7        2.2
15.1        93.        39.        71.8       16.9
15.1        97.        40.       109.6        0.9
15.1        99.        42.        95.9       12.8
15.1       103.        44.       132.5        4.9
15.1       105.        45.       120.6        4.3
15.1       115.        48.        45.6        6.5
15.1       125.        50.        33.0       13.1
15.1       127.        51.        62.7        2.9
15.1       128.        51.        33.9        2.0
15.1       131.        53.        92.2        2.8
15.1       132.        52.        64.0        1.9
15.1       133.        53.       115.0        1.5
15.1       140.        56.        81.3        1.2
15.1       143.        58.        62.8       11.4
ENDDATA             74
ENDSUBENT           92
"].

Definition e13986 : list string := ["SUBENT        13986001   20070417   20070719   20070713       1343
BIB                  8         16
INSTITUTE  (1USAINU,2SWDUPP,1USAOHO,3TAICHM)
REFERENCE  (J,PRL,94,082303,2005)
           (J,PR/C,74,044003,2006)
AUTHOR     (M.Sarsour,T.Peterson,M.Planinic,S.E.Vigdor,C.Allgower,
            B.Bergenwall,J.Blomgren,T.Hossbach,W.W.Jacobs,
            C.Johansson,J.Klug,A.V.Klyachko,P.Nadel-Turonski,
            L.Nilsson,N.Olsson,S.Pomp,J.Rapaport,T.Rinckel,
            E.J.Stephenson,U.Tippawan,S.W.Wissink,Y. Zhou)
TITLE      Measurement of the Absolute np Scattering Differential
            Cross Section at 194 MeV
FACILITY   (CYCLO,1USAINU) Indiana University Cyclotron Facility
DETECTOR   (SISD) Double sided silicon strip detector
           (SIBAR) Silicon pad
SAMPLE     CH2 and C targets
HISTORY    (20050315C) DR
           (20060124C) DR PR/C reference added
ENDBIB              16
NOCOMMON             0          0
ENDSUBENT           19
";
"SUBENT        13986002   20050315   20050610   20050926       1332
BIB                  3          4
REACTION   (1-H-1(N,EL)1-H-1,,DA)
ERR-ANALYS (ERR-S) Statistical error
           (ERR-SYS) Systematic error
STATUS     Data received from M. Sarsour
ENDBIB               4
COMMON               2          3
EN         EN-RSL
MEV        MEV
194.       0.15
ENDCOMMON            3
DATA                 4         15
ANG-CM     DATA-CM    ERR-S      ERR-SYS
ADEG       MB/SR      MB/SR      MB/SR
177.02     11.86      0.34       0.19
171.04     10.62      0.19       0.17
165.02      8.89      0.14       0.14
158.97      7.61      0.11       0.12
152.92      6.64      0.10       0.10
146.89      5.98      0.08       0.09
140.86      5.34      0.08       0.08
134.85      4.75      0.07       0.07
128.84      4.01      0.06       0.06
122.83      3.47      0.06       0.05
116.81      3.01      0.05       0.05
110.80      2.57      0.05       0.04
104.79      2.31      0.05       0.04
 98.76      2.00      0.05       0.04
 92.74      1.98      0.06       0.04
ENDDATA             17
ENDSUBENT           30
"].

Definition e14017 : list string := ["SUBENT        14017001   20050630   20050909   20050926       1336
BIB                 10         18
INSTITUTE  (1USAINU,2SWDUPP,1USAOHO)
REFERENCE  (J,NIM/A,527,432,2004)
AUTHOR     (T.Peterson,S.E.Vigdor,C.Allgower,B.Bergenwall,
            L.C.Bland,J.Blomgren,J.Doskow,T.Hossbach,W.W.Jacobs,
            C.Johansson,T.Kinashia,J.Klug,A.V.Klyachko,
            P.Nadel-Turonski,L.Nilsson,N.Olsson,M.Planinic,S.Pomp,
            J.Rapaport,T.Rinckel,E.J.Stephenson,U.Tippawan,
            S.W.Wissink,Y.Zhou)
TITLE      Development of a tagged neutron facility at intermediat
            energies
FACILITY   (LINAC,1USAINU)  Tagged neutron source
INC-SOURCE (P-D) Electron-cooled circulating proton beam of 200 Me
            bombarding energy incident on a deuterium gas jet
            target.
SAMPLE     CH2 target
DETECTOR   (PSSSD) Double-sided silicon strip detectors
METHOD     (EDE)
HISTORY    (20050630C) DR
ENDBIB              18
NOCOMMON             0          0
ENDSUBENT           21
";
"SUBENT        14017002   20050630   20050909   20050926       1336
BIB                  3          3
REACTION   (1-H-1(N,EL)1-H-1,,DA)
ERR-ANALYS (DATA-ERR) No information
STATUS     (CURVE) Data read from Fig. 16
ENDBIB               3
COMMON               1          3
EN
MEV
193.
ENDCOMMON            3
DATA                 3          5
ANG-CM     DATA-CM    DATA-ERR
ADEG       MB/SR      MB/SR
   1.25E+02   3.93E+00
   1.31E+02   4.31E+00
   1.37E+02   4.96E+00
   1.43E+02   5.46E+00   2.47E-01
   1.50E+02   6.08E+00   3.00E-01
ENDDATA              7
ENDSUBENT           19
"].

Definition e14129 : list string := ["SUBENT        14129001   20070404   20070719   20070713       1343
BIB                 12         20
INSTITUTE  (1USALAS,1USALRL)
REFERENCE  (J,NSTS,2,(1),620,2002)
AUTHOR     (J.A.Becker,L.A.Bernstein,W.Younes,D.P.McNabb,
            P.E.Garrett,D.E.Archer,C.A.McGrath,M.A.Stoyer,H.Chen,
            W.E.Ormand,R.O.Nelson,M.B.Chadwick,G.D.Johns,D.Drake,
            P.G.Young,M.Devlin,N.Fotiades,W.S.Wilburn)
TITLE      Partial gamma-ray cross sections for the reaction
           239Pu(n,2ng) and the 239Pu(n,2n) cross section
FACILITY   (ACCEL,1USALAS) LANSCE accelerator at Los Alamos
INC-SPECT  WNR center, spallation target, Flight path 60R, 20.34 m
DETECTOR   (GE) GEANIE detector, 4pi Germanium
SAMPLE     High enriched 239Pu target, low 241Am contaminant (
            1.2 +/- 0.5 ppm)
METHOD     (TOF)
           Partial reaction measured. Total (n,2n) reconstructed
            with GNASH calculations
ANALYSIS   Preliminary Results
MONITOR    238U and 235U fission chamber used as neutron flux
            monitor
HISTORY    (20070404C) DR
ENDBIB              20
NOCOMMON             0          0
ENDSUBENT           23
";
"SUBENT        14129002   20070404   20070719   20070713       1343
BIB                  3          3
REACTION   (94-PU-239(N,2N)94-PU-238,,SIG)
ERR-ANALYS (ERR-T) Total uncertainties
STATUS     (CURVE) Data taken from Fig. 2
ENDBIB               3
NOCOMMON             0          0
DATA                 4         13
EN         EN-ERR     DATA       ERR-T
MEV        MEV        B          B
  6.481E+00  2.239E-01  1.009E-01  3.081E-02
  6.942E+00  1.894E-01  1.261E-01  2.015E-02
  7.490E+00  2.412E-01  1.525E-01  1.422E-02
  8.084E+00  2.582E-01  2.263E-01  1.540E-02
  8.751E+00  2.930E-01  2.669E-01  1.659E-02
  9.504E+00  3.446E-01  3.029E-01  1.659E-02
  1.034E+01  3.961E-01  3.508E-01  2.014E-02
  1.134E+01  4.307E-01  3.561E-01  2.015E-02
  1.245E+01  5.340E-01  2.951E-01  1.776E-02
  1.377E+01  6.030E-01  2.284E-01  1.539E-02
  1.533E+01  7.231E-01  1.558E-01  1.540E-02
  1.719E+01  8.438E-01  1.178E-01  8.262E-03
  1.934E+01  1.068E+00  1.025E-01  7.097E-03
ENDDATA             15
ENDSUBENT           23
"].

Definition e14160 : list string := ["SUBENT        14160001   20100809   20110113   20110112       1367
BIB                 14         41
TITLE      Measurement of the n-p elastic scattering angular
           distribution at En = 14.9 MeV
AUTHOR     (N.Boukharouba,F.B.Bateman,A.D.Carlson,C.E.Brient,
           S.M.Grimes,T.N.Massey,R.C.Haight,D.E.Carter)
INSTITUTE  (1USANIS,1USAOHO,1USALAS)
           (3ALGALG) University of Guelma,Guelma,Algeria
REFERENCE  (J,PR/C,82,014001,2010)     Main reference
           (C,2007NICE,2,1247,2007) Preliminary data
FACILITY   (VDGT,1USAOHO)Experiment performed at the Ohio
            University Edwards Tandem Accelerator Laboratory
INC-SOURCE (D-T) Neutrons were produced by the 3H(d,n)4He reaction
           using a continuous beam of 460 keV deuterons directed
           onto a tritiated titanium target, which consisted of a
           tritiated titanium layer, approximately 2.0 mg/cm2
           on a 0.5 mm silver backing.
SAMPLE     Polypropylene foil with thickness of 3.8 mg/cm2
           mounted on a 0.5 mm thick tantalum backing located
           50.3 cm from the neutron-producing target.
DETECTOR   (TELES,SI,SI) The detector system was made of 11
           fixed E-dE telescopes located at 0,+-12,+-24,+-36,
           +-48 and +-60deg with respect to the neutron beam axis
           in a scattering chamber. Detector thickness at each
           angle was optimized for given proton recoil energy.
METHOD     (EDE) for proton identification
CORRECTION  Corrections for dead time and multiple scattering
            were applied
ERR-ANALYS (ERR-T) total uncertainty, essentially statistical
            They include also following contributions
           (ERR-1,0.2,0.3) Uncertainty in normalization
                   sample-in and sample-out runs
           (ERR-2) Uncertainty in determination of solid angle
           (ERR-3) Uncertainty in gate size and region of interest
                   shape
           (ERR-4) Uncertainty in corrections for multiple
                   scattering and finite size effects, calculated
                   by Monte-Carlo method
MONITOR    (1-H-1(N,EL)1-H-1,,SIG)  ENDF/B-VII value of 647.42 mb
                                    was used
MONIT-REF  (,,3,ENDF/B-VII.0,125,2006)
HISTORY    (20071227C) Compiled by S.H.
           (20100809C) Compiled final data by S.H.
ENDBIB              41
COMMON               5          3
EN         EN-RES     ERR-2      ERR-3      ERR-4
MEV        MEV        PER-CENT   PER-CENT   PER-CENT
  14.9      0.3         0.2        0.3        0.25
ENDCOMMON            3
ENDSUBENT           48
";
"SUBENT        14160002   20100810   20110113   20110112       1367
BIB                  2          5
REACTION  1(1-H-1(N,EL)1-H-1,,DA) Data obtained by first order
                     polynomial fit to the experimental data
          2(1-H-1(N,EL)1-H-1,,DA) Data obtained by second order
                     polynomial fit to the experimental data
STATUS     (TABLE) Data taken from tab. 1 of the main reference
ENDBIB               5
NOCOMMON             0          0
DATA                 5          6
ANG-CM     DATA-CM   1ERR-T     1DATA-CM   2ERR-T     2
ADEG       MB/SR      MB/SR      MB/SR      MB/SR
  175.3      55.23     0.85        54.37     0.82
  155.5      55.11     0.51        54.26     0.49
  131.7      53.10     0.61        52.27     0.59
  107.7      52.66     0.65        51.84     0.63
   83.8      51.51     0.92        50.71     0.89
   59.7      49.80     3.60        49.02     3.50
ENDDATA              8
ENDSUBENT           18
"].

Definition e20287 : list string := ["SUBENT        20287001     840409              20050926       0000
BIB                 13         24
INSTITUTE  (2JPNKTO)
REFERENCE  (J,JPJ,15,1359,6008)
AUTHOR     (T.NAKAMURA)
TITLE      -ANGULAR DISTRIBUTION OF N-P SCATTERING AT 14.1 MEV-
FACILITY   (CCW  )    COCKCROFT-WALTON ACCELERATOR.
INC-SOURCE (D-T  )    T(D,N)ALPHA. E(D) = 300 KEV.
SAMPLE     .POLYETHYLENE.
DETECTOR   (TELES)    COUNTER-TELESCOPE WITH TWO ARGON FILLED
            PROPORTIONAL COUNTERS AND A CS-I-CRYSTAL.
MONITOR    .ABOUT 5*10E+7 NEUTRONS/SEC. MONITORED
            BY ALPHA-PARTICLE COUNTING WITH AN ARGON-
            FILLED PROPORTIONAL COUNTER, T(D,N)ALPHA.
            DIFFERENTIAL CROSS-SECTIONS NORMALIZED
            TO TOTAL CROSS SECTION = 0.689 +- 0.005
            BARN MEASURED BY TRANSMISSION, H.L. POSS
            ET AL. PHYS. REV. 87(1952)11.
PART-DET   (P    )    PROTONS.
COMMENT    .THE RATIO OF THE CROSS-SECTIONS AT 180 AND 90 DEGREES
            IN THE CENTER-OF-MASS SYSTEM WAS 1.080 +- 0.016.
HISTORY    (711010C)
           (740626E)
           (840106U) A.P.T. JAPAN CODE CHANGED TO JPN
           (840106E)
ERR-ANALYS .STATISTICAL ERROR. DETAILED DISCUSSION IN REFERENCE.
ENDBIB              24
COMMON               2          3
EN         EN-RSL
MEV        MEV
 1.4100E+01 5.0000E-02
ENDCOMMON            3
ENDSUBENT           31
";
"SUBENT        20287002     831122              20050926       0000
BIB                  3          4
REACTION   (1-H-1(N,EL)1-H-1,,DA)
STATUS     .DATA FROM J.PHYS.SOC.JAP.15,1359.
HISTORY    (711010C)
           (740626E)
ENDBIB               4
NOCOMMON             0          0
DATA                 3          4
COS-CM     DATA       DATA-ERR
NO-DIM     MB/SR      MB/SR
-9.6600E-01 5.9100E+01 6.0000E-01
-8.2900E-01 5.8300E+01 6.0000E-01
-4.6900E-01 5.6200E+01 6.0000E-01
 1.7500E-02 5.5000E+01 7.0000E-01
ENDDATA              6
ENDSUBENT           15
";
"SUBENT        20287003     831122              20050926       0000
BIB                  3          6
REACTION   (1-H-1(N,EL)1-H-1,,DA,,COS)
STATUS     .DATA FROM J.PHYS.SOC.JAP.15,1359.
           .EQUATION PAGE 1365.
           (DEP  )    ANGULAR DISTRIBUTION ALSO AVAILABLE.
HISTORY    (711010C)
           (740626E)
ENDBIB               6
NOCOMMON             0          0
DATA                 2          5
NUMBER-CM  DATA
NO-DIM     MB/SR
 0.0000E+00 5.3400E+01
 1.0000E+00-2.8569E+00
 2.0000E+00 2.4991E+00
 3.0000E+00-5.4468E-01
 4.0000E+00 2.8088E-01
ENDDATA              7
ENDSUBENT           18
"].

Definition e20296 : list string := ["SUBENT        20296001   20110611   20120705   20120704       2229
BIB                 15         28
TITLE      On the differential cross section for neutron-proton
            scattering at 14.1 MeV
AUTHOR     (S.Shirato, K.Saitoh)
INSTITUTE  (2JPNYOK)
REFERENCE  (J,JPJ,36,331,1974) Revised data given
           (J,JPJ,28,11,1970)
REL-REF    (O,20404001,S.Shirato+,J,JPJ,36,331,1974)
            Experimental result with another (CH2)n radiator
            (8.29 +/- 0.03 mg/cm2)
FACILITY   (CCW,2JPNYOK) 200 kV Cockcroft-Walton accelerator
INC-SOURCE (D-T) Ti-T target
INC-SPECT  E(n) = 14.1 MeV, energy spread (FWHM) = 300 +/- 50 keV
SAMPLE      5.34 mg/cm2 polyethylene (CH2)n.
METHOD     (COINC) RCA p-n junction alpha particle monitor
           (ASSOP)
DETECTOR   (TELES,PROPC,SILI) 3 proportional and 1 Si(Li)
                              counter telescope
PART-DET   (P,A)
COMMENT    The ratio of the cross-sections measured at 180 deg
           and 90 deg is 1.093 +/- 0.022 (cf. JPJ,28,11,1970)
STATUS     (APRVD) Approved by the authors
HISTORY    (19711010C)
           (19740626E)
           (19840106U) A.P.T. Japan code changed to JPN
           (19840106E)
           (19850401U) HH. Keyword N-SOURCE changed to INC-SOURCE
           (19850419E)
           (20110611A) On. Revised values added
ENDBIB              28
COMMON               2          3
EN         EN-RSL-FW
MEV        MEV
 14.1       0.30
ENDCOMMON            3
ENDSUBENT           35
";
"SUBENT        20296002   20110611   20120705   20120704       2229
BIB                  4         10
REACTION   (1-H-1(N,EL)1-H-1,,SIG)
HISTORY    (19711010C)
           (19740626E)
           (19850401U) HH. ISO-QUANT keyword replaced
           (19850419E)
           (20110611A) On. Superseded. ED. DATA deleted
ANALYSIS   (INTAD) Integration of fitting coefficient
STATUS     (TABLE) Table II of J.Phys.Soc.Jpn.28(1970)11
           (DEP,20296004) Fitting coefficient to angular dist.
           (SPSDD,20296006) Neutron flux correction revised
ENDBIB              10
NOCOMMON             0          0
NODATA               0          0
ENDSUBENT           14
";
"SUBENT        20296003   20110611   20120705   20120704       2229
BIB                  5         16
REACTION   (1-H-1(N,EL)1-H-1,,DA)
CORRECTION Degraded neutron correction +/- 0.4 to +/- 1.3%
            between 0 and 64 deg.
ERR-ANALYS (ERR-T) The cross-section errors given are the overall
            probable errors including the systematic errors.
           (ERR-S,1.,2.4) Counting at 0 to 64 deg (1-2.4%)
           (ERR-1) Neutron flux                     (1.5%)
           (ERR-2) Geometry                           (1%)
           (ERR-3) Radiator thickness                 (1%)
STATUS     (TABLE) Table I of J.Phys.Soc.Jpn.28(1970)11
           (SPSDD,20296008) Neutron flux correction revised
HISTORY    (19711010C)
           (19740626E)
           (19850401U) HH. ISO-QUANT keyword replaced
           (19850419E)
           (20110611A) On. Superseded. ED. DATA deleted
ENDBIB              16
COMMON               3          3
ERR-1      ERR-2      ERR-3
PER-CENT   PER-CENT   PER-CENT
 1.5        1.         1.
ENDCOMMON            3
NODATA               0          0
ENDSUBENT           24
";
"SUBENT        20296004   20110611   20120705   20120704       2229
BIB                  3          9
REACTION   (1-H-1(N,EL)1-H-1,,DA,,COS)
STATUS     (TABLE) Table II of J.Phys.Soc.Jpn.28(1970)11
           (DEP,20296003) Least square fit to angular dist.
           (SPSDD,20296009) Neutron flux correction revised
HISTORY    (19711010C)
           (19740626E)
           (19850401U) HH. ISO-QUANT keyword replaced
           (19850419E)
           (20110611A) On. Superseded. ED. DATA deleted
ENDBIB               9
NOCOMMON             0          0
NODATA               0          0
ENDSUBENT           13
";
"SUBENT        20296005   20110611   20120705   20120704       2229
BIB                  3          4
REACTION   (1-H-1(N,EL)1-H-1,,DA,P)
STATUS     (TABLE) Table I of J.Phys.Soc.Jpn.28(1970)11
           (SPSDD,20296007) Neutron flux correction revised
HISTORY    (20110611C) On. ED. DATA deleted
ENDBIB               4
NOCOMMON             0          0
NODATA               0          0
ENDSUBENT            8
";
"SUBENT        20296006   20110611   20120705   20120704       2229
BIB                  4          5
REACTION   (1-H-1(N,EL)1-H-1,,SIG)
ANALYSIS   (INTAD) Integration of fitting coefficient
STATUS     (TABLE) Text (p334) of J.Phys.Soc.Jpn.36(1974)331
           (DEP,20296008) Fitting coefficient to angular dist.
HISTORY    (20110611C) On
ENDBIB               5
NOCOMMON             0          0
DATA                 2          1
DATA       ERR-T
MB         MB
 686.       11.
ENDDATA              3
ENDSUBENT           13
";
"SUBENT        20296007   20110611   20120705   20120704       2229
BIB                  4          4
REACTION   (1-H-1(N,EL)1-H-1,,DA,P)
MISC-COL   (MISC) Angle of counter telescope
STATUS     (TABLE) Table II of J.Phys.Soc.Jpn.36(1974)331
HISTORY    (20110611C) On
ENDBIB               4
NOCOMMON             0          0
DATA                 6          8
ANG        +ANG-RSL   -ANG-RSL   DATA       ERR-T      MISC
ADEG       ADEG       ADEG       MB/SR      MB/SR      ADEG
  4.0       2.3        2.3        238.9      4.0         0.0
 10.4       4.3        4.4        228.9      3.7        10.0
 20.1       4.3        4.4        215.2      3.7        20.0
 29.9       4.2        4.3        193.9      3.4        30.0
 39.8       3.9        3.9        167.7      3.3        40.0
 49.8       3.6        3.7        140.4      3.1        50.0
 58.8       3.2        3.3        108.4      2.8        59.0
 63.7       3.3        3.3         93.2      2.7        64.0
ENDDATA             10
ENDSUBENT           19
";
"SUBENT        20296008   20110611   20120705   20120704       2229
BIB                  4          5
REACTION   (1-H-1(N,EL)1-H-1,,DA)
MISC-COL   (MISC) Angle of counter telescope
STATUS     (TABLE) Table II of J.Phys.Soc.Jpn.36(1974)331
           (DEP,20296006) recoil proton angular distribution
HISTORY    (20110611C) On
ENDBIB               5
NOCOMMON             0          0
DATA                 6          8
ANG-CM     +ANG-RSL   -ANG-RSL   DATA-CM    ERR-T      MISC
ADEG       ADEG       ADEG       MB/SR      MB/SR      ADEG
 172.0      4.6        4.6        59.9       1.0         0.0
 159.2      8.6        8.8        58.2       0.9        10.0
 139.8      8.6        8.8        57.3       1.0        20.0
 120.1      8.4        8.6        55.9       1.0        30.0
 100.3      7.8        7.8        54.6       1.1        40.0
  80.4      7.2        7.4        54.4       1.2        50.0
  62.5      6.4        6.6        52.3       1.4        59.0
  52.5      6.6        6.6        52.6       1.5        64.0
ENDDATA             10
ENDSUBENT           20
";
"SUBENT        20296009   20110611   20120705   20120704       2229
BIB                  3          4
REACTION   (1-H-1(N,EL)1-H-1,,DA,,COS)
STATUS     (TABLE) Text (p334) of J.Phys.Soc.Jpn.36(1974)331
           (DEP,20296007) Least square fit to angular dist.
HISTORY    (20110611C) On
ENDBIB               4
NOCOMMON             0          0
DATA                 2          3
NUMBER-CM  DATA-CM
NO-DIM     MB/SR
 0.         54.1
 1.         -3.46
 2.          1.56
ENDDATA              5
ENDSUBENT           14
"].

Definition e20319 : list string := ["SUBENT        20319001     840416              20050926       0000
BIB                 14         37
INSTITUTE  (2JPNOSA)
REFERENCE  (J,PR,80,469,5011)
AUTHOR     (Y.ODA, J.SANADA, S.YAMABE)
TITLE      -ON THE ANGULAR DISTRIBUTION OF 3.1 MEV NEUTRONS
            SCATTERED BY PROTONS-
FACILITY   (CCW  )    COCKCROFT-WALTON ACCELERATOR.
INC-SOURCE (D-D  )    HEAVY WATER ICE TARGET.
SAMPLE     .PARAFFIN, WATER, RING SCATTERERS.
DETECTOR   (PROPC)    IONIZATION CHAMBER FILLED WITH METHANE.
ANALYSIS   .CROSS-SECTIONS OBTAINED BY SUBTRACTING THE
            CONTRIBUTION OF CARBON AND OXYGEN FROM THE CROSS-
            SECTIONS OF PARAFFIN AND WATER RESPECTIVELY.
MONITOR    .THE ASSUMPTION WAS MADE THAT THE IONIZATION
            CURRENT IN THE IONIZATION CHAMBER PRODUCED
            BY NEUTRONS WHICH LOST THEIR ENERGY THROUGH
            THE COLLISION WITH PROTONS, WAS PROPORTIONAL
            TO THE PRODUCT OF THE ENERGY AFTER COLLISION
            AND THE TOTAL SCATTERING CROSS SECTION OF
            NEUTRONS AT THAT ENERGY. THE TOTAL
            SCATTERING CROSS  SECTION = 2.224 +- 0.113
            BARN WAS USED, C.L.BAILEY ET AL., PHYS. REV.
            70(1946)583
FLAG       (1.) PARAFFIN SAMPLE,  50.7 GRAMS.
           (2.) PARAFFIN SAMPLE,  71.8 GRAMS.
           (3.) PARAFFIN SAMPLE,  94.9 GRAMS.
           (4.) PARAFFIN SAMPLE,  95.4 GRAMS.
           (5.) PARAFFIN SAMPLE, 141.4 GRAMS.
           (6.) WATER SAMPLE,     94.1 GRAMS.
STATUS     .DATA FROM PHYS.REV.80,469.
HISTORY    (711010C)
           (740626E)
           (840106U) A.P.T. JAPAN CODE CHANGED TO JPN
           (840106E)
ERR-ANALYS .ERROR GIVEN MAINLY FROM ERROR  OF THE TOTAL CROSS-
            SECTION USED IN THE CALCULATION OF THE SENSITIVITY
            OF THE IONIZATION CHAMBER.
           .ANGULAR RESOLUTION(C.M.) = +-10 DEGREES.
ENDBIB              37
COMMON               1          3
EN
MEV
 3.1000E+00
ENDCOMMON            3
ENDSUBENT           44
";
"SUBENT        20319002     831122              20050926       0000
BIB                  2          3
REACTION   (1-H-1(N,EL)1-H-1,,DA)
HISTORY    (711010C)
           (740626E)
ENDBIB               3
NOCOMMON             0          0
DATA                 4          6
COS-CM     DATA       DATA-ERR   FLAG
NO-DIM     MB/SR      MB/SR      NO-DIM
 7.1934E-01 1.6600E+02 2.2000E+01 1.0000E+00
 7.1934E-01 1.4600E+02 1.7000E+01 3.0000E+00
 7.1934E-01 1.5900E+02 1.9000E+01 6.0000E+00
 4.0673E-01 1.5300E+02 2.0000E+01 2.0000E+00
 4.0673E-01 1.5700E+02 1.9000E+01 5.0000E+00
 6.9750E-02 1.3600E+02 1.9000E+01 4.0000E+00
ENDDATA              8
ENDSUBENT           16
"].

Definition e20360 : list string := ["SUBENT        20360001     840109              20050926       0000
BIB                  9         19
INSTITUTE  (2UK HAR)
           (2UK QML)  FIRST 3 AUTHOR S ADDRESS.
REFERENCE  (J,NP/A,218,140,7401)
           (P,AERE-PR/NP-19,20,7209) PROGRESS REPORT
AUTHOR     (V.J.HOWARD, J.A.EDINGTON, S.S.DAS GUPTA, I.M.BLAIR,
            B.E.BONNER, F.P.BRADY, M.W.MCNAUGHTON, N.M.STEWART)
TITLE      -DIFFERENTIAL CROSS SECTIONS FOR NP AND ND ELASTIC
            SCATTERING NEAR 130 MEV.-
FACILITY   (SYNCH)    HARWELL 160 MEV SYNCHROCYCLOTRON.
INC-SOURCE (P-BE)     PROTON BERYLLIUM.
INC-SPECT  .INCIDENT NEUTRON ENERGIES WERE BETWEEN 110 MEV AND 160
            MEV, THE WEIGHTED MEAN VALUE OF INCIDENT ENERGY WAS
            129 MEV.
DETECTOR   (TELES)    SCINTILLATION COUNTER TELESCOPE TO DETECT
            THE RECOIL CHARGED PARTICLES AT BACKWARD ANGLES AND
            THE NEUTRONS AT FORWARD ANGLES.
           .ALSO FOR MONITORING TELESCOPE COUNTERS ARE USED.
HISTORY    (730301C)
           (740929E)
ENDBIB              19
COMMON               1          3
EN
MEV
 1.2900E+02
ENDCOMMON            3
ENDSUBENT           26
";
"SUBENT        20360002     840109              20050926       0000
BIB                  8         18
REACTION   (1-H-1(N,EL)1-H-1,,DA)
            SCATTERING AT BACKWARD ANGLES.
SAMPLE     .LIQUID HYDROGEN.
MONITOR    (1-H-1(N,EL)1-H-1,,DA)
            CROSS-SECTIONS WERE NORMALIZED TO THE
            ENERGY DEPENDENT SOLUTION OF THE LIVERMORE NUCLEON-
            NUCLEON PARTIAL WAVE ANALYSIS, EVALUATED AT 130 MEV.
PART-DET   (P    )    PROTONS.
STATUS     .FROM TABLE 1 OF NUCL. PHYS.,A218(1974)140.
HISTORY    (740301C)
           (740929E)
CORRECTION .CORRECTED FOR RESCATTERING.
ERR-ANALYS .TOTAL ERRORS ARE GIVEN, STATISTICAL ERRORS ON COUNTING
            WERE 0.6 PERC.  MUCH LARGER CONTRIBUTION, OF 2 PERC.
            OR MORE, CAME FROM UNCERTAINTY IN DEFINING THE
            SAME RANGE OF INCIDENT ENERGY AT EACH ANGLE.
           .ALLOWING FOR UNCERTAINTIES IN PHASE SHIFTS THEMSELVES,
            OVER ALL ERROR IS ESTIMATED TO BE +- 7 PERCENT.
ENDBIB              18
NOCOMMON             0          0
DATA                 3         16
COS-CM     DATA       DATA-ERR
NO-DIM     MB/SR      MB/SR
-9.7553E-01 1.0990E+01 2.4000E-01
-9.4721E-01 9.6800E+00 2.2000E-01
-9.0704E-01 8.4500E+00 1.8000E-01
-8.5626E-01 7.4300E+00 1.4000E-01
-7.9863E-01 6.5900E+00 1.4000E-01
-7.3373E-01 5.9200E+00 1.2000E-01
-6.5737E-01 5.3500E+00 1.2000E-01
-5.7214E-01 4.6700E+00 1.1000E-01
-4.7715E-01 4.2500E+00 1.1000E-01
-3.7622E-01 3.7700E+00 1.4000E-01
-2.7563E-01 3.3600E+00 1.2000E-01
-1.7192E-01 3.0000E+00 1.1000E-01
-6.9750E-02 2.7500E+00 1.0000E-01
 3.3150E-02 2.6200E+00 9.0000E-02
 1.3744E-01 2.5400E+00 9.0000E-02
 2.3853E-01 2.6800E+00 1.1000E-01
ENDDATA             18
ENDSUBENT           41
";
"SUBENT        20360003     840109              20050926       0000
BIB                  8         19
REACTION   (1-H-1(N,EL)1-H-1,,DA)
            SCATTERING AT FORWARD ANGLES.
SAMPLE     .HYDROCARBON WITH SCINTILLATING ADDITIVE,
            NE102A (C-H(1.1))*X,  NE228 (C-H(2))*X.
MONITOR    (1-H-1(N,EL)1-H-1,,DA)
            CROSS-SECTIONS WERE NORMALIZED TO THE
            ENERGY DEPENDENT SOLUTION OF THE LIVERMORE NUCLEON-
            NUCLEON PARTIAL WAVE ANALYSIS, EVALUATED AT 130 MEV.
PART-DET   (N    )    NEUTRONS.
STATUS     .FROM TABLE 1 OF NUCL. PHYS.,A218(1974)140.
HISTORY    (740301C)
           (740929E)
CORRECTION .CORRECTED FOR RESCATTERING AND FOR THE VARIATION OF
            THE NEUTRON DETECTOR EFFICIENCY WITH ENERGY.
           .BACKGROUND FROM CARBON AND FROM ACCIDENTAL
            COINCIDENCES (15 PERC.) SUBTRACTED.
ERR-ANALYS .TOTAL ERRORS ARE GIVEN, COUNTING ERROR WAS 3 PERC.,
            ERROR IN SUBTRACTION PROCEDURE BETWEEN 10 TO 20 PERC..
           .OVERALL NORMALIZATION ERROR OF +- 16 PERCENT.
ENDBIB              19
NOCOMMON             0          0
DATA                 3          9
COS-CM     DATA       DATA-ERR
NO-DIM     MB/SR      MB/SR
-3.4890E-02 3.3300E+00 5.3000E-01
 1.4781E-01 2.8000E+00 5.7000E-01
 2.5207E-01 2.5500E+00 6.0000E-01
 3.5184E-01 2.3900E+00 5.3000E-01
 4.4619E-01 2.4100E+00 6.4000E-01
 5.4170E-01 3.2900E+00 5.7000E-01
 6.2796E-01 4.7300E+00 6.4000E-01
 7.0834E-01 4.9800E+00 5.5000E-01
 8.4245E-01 6.1800E+00 6.5000E-01
ENDDATA             11
ENDSUBENT           35
";
"SUBENT        20360004     840109              20050926       0000
BIB                  8         21
REACTION   (1-H-2(N,EL)1-H-2,,DA)
            SCATTERING AT BACKWARD ANGLES.
SAMPLE     .LIQUID DEUTERIUM TARGET.
MONITOR    (1-H-1(N,EL)1-H-1,,SIG)
               CROSS-SECTIONS WERE GOT BY NORMALIZING
            THE CORRECTED NUMBER OF COUNTS TO A FIXED NUMBER OF
            COUNTS IN THE MONITOR TELESCOPE (BY USING N-P CROSS
            SECTION).
PART-DET   (D    )    DEUTERONS.
STATUS     .FROM TABLE 2 OF NUCL. PHYS.,A218(1974)140.
HISTORY    (740301C)
           (740929E)
CORRECTION .CORRECTED FOR RESCATTERING AND FOR LOSS OF DEUTERONS
            DUE TO NUCLEAR INTERACTIONS IN THE TOTAL ENERGY
            COUNTER OF THE TELESCOPE.
ERR-ANALYS .TOTAL ERRORS ARE GIVEN, ERROR TO COUNTING STATISTICS
            OF 3 PERC., IN DEFINITION OF RANGE OF INCIDENT ENERGY
            1 PERC., AND ERROR OF 2 PERC. FOR BOTH RE-SCATTERING
            CORRECTIONS AND EFFECT OF NUCLEAR INTERACTIONS IN
            THE TOTAL ENERGY COUNTER OF THE TELESCOPE.
           .OVERALL NORMALIZATION ERROR IS +- 7 PERCENT.
ENDBIB              21
NOCOMMON             0          0
DATA                 3         12
COS-CM     DATA       DATA-ERR
NO-DIM     MB/SR      MB/SR
-9.7814E-01 1.4000E+00 4.0000E-02
-9.4551E-01 1.0300E+00 4.0000E-02
-9.1354E-01 7.5000E-01 3.0000E-02
-8.6602E-01 5.4000E-01 2.0000E-02
-8.0901E-01 4.5000E-01 2.0000E-02
-7.3727E-01 4.2000E-01 2.0000E-02
-4.9242E-01 3.0000E-01 2.0000E-02
-4.0673E-01 3.1000E-01 2.0000E-02
-3.0901E-01 3.2000E-01 2.0000E-02
-1.9080E-01 3.5000E-01 2.0000E-02
-9.5840E-02 3.9000E-01 2.0000E-02
 8.7200E-03 3.8000E-01 2.0000E-02
ENDDATA             14
ENDSUBENT           40
";
"SUBENT        20360005     840109              20050926       0000
BIB                  8         21
REACTION   (1-H-2(N,EL)1-H-2,,DA)
            SCATTERING AT FORWARD ANGLES.
SAMPLE      HYDROCARBON MATERIAL WITH SCINTILLATING ADDITIVE,
            NE232 DEUTERATED CYCLOHEXANE C(6)-D(12).
MONITOR    (1-H-1(N,EL)1-H-1,,SIG)
               CROSS-SECTIONS WERE GOT BY NORMALIZING
            TO COUNTS IN THE MONITOR TELESCOPE (AND HENCE TO N-P
            CROSS-SECTION).
PART-DET   (N    )    NEUTRONS.
STATUS     .FROM TABLE 2 OF NUCL. PHYS.,A218(1974)140.
HISTORY    (740301C)
           (740929E)
CORRECTION .CORRECTED FOR RESCATTERING AND FOR THE VARIATION OF
            THE NEUTRON DETECTOR EFFICIENCY WITH ENERGY.
           .BACKGROUND FROM CARBON AND FROM ACCIDENTAL
            COINCIDENCES (50 PERC.) SUBTRACTED.
           .THE DISTRIBUTION FROM THE N(D,NP)N PROCESS HAD TO BE
            EXTRAPOLATED UNDER THE ELASTIC PEAK AND SUBTRACTED.
ERR-ANALYS .TOTAL ERRORS ARE GIVEN. ESTIMATED UNCERTAINTIES IN
            THE SUBTRACTION PROCEDURES WERE 5 TO 10 PERCENT.
           .OVERALL NORMALIZATION ERROR IS +- 16 PERCENT.
ENDBIB              21
NOCOMMON             0          0
DATA                 3          5
COS-CM     DATA       DATA-ERR
NO-DIM     MB/SR      MB/SR
-3.4202E-01 2.6000E-01 3.0000E-02
-1.2187E-01 3.6000E-01 5.0000E-02
 4.0673E-01 5.5000E-01 7.0000E-02
 6.5606E-01 8.5000E-01 9.0000E-02
 8.6163E-01 4.0100E+00 4.0000E-01
ENDDATA              7
ENDSUBENT           33
"].

Definition e20389 : list string := ["SUBENT        20389001   20051121   20060202   20051225       2174
BIB                 12         22
INSTITUTE  (2ZZZGEL)
REFERENCE  (J,PL/B,29,562,196908)
           (W,LISKIEN,197009) Data
AUTHOR     (A.Paulsen, H.Liskien)
TITLE      -Search for a fluctuating anisotropy in the N-P
            scattering process at a few MeV neutron energies.-
FACILITY   (VDG)      Van de Graaff accelerator.
INC-SOURCE (P-T)      T(P,N)He3 reaction for e(N) = 1.2 to 2.2 MeV
           (D-D)      D(d,N)He3 reaction for e(N) = 3.8 to 6.2 MeV
INC-SPECT   Neutron energy spread due to target thickness is less
            than 5 per-cent.
METHOD     .Counter ratio, the ratio of differential N-P
            scattering cross sections at C.M. Angles 10 and 45 deg
            by means of a recoil proton telescope.
DETECTOR   (TELES)    Telescope counter.
           (PROPC)    Recoil proportinal counter.
MONITOR    .Ratio.
HISTORY    (19711209C)
           (19741011E)
           (20051110A) Date is corrected. Headings changed
           (20051121U) Last checking has been done.
ERR-ANALYS (ERR-T) Total experimental uncertainties of 3 percent.
ENDBIB              22
NOCOMMON             0          0
ENDSUBENT           25
";
"SUBENT        20389002   20051121   20060202   20051225       2174
BIB                  5         13
REACTION   ((1-H-1(N,EL)1-H-1,,DA)//(1-H-1(N,EL)1-H-1,,DA))
            Ratio of the differential C.M.Scattering at C.M.Angles
            10 deg and 45 deg.
PART-DET   (P)        Protons.
COMMENT     If the fluctuations in the total N-P scattering cross-
            sections really exist, they are not caused by a
            fluctuating strong anisotropy for forward scattered
            protons.
STATUS     .Data from liskien, 09/03/70.
HISTORY    (19711209C)
           (19741011E)
           (20051110A)   Data headings changed
           (20051121U) Last checking has been done.
ENDBIB              13
COMMON               2          3
ANG-CM-NM  ANG-CM-DN
ADEG       ADEG
     1.E+01    4.5E+01
ENDCOMMON            3
DATA                 4         36
EN         EN-RSL     DATA       ERR-T
MEV        PER-CENT   NO-DIM     PER-CENT
        1.2        2.5   9.54E-01         3.
        1.3        2.5   9.86E-01         3.
        1.4        2.5   9.35E-01         3.
        1.5        2.5      1.038         3.
        1.6        2.5    9.8E-01         3.
        1.7        2.5      1.009         3.
        1.8        2.5      1.026         3.
        1.9        2.5   9.87E-01         3.
         2.        2.5   9.82E-01         3.
        2.1        2.5      1.008         3.
        2.2        2.5      1.007         3.
        3.8        2.5   9.79E-01         3.
        3.9        2.5    9.9E-01         3.
         4.        2.5   9.77E-01         3.
        4.1        2.5      1.011         3.
        4.2        2.5   9.77E-01         3.
        4.3        2.5   9.69E-01         3.
        4.4        2.5   9.75E-01         3.
        4.5        2.5   9.86E-01         3.
        4.6        2.5      1.022         3.
        4.7        2.5   9.83E-01         3.
        4.8        2.5      1.002         3.
        4.9        2.5   9.94E-01         3.
         5.        2.5   9.93E-01         3.
        5.1        2.5   9.76E-01         3.
        5.2        2.5    9.8E-01         3.
        5.3        2.5      1.022         3.
        5.4        2.5      1.044         3.
        5.5        2.5   9.92E-01         3.
        5.6        2.5      1.002         3.
        5.7        2.5      1.006         3.
        5.8        2.5   9.93E-01         3.
        5.9        2.5         1.         3.
         6.        2.5   9.95E-01         3.
        6.1        2.5       1.02         3.
        6.2        2.5    9.8E-01         3.
ENDDATA             38
ENDSUBENT           60
";
"SUBENT        20389003   20051121   20060202   20051225       2174
BIB                  5         13
REACTION   ((1-H-1(N,EL)1-H-1,,DA,,AV)//
           (1-H-1(N,EL)1-H-1,,DA,,AV))  Averaged over energy
            interval ratio of the differential C.M.Scattering at
            C.M.Angles 10 deg and 45 deg.
PART-DET   (P)        Protons.
COMMENT     If the fluctuations in the total N-P scattering cross-
            sections really exist, they are not caused by a
            fluctuating strong anisotropy for forward scattered
            protons.
STATUS     .Data from liskien, 09/03/70.
HISTORY    (19711209C)
           (19741011E)
           (20051121U) Last checking has been done.
ENDBIB              13
COMMON               2          3
ANG-CM-NM  ANG-CM-DN
ADEG       ADEG
     1.E+01    4.5E+01
ENDCOMMON            3
DATA                 4          2
EN-MAX     EN-MIN     DATA       ERR-T
MEV        MEV        NO-DIM     PER-CENT
        2.2        1.2   9.92E-01         3.
        6.2        3.8   9.95E-01         3.
ENDDATA              4
ENDSUBENT           26
"].

Definition e20404 : list string := ["SUBENT        20404001   20110611   20120705   20120704       2229
BIB                 13         25
TITLE      On the differential cross section for neutron-proton
            scattering at 14.1 MeV
INSTITUTE  (2JPNYOK)
REFERENCE  (J,JPJ,36,331,1974)
AUTHOR     (S.Shirato, K.Saitoh)
FACILITY   (CCW,2JPNYOK)
INC-SOURCE (D-T) Ti-T target
SAMPLE     8.29+/-0.03 mg/cm2 polyethylene, purity 1H/C=1.9999
DETECTOR   (TELES) 3 proportional and 1 Si(Li) counter telescope
PART-DET   (P)
METHOD     (ASSOP)
REL-REF    (O,20296001,S.Shirato+,J,JPJ,36,331,1974)
            Experimental result with another (CH2)n radiator
            (5.34 +/- 0.05 mg/cm2)
           (I,20296001,M.Tanaka+,J,JPJ,28,11,1970)
            Experimental geometry
CORRECTION Correction to obtain the next neutron flux:
           - attenuation of 14.1 MeV incident neutrons by the
             T-Ti-Cu base, two apparatus walls, the telescope
             wall and radiator base
           - elastic in-scattering of neutrons by scatterers
           - counting of alpha-monitor (p-n junction Si-detector
             with a collimator of 2 mm in diameter) for alpha
             counting
HISTORY    (20110611C) On
ENDBIB              25
COMMON               1          3
EN
MEV
 14.1
ENDCOMMON            3
ENDSUBENT           32
";
"SUBENT        20404002   20110611   20120705   20120704       2229
BIB                  4         10
REACTION   (1-H-1(N,EL)1-H-1,,DA,P)
REL-REF    (A,20296007,S.Shirato+,J,JPJ,36,331,1974)
            238.9+/-4.0 mb/sr
ERR-ANALYS (ERR-T) Over-all error consists of
           (ERR-S) Statistical error                 (1.0%)
           (ERR-SYS) Total systematic uncertainty    (1.3%)
           (ERR-1) Uncertainty in radiator thickness (0.25%)
           (ERR-2) Uncertainty in geometry           (0.7%)
           (ERR-3) Neutron flux                      (1.1%)
STATUS     (TABLE) Text (p.334) of J.Phys.Soc.Jpn.36(1974)331
ENDBIB              10
COMMON               5          3
ERR-S      ERR-SYS    ERR-1      ERR-2      ERR-3
PER-CENT   PER-CENT   PER-CENT   PER-CENT   PER-CENT
 1.0        1.3        0.25       0.7        1.1
ENDCOMMON            3
DATA                 3          1
ANG        DATA       ERR-T
ADEG       MB/SR      MB/SR
 4.0        241.4      3.9
ENDDATA              3
ENDSUBENT           22
"].

Definition e20778 : list string := ["SUBENT        20778001     840207              20050926       0000
BIB                 16         36
INSTITUTE  (2UK HAR)
REFERENCE  (J,NP/A,299,365,7805) COMMENTS, CURVES AND TABLES
            ARE GIVEN.
           (W,COOKSON,780427) ATTACHED SPECIAL FORM AND PREPRINT
            OF NUCL. PHYS. A299,1978,365.
AUTHOR     (J.A.COOKSON,J.L.FOWLER,M.HUSSAIN,R.B.SCHWARTZ,
            C.A.UTTLEY)
TITLE      -THE ANGULAR DISTRIBUTION OF NEUTRON SCATTERING FROM
            HYDROGEN AT 27.3 MEV -
FACILITY   (VDGT ) 7 MV ACCELERATOR PRODUCING 10 MEV DEUTERONS.
INC-SOURCE (D-T  ) MONOENERGETIC NEUTRONS.
SAMPLE     .HYDROGEN IN A NE 102A PLASTIC SCINTILLATOR 30 MM
            HIGH, 30 MM IN DIAMETER.
METHOD     (TOF  )
DETECTOR   (SCIN ) NE 102A PLASTIC SCINTILLATOR 25.4 MM THICK
            101.6 MM IN DIAMETER.
ANALYSIS   .PLAYBACK OF EVENT-BY-EVENT RECORDING.
PART-DET   (N    )
COMMENT    .RESULTS COMBINED WITH DATA OF BURROWS (PHYS.REV.C7,
            (1973),1306) AND COMPARED WITH PREDICTIONS.
            BETTER AGREEMENT WITH PREDICTIONS FROM PHASE-SHIFT
            ANALYSES (ARNDT ET AL.,PHYS.REV. C15,1977,1002,
            HOPKINS AND BREIT, NUCL.DATA TABLES A9,1971,137,
            BOHANNON ET AL., PHYS.REV. C13,1976,1816) THAN WITH
            THOSE FROM MESON-THEORETICAL MODELS (BINSTOCK, PHYS.
            REV. C10,1974,19) .
STATUS     (APRVD) DATA TAKEN FROM NUCL.PHYS.A299,1978,365.
HISTORY    (780508C)
           (781213E)
CORRECTION .RECOIL PROTONS LOST FROM THE SCATTERER.
           .BACKGROUND, INCLUDING EFFECT OF INELASTIC SCATTERING
            FROM C-12.
           .MULTIPLE SCATTERING CORRECTED USING MONTE CARLO
            PROGRAM MAGGIE.
           .EFFECT OF SHADOW BAR SCATTERING.
ERR-ANALYS .STATISTICAL ERROR GIVEN.
ENDBIB              36
NOCOMMON             0          0
ENDSUBENT           39
";
"SUBENT        20778002     840207              20050926       0000
BIB                  1          1
REACTION   (1-H-1(N,EL)1-H-1,,DA,,RSD)
ENDBIB               1
COMMON               1          3
EN
MEV
 2.7300E+01
ENDCOMMON            3
DATA                 3          7
ANG-CM     DATA       DATA-ERR
ADEG       NO-DIM     NO-DIM
 3.4300E+01 1.0370E+00 2.5000E-02
 5.3600E+01 1.0020E+00 2.4000E-02
 6.6800E+01 1.0040E+00 2.3000E-02
 7.8900E+01 9.8900E-01 2.2000E-02
 9.0500E+01 9.8700E-01 2.5000E-02
 1.0210E+02 1.0420E+00 2.0000E-02
 1.1630E+02 1.0400E+00 3.0000E-02
ENDDATA              9
ENDSUBENT           19
"].

Definition e21223 : list string := ["SUBENT        21223001     800908              20050926       0000
BIB                 12         14
INSTITUTE  (2FR SAC)
REFERENCE  (R,CEA-2002,6102)
AUTHOR     (F.CAMBOU)
TITLE      -ELASTIC SCATTERING ANGULAR DISTRIBUTIONS ON HYDROGEN
            AND TRITIUM -.
FACILITY   (CCW  ) COCKCROFT-WALTON ACCELERATOR.
INC-SOURCE (D-T  ) DEUTERIUM BEAM ON TRITIUM TARGET.
SAMPLE     .POLYETHYLENE SCATTERER.
METHOD     (ASSOP) ASSOCIATED PARTICLE TECHNIQUE.
DETECTOR   (CSICR) CSI(TL) CRYSTAL DETECTOR.
STATUS     (NDD  ) DATA ORIGINALLY READ FROM GRAPH.
HISTORY    (800108T)
           (800118E)
ERR-ANALYS .NO DETAILS.
ENDBIB              14
COMMON               1          3
EN
MEV
 1.4580E+01
ENDCOMMON            3
ENDSUBENT           21
";
"SUBENT        21223002     800118              20050926       0000
BIB                  3          4
REACTION   (1-H-1(N,EL)1-H-1,,DA) ELASTIC ANGULAR DISTRIBUTION
ANALYSIS   .FORM OF ANGULAR DISTRIBUTION DERIVED FROM THE
            SPECTRUM OF RECOIL PROTONS.
STATUS     (NDD  )
ENDBIB               4
NOCOMMON             0          0
DATA                 2         25
COS-CM     DATA
NO-DIM     MB/SR
-9.0600E-01 5.4800E+01
-8.6400E-01 5.4600E+01
-8.1700E-01 5.4000E+01
-7.7100E-01 5.3500E+01
-6.9800E-01 5.3200E+01
-6.5200E-01 5.2700E+01
-5.7100E-01 5.2600E+01
-5.0600E-01 5.2100E+01
-4.3700E-01 5.2100E+01
-3.8100E-01 5.1900E+01
-3.0900E-01 5.2800E+01
-2.3400E-01 5.1900E+01
-1.7900E-01 5.1800E+01
-1.3900E-01 5.1600E+01
-9.5000E-02 5.1600E+01
-4.7000E-02 5.1500E+01
-5.0000E-03 5.1500E+01
 3.2000E-02 5.1500E+01
 7.2000E-02 5.1500E+01
 1.2400E-01 5.1500E+01
 1.7400E-01 5.1500E+01
 2.1600E-01 5.1500E+01
 2.5000E-01 5.2500E+01
 2.9100E-01 5.1600E+01
 3.3300E-01 5.2600E+01
ENDDATA             27
ENDSUBENT           36
";
"SUBENT        21223003     800908              20050926       0000
BIB                  2          4
REACTION   (1-H-1(N,EL)1-H-1,,DA,,LEG) LEGENDRE FIT COEFFICIENTS
            TO ELASTIC ANGULAR DISTRIBUTION.
STATUS     (NDD  )
           (DEP,21223002)
ENDBIB               4
NOCOMMON             0          0
DATA                 2          2
NUMBER     DATA
NO-DIM     NO-DIM
 1.0000E+00 3.4000E-02
 2.0000E+00 4.2000E-02
ENDDATA              4
ENDSUBENT           13
";
"SUBENT        21223004     800118              20050926       0000
BIB                  3          5
REACTION   (1-H-3(N,EL)1-H-3,,DA)
            ELASTIC ANGULAR DISTRIBUTION.
ANALYSIS   .FORM OF ANGULAR DISTRIBUTION DERIVED FROM THE
            SPECTRUM OF TRITIUM RECOILS.
STATUS     (NDD  )
ENDBIB               5
NOCOMMON             0          0
DATA                 2         28
COS-CM     DATA
NO-DIM     MB/SR
-1.0000E+00 7.0200E+01
-9.9900E-01 6.4200E+01
-9.9600E-01 5.8200E+01
-9.8800E-01 5.2900E+01
-9.8000E-01 4.7800E+01
-9.6500E-01 4.2100E+01
-9.5300E-01 3.7200E+01
-9.1900E-01 3.2100E+01
-8.7600E-01 2.6700E+01
-8.3800E-01 2.1900E+01
-8.0500E-01 1.8500E+01
-7.6800E-01 1.3600E+01
-7.1100E-01 1.0200E+01
-6.5700E-01 7.2000E+00
-6.1700E-01 4.3000E+00
-5.6500E-01 2.5000E+00
-5.0200E-01 2.0000E+00
-4.3500E-01 2.6000E+00
-3.7200E-01 2.5000E+00
-2.9200E-01 1.9000E+00
-2.2900E-01 1.9000E+00
-1.5300E-01 2.7000E+00
-9.2000E-02 5.6000E+00
-2.2000E-02 8.7000E+00
 4.7000E-02 1.1400E+01
 1.1100E-01 1.5900E+01
 1.7900E-01 1.9800E+01
 2.3300E-01 2.3500E+01
ENDDATA             30
ENDSUBENT           40
"].

Definition e21365 : list string := ["SUBENT        21365001     801104              20050926       0000
BIB                 16         49
INSTITUTE  (2UK HAR)
REFERENCE  (J,PPS/A,69,760,56)
AUTHOR     (T.C.RANDLE,D.M.SKYRME,M.SNOWDEN,A.E.TAYLOR,F.URIDGE,
            E.WOOD)
TITLE      -THE SCATTERING OF 130 MEV NEUTRONS BY PROTONS.-
FACILITY   (CYCLO,2UK HAR) 110. IN. SYNCHROCYCLOTRON.
INC-SOURCE (P-LI7) AND
           (P-D  ) , LITIUM-DEUTERIDE TARGET.
INC-SPECT  INCOMING SPECTRUM OF NEUTRONS BY A PROTON
            BEAM STRIKING A LI7-DEUTERIDE TARGET, FILTERED
            AFTERWARDS BY 22 IN. POLYETHYLENE TO OBTAIN
            RELATIVELY MORE NEUTRONS OF HIGHER ENERGIES. AVERAGE
            ENERGY MEASURED IN SEPARATE EXPERIMENT IS 130. MEV.
SAMPLE     .H(2) GAS OF THE CLOUD CHAMBER, IN THE ANGULAR
            DISTRIBUTION MEASUREMENTS.
           .GRAPHITE AND POLYETHYLENE SCATTERERS IN THE
            MEASUREMENTS TO DETERMINE THE INCOMING NEUTRON FLUX.
METHOD     (ASSOP) ANALYSIS OF THE RECOIL PROTON TRACKS
            IN THE MEASUREMENT OF THE ANGULAR DISTRIBUTION,
            MEASUREMENT OF THE RECOIL PROTON SPECTRA IN THE
            DETERMINATION OF THE INCOMING NEUTRON SPECTRUM.
DETECTOR   (TRD  ) 18 IN. DIFFUSION CLOUD CHAMBER, CONTAINING
            H(2) AT A PRESSURE OF 288 LB/CM*CM. CLOUD CHAMBER
            DESCRIBED BY M.SNOWDEN,1953, PROGR.NUCL.PHYS.,3,1,
            2 HELMHOLTZ COILS PRODUCED A VERTICAL MAGNETIC FIELD
            OF 12000 OERSTED UNIFORM TO 1.5 PERCENT OVER THE
            SENSITIVE AREA.
            (FOR THE ANGULAR DISTRIBUTION MEASUREMENT).
           (TELES,SCIN,SCIN) DOUBLE COINCIDENCE SCINTILLATION
            COUNTER TELESCOPE, CALLIBRATED IN THE EXTERNAL
            PROTON BEAM OF THE CYCLOTRON (FOR THE MEASUREMENT
            OF THE INCOMING NEUTRON SPECTRUM).
MONITOR    (1-H-1(N,EL)1-H-1,,SIG,,SPA)
COMMENT    .ASSYMETRY OF THE SCATTERING ANGLE DISTRIBUTION
            IMPLIES THAT THE N-P INTERACTION CANNOT BE DESCRIBED
            BY A SERBE FORCE.
STATUS     (NDD  ) DATA TAKEN FROM NEUDADA.
HISTORY    (800218T) G.C.
           (800222E)
CORRECTION .BACKGROUND DUE TO UNCOLLIMATED NEUTRONS, MAX. 2.6
            PERCENT.
           .BG BY SCATTERING FROM C AND O (OF THE METHYL ALCOHOL
            VAPOUR IN THE CLOUD CHAMBER) WAS ESTABLISHED TO BE
            NEGLIGLIBLE (LESS THAN 1.5 PERCENT).
ERR-ANALYS .10 PERCENT ERROR TO COUNTING STATISTICS, 4 PERCENT
            FROM NORMALIZATION (THIS ERROR DOES NOT CHANGE THE
            SHAPE OF THE DIFFERENTIAL CROSS SECTION CURVE)
           .ERROR GIVEN IS THE TOTAL STATISTICAL ERROR.
           .1 PERCENT ERROR ON SCATTERING ANGLE IN C.M.S..
ENDBIB              49
COMMON               2          3
EN-DUMMY   MONIT
MEV        MB
 1.3000E+02 5.5200E+01
ENDCOMMON            3
ENDSUBENT           56
";
"SUBENT        21365002     800222              20050926       0000
BIB                  2          2
REACTION   (1-H-1(N,EL)1-H-1,,DA,,SPA)
STATUS     (NDD  ) DATA TAKEN FROM NEUDADA.
ENDBIB               2
NOCOMMON             0          0
DATA                 4         14
ANG-MIN    ANG-MAX    DATA       DATA-ERR
ADEG       ADEG       MB/SR      MB/SR
 2.0000E+01 3.0000E+01 6.5500E+00 7.5000E-01
 3.0000E+01 4.0000E+01 5.5800E+00 5.9000E-01
 4.0000E+01 5.0000E+01 3.8600E+00 4.4000E-01
 5.0000E+01 6.0000E+01 3.3100E+00 3.8000E-01
 6.0000E+01 7.0000E+01 2.4500E+00 3.1000E-01
 7.0000E+01 8.0000E+01 2.9600E+00 3.3000E-01
 8.0000E+01 9.0000E+01 2.6400E+00 3.1000E-01
 9.0000E+01 1.0000E+02 2.5400E+00 3.0000E-01
 1.0000E+02 1.1000E+02 3.1300E+00 3.4000E-01
 1.1000E+02 1.2000E+02 3.8000E+00 3.9000E-01
 1.2000E+02 1.3000E+02 5.3100E+00 4.8000E-01
 1.3000E+02 1.4000E+02 5.2300E+00 5.1000E-01
 1.4000E+02 1.5000E+02 6.1300E+00 6.2000E-01
 1.5000E+02 1.6000E+02 8.7500E+00 8.7000E-01
ENDDATA             16
ENDSUBENT           23
"].

Definition e21367 : list string := ["SUBENT        21367001     801104              20050926       0000
BIB                 14         39
INSTITUTE  (2UK LON)
REFERENCE  (J,PPS,71,305,58)
AUTHOR     (T.C.GRIFFITH,A.P.BANFORD,M.Y.UPPAL,W.S.C.WILLIAMS)
TITLE      -NEUTRON-PROTON SCATTERING IN THE ENERGY RANGE 70 TO
            170 MEV.-
FACILITY   (CYCLO,2UK HAR) SYNCHROCYCLOTRON.
INC-SOURCE (P-BE ) PROTRON BEAM FROM CYCLOTRON STRIKING A
            BERYLLIUM TARGET, 0.25 IN. THICK. OUTCOMING NEUTRONS
            FILTERED WITH 40 G/CM*CM POLYETHYLENE TO HAVE
            RELATIVELY MORE HIGHER ENERGY NEUTRONS.
SAMPLE     .POLYETHYLENE (PURE (C-H(2))N), SHEET OF 5 IN. LONG,
            1.5 IN. WIDE AND 10.54+-0.01 MG/CM*CM THICK.
           .CARBON TARGET PREPARED BY THE DRYING OUT OF AQUADAG,
            DILUTED WITH WATER, IN A METAL MOULD, 13.62+-0.03
            MG/CM*CM THICK, COMPOSITION 93.4 PERC. CARBON, 1 PERC
            HYDROGEN, 5-6 PERC OXYGEN+NITROGEN.
METHOD     (ASSOP) PROTON RECOIL PARTICLES MEASURED AT DIFFERENT
            ANGLES. PROTON CROSS SECTIONS DETERMINED BY MAKING
            THE DIFFERENCE BETWEEN A MEASUREMENT ON POLYETHYLENE
            AND A MEASUREMENT ON CARBON.
DETECTOR   (PLATE) PHOTOGRAPHIC EMULSIONS. COATED ON GLASS PLATES
            OF 1.5 MM THICKNESS, 4 IN. LENGTH AND 3 IN. WIDTH, 60
            MICRON THICK ILFORD C2 WITH A SUPERCOAT OF G5
            EMULSION OF 25 MICRON THICKNESS. EXTRA PLASTICIZERS
            WERE ADDED IN ORDER TO PREVENT DISTORTION. ALUMINIUM
            ABSORBERS WERE USED IN FRONT OF THE DETECTORS TO MAKE
            THE RECOILS TO BE STOPPED WITHIN THE FILMS.
MONITOR    (1-H-1(N,EL)1-H-1,,DA,,SPA) AT 62.5 DEGREES. THIS
            VALUE WAS CALCULATED USING THE DATA FOR THE REACTION
            (1-H-1(N,EL)1-H-1,,DA) AT DIFFERENT ENERGIES, INTER-
            POLATED FROM 5 REFERENCES, AND THE MEASURED SHAPE OF
            THE INCOMING NEUTRON SPECTRUM.
STATUS     (NDD  ) DATA TAKEN FROM NEUDADA.
HISTORY    (800219T) G.C.
           (800222E)
CORRECTION .BACKGROUND FROM N-INDUCED STARS IN THE MATERIAL
            AROUND THE CAMERAS AND FROM COSMIC RAY PARTICLES.
            ALSO CORRECTIONS FOR ENERGY LOSS IN THE TARGET FILMS.
ERR-ANALYS .DETAILED ERROR ANALYSIS GIVEN. SEE TEXT.
ENDBIB              39
NOCOMMON             0          0
ENDSUBENT           42
";
"SUBENT        21367002     801104              20050926       0000
BIB                  4          6
REACTION   (1-H-1(N,EL)1-H-1,,DA,,SPA)
INC-SPECT  DESCRIBED UNDER N-SOURCE, ENERGIES BETWEEN
            120. AND 170.MEV CONSIDERED, EFFECTIVE ENERGY 137+-
            5 MEV.
METHOD     .DATA TAKEN AT 54. DEGR. RECOIL ANGLE.
STATUS     (NDD  ) DATA TAKEN FROM NEUDADA.
ENDBIB               6
COMMON               1          3
EN-DUMMY
MEV
 1.3700E+02
ENDCOMMON            3
DATA                 4          5
ANG-MIN    ANG-MAX    DATA       DATA-ERR
ADEG       ADEG       MB/SR      MB/SR
 5.7500E+01 6.2500E+01 2.8500E+00 4.5000E-01
 6.2500E+01 6.7500E+01 3.6300E+00 4.0000E-01
 6.7500E+01 7.2500E+01 4.3500E+00 4.0000E-01
 7.2500E+01 7.7500E+01 5.4100E+00 5.2000E-01
 7.7500E+01 8.2500E+01 6.6500E+00 1.3000E+00
ENDDATA              7
ENDSUBENT           22
";
"SUBENT        21367003     801104              20050926       0000
BIB                  4          5
REACTION   (1-H-1(N,EL)1-H-1,,DA,,SPA)
INC-SPECT  DESCRIBED UNDER N-SOURCE, ENERGIES SELECTED
            BETWEEN 70. AND 120. MEV. EFFECTIVE ENERGY 96+-4 MEV.
METHOD     .DATA TAKEN AT 54. DEGR. RECOIL ANGLE.
STATUS     (NDD  ) DATA TAKEN FROM NEUDADA.
ENDBIB               5
COMMON               1          3
EN-DUMMY
MEV
 9.6000E+01
ENDCOMMON            3
DATA                 4          4
ANG-MIN    ANG-MAX    DATA       DATA-ERR
ADEG       ADEG       MB/SR      MB/SR
 5.7500E+01 6.2500E+01 5.2000E+00 8.5000E-01
 6.2500E+01 6.7500E+01 6.0000E+00 7.5000E-01
 6.7500E+01 7.2500E+01 7.6500E+00 7.0000E-01
 7.2500E+01 7.7500E+01 9.0000E+00 1.3000E+00
ENDDATA              6
ENDSUBENT           20
";
"SUBENT        21367004     801104              20050926       0000
BIB                  5         11
REACTION   (1-H-1(N,EL)1-H-1,,DA,,SPA)
INC-SPECT  DESCRIBED UNDER N-SOURCE. ENERGIES SELECTED
            BETWEEN 100. AND 170. MEV. EFFECTIVE ENERGY 130+-5
            MEV.
COMMENT    .THE INDEPENDENT DATA AT 54. AND 44. RECOIL ANGLE
            ARE IN GOOD AGREEMENT WITH EACH OTHER (CASE FLAG=3.0)
FLAG       (1.) DATA TAKEN AT RECOIL ANGLE OF 44 DEGREES.
           (2.) DATA TAKEN AT RECOIL ANGLE OF 54 DEGREES.
           (3.) DATA TAKEN FROM MEASUREMENTS BOTH AT 44. AND 54.
            DEGREES PROTON RECOIL ANGLE.
STATUS     (NDD  ) DATA TAKEN FROM NEUDADA.
ENDBIB              11
COMMON               1          3
EN-DUMMY
MEV
 1.3000E+02
ENDCOMMON            3
DATA                 5          7
ANG-MIN    ANG-MAX    DATA       DATA-ERR   FLAG
ADEG       ADEG       MB/SR      MB/SR      NO-DIM
 4.7500E+01 5.2500E+01 2.6000E+00 7.0000E-01 1.0000E+00
 5.2500E+01 5.7500E+01 2.8900E+00 5.1000E-01 1.0000E+00
 5.7500E+01 6.2500E+01 2.9600E+00 3.4000E-01 3.0000E+00
 6.2500E+01 6.7500E+01 3.8200E+00 3.2000E-01 3.0000E+00
 6.7500E+01 7.2500E+01 4.5500E+00 3.7000E-01 2.0000E+00
 7.2500E+01 7.7500E+01 5.5600E+00 4.5000E-01 2.0000E+00
 7.7500E+01 8.2500E+01 6.4000E+00 9.0000E-01 2.0000E+00
ENDDATA              9
ENDSUBENT           29
"].

Definition e21790 : list string := ["SUBENT        21790001     830324              20050926       0000
BIB                 14         22
INSTITUTE  (2UK HAR)
REFERENCE  (J,PRS/A,213,392,52)
AUTHOR     (T.C.RANDLE,A.E.TAYLOR,E.WOOD)
TITLE      -NEUTRON-PROTON SCATTERING AT 156 +/- 3 MEV.
FACILITY   (CYCLO)
INC-SOURCE (P-BE )  N BEAM COLLIMATED BY CONCRETE SHIELD.
SAMPLE     .POLYTHENE.
           .A CARBON SAMPLE WAS USED TO MEASURE BACKGROUND
            COUNTS DUE TO SCATTERING FROM CARBON NUCLEI.
METHOD     (COINC) COINCIDENCE TECHNIQUES FOR RECOIL PROTONS.
DETECTOR   (COIN,PROPC,PROPC,PROPC) TRIPLE COINCIDENCE
             PROPORTIONAL COUNTER TELESCOPE.
PART-DET   (P    ) RECOIL PROTONS
STATUS     .DATA TAKEN FROM REFERENCE.
HISTORY    (821118C) A.P.T.
           (830111E)
CORRECTION .BACKGROUND COUNTS FROM N-CARBON SCATTERING.
           .NUCLEAR ABSORPTION AND COULOMB SCATTERING OF
            PROTONS IN THE COUNTER TELESCOPE.
           .VARIATION OF EFFECTIVE SAMPLE THICKNESS WITH ANGLE.
           .DETECTOR EFFICIENCY.
ERR-ANALYS (ERR-T) TOTAL ERROR
ENDBIB              22
COMMON               2          3
EN         EN-ERR
MEV        MEV
 1.5600E+02 3.0000E+00
ENDCOMMON            3
ENDSUBENT           29
";
"SUBENT        21790002     830111              20050926       0000
BIB                  3          4
REACTION   (1-H-1(N,EL)1-H-1,,DA)
STATUS     .TABLE 1.
HISTORY    (821118C) A.P.T.
           (830111E)
ENDBIB               4
NOCOMMON             0          0
DATA                 3         19
ANG-CM     DATA       ERR-T
ADEG       MB/SR      MB/SR
 5.0000E+01 2.9600E+00 4.3000E-01
 5.6000E+01 2.1400E+00 4.0000E-01
 6.5500E+01 2.5900E+00 4.0000E-01
 6.8000E+01 2.3400E+00 1.8000E-01
 7.6500E+01 1.9800E+00 2.2000E-01
 8.3000E+01 1.9800E+00 1.9000E-01
 8.9500E+01 2.2900E+00 1.8000E-01
 9.8000E+01 2.7100E+00 3.1000E-01
 9.9500E+01 2.5100E+00 1.9000E-01
 1.1200E+02 3.8700E+00 1.8000E-01
 1.2450E+02 4.0400E+00 2.8000E-01
 1.3800E+02 6.1900E+00 2.6000E-01
 1.4900E+02 6.8800E+00 4.3000E-01
 1.5900E+02 7.9800E+00 1.3000E-01
 1.6500E+02 8.5900E+00 2.9000E-01
 1.7100E+02 1.0040E+01 2.0000E-01
 1.7400E+02 9.6800E+00 4.7000E-01
 1.7600E+02 1.0650E+01 4.6000E-01
 1.7800E+02 1.0690E+01 5.4000E-01
ENDDATA             21
ENDSUBENT           30
"].

Definition e21795 : list string := ["SUBENT        21795001     830324              20050926       0000
BIB                 14         23
INSTITUTE  (2UK GLS)
REFERENCE  (J,PPS,91,899,67)
AUTHOR     (W.T.MORTON)
TITLE      -NEUTRON-PROTON ELASTIC SCATTERING AT 15.7 MEV.
FACILITY   (CCW  ) 500 KEV GLASGOW COCKCROFT-WALTON SET.
INC-SOURCE (D-T  )
SAMPLE     .ILFORD C.2. RESEARCH EMULSION, SOAKED IN WATER TO
            INCREASE HYDROGEN CONCENTRATION, USED AS BOTH A
            SAMPLE AND A TRACK DETECTOR.
METHOD     .RECOIL PROTON TRACKS OBSERVED AND ENERGY CALULATED
            USING RANGE-ENERGY RELATIONS.
DETECTOR   (TRD  ) ILFORD C.2. NUCLEAR RESEARCH EMULSION.
PART-DET   (P    ) RECOIL PROTONS.
STATUS     .DATA TAKEN FROM REFERENCE.
HISTORY    (821118C) A.P.T.
           (830111E)
CORRECTION .BACKGROUND FROM -
              1) INCIDENT NEUTRONS ORIGINATING FROM D-D REACTION
              2) NEUTRON-INDUCED PROTON EMISSION IN THE
                  NUCLEAR EMULSION.
              3) LOSS OF ENRGY IN THE EMULSION BEFORE THE
                  OBSERVED COLLISION.
ERR-ANALYS (ERR-T) TOTAL ERROR
ENDBIB              23
COMMON               2          3
EN         EN-ERR
MEV        MEV
 1.5700E+01 1.0000E-01
ENDCOMMON            3
ENDSUBENT           30
";
"SUBENT        21795002     830111              20050926       0000
BIB                  3          4
REACTION   (1-H-1(N,EL)1-H-1,,DA,,REL)
STATUS     .TABLE 2.
HISTORY    (821118C) A.P.T.
           (830111E)
ENDBIB               4
NOCOMMON             0          0
DATA                 3         16
COS-CM     DATA       ERR-T
NO-DIM     ARB-UNITS  ARB-UNITS
-9.5000E-01 1.0760E+00 5.0000E-02
-8.5000E-01 1.0040E+00 4.9000E-02
-7.5000E-01 1.0870E+00 5.1000E-02
-6.5000E-01 1.0720E+00 5.0000E-02
-5.5000E-01 1.0480E+00 4.9000E-02
-4.5000E-01 1.0610E+00 6.1000E-02
-3.5000E-01 1.0330E+00 4.9000E-02
-2.5000E-01 9.7800E-01 4.6000E-02
-1.5000E-01 9.5800E-01 4.5000E-02
-5.0000E-02 9.8300E-01 5.0000E-02
 5.0000E-02 1.0210E+00 4.8000E-02
 1.5000E-01 1.0540E+00 5.2000E-02
 2.5000E-01 1.0440E+00 5.1000E-02
 3.5000E-01 9.2000E-01 5.5000E-02
 4.5000E-01 9.2400E-01 5.5000E-02
 5.5000E-01 1.0410E+00 6.2000E-02
ENDDATA             18
ENDSUBENT           27
"].

Definition e21800 : list string := ["SUBENT        21800001     830324              20050926       0000
BIB                 14         30
INSTITUTE  (2UK HAR) EXPERIMENTAL SITE.
           (2UK OXF) ALL THREE AUTHORS.
REFERENCE  (J,PRS/A,229,492,54)
AUTHOR     (J.J.THRESHER,R.G.P.VOSS,R.WILSON)
TITLE      -NEUTRON-PROTON SCATTERING AT SMALL ANGLES.
FACILITY   (CYCLO)
INC-SOURCE (P-BE )
INC-SPECT  .EFFECTIVE NEUTRON ENERGY DEDUCED FROM A MEASUREMENT
            OF ABSORPTION IN CARBON, ASSUMING THE TOTAL CROSS
            SECTION OF TAYLOR AND WOOD (PHILOSOPHICAL MAGAZINE
            VOL 44 PAGE 95 (1953) )
SAMPLE     .LIQUID HYDROGEN IN RECTANGULAR COPPER CONTAINER.
METHOD     .ABSOLUTE DIFFERENTIAL CROSS SECTION MEASURED FROM
            1) COUNT RATE FOR UNSCATTERED BEAM.
            2) COUNT RATE FOR SCATTERED BEAM AT A GIVEN ANGLE.
DETECTOR   (SCIN ) BENZENE WITH 4.0 G/LITRE TERPHENYL AND
                   10 MILLI-G/LITRE DIPHENYLHEXATRIENE LIQUID
                   SCINTILLATOR. STEEL SHEET TO STOP RECOIL
                   PROTONS.
           (BF3  ) NEUTRON BEAM MONITOR.
STATUS     .DATA TAKEN FROM REFERENCE.
HISTORY    (821123C) A.P.T.
           (830111E)
CORRECTION .BACKGROUND COUNTS.
           .NEUTRONS SCATTEREDIN SAMPLE CONTAINER.
           .VARIATION OF DETECTOR EFFICIENCY WITH ENERGY.
ERR-ANALYS (EN-ERR)  ERROR OF EFFECTIVE ENERGY MEASUREMENT.
           (ANG-RSL) FULL WIDTH AT HALF MAXIMUM ANGULAR
                     RESOLUTION.
           (ERR-T)   TOTAL ERROR.
ENDBIB              30
NOCOMMON             0          0
ENDSUBENT           33
";
"SUBENT        21800002     830111              20050926       0000
BIB                  3          4
REACTION   (1-H-1(N,EL)1-H-1,,DA)
STATUS     .TABLE 2.
HISTORY    (821123C) A.P.T.
           (830111E)
ENDBIB               4
COMMON               2          3
EN         EN-ERR
MEV        MEV
 1.0500E+02 3.0000E+00
ENDCOMMON            3
DATA                 4          7
ANG-CM     ANG-RSL    DATA       ERR-T
ADEG       ADEG       MB/SR      MB/SR
 6.2000E+00 2.5000E+00 1.1600E+01 1.0000E+00
 1.0500E+01 2.5000E+00 1.1100E+01 1.0000E+00
 2.0500E+01 2.5000E+00 1.0200E+01 6.0000E-01
 3.0700E+01 2.5000E+00 8.5000E+00 4.0000E-01
 4.0900E+01 2.5000E+00 7.1000E+00 4.5000E-01
 5.1200E+01 3.0000E+00 6.0000E+00 5.0000E-01
 6.1400E+01 4.0000E+00 4.5500E+00 5.0000E-01
ENDDATA              9
ENDSUBENT           22
";
"SUBENT        21800003     830111              20050926       0000
BIB                  3          4
REACTION   (1-H-1(N,EL)1-H-1,,DA)
STATUS     .TABLE 2.
HISTORY    (821123C) A.P.T.
           (830111E)
ENDBIB               4
COMMON               2          3
EN         EN-ERR
MEV        MEV
 1.3700E+02 5.0000E+00
ENDCOMMON            3
DATA                 4          7
ANG-CM     ANG-RSL    DATA       ERR-T
ADEG       ADEG       MB/SR      MB/SR
 6.3000E+00 3.5000E+00 8.9000E+00 1.0000E+00
 1.0600E+01 3.5000E+00 8.0000E+00 6.0000E-01
 2.0700E+01 3.5000E+00 6.9000E+00 4.0000E-01
 3.1000E+01 3.5000E+00 5.8500E+00 3.5000E-01
 4.1300E+01 3.5000E+00 4.3800E+00 4.0000E-01
 5.1600E+01 3.5000E+00 2.8600E+00 4.0000E-01
 6.1800E+01 4.5000E+00 2.7000E+00 4.0000E-01
ENDDATA              9
ENDSUBENT           22
"].

Definition e21815 : list string := ["SUBENT        21815001     830330              20050926       0000
BIB                 16         86
INSTITUTE  (2UK LON) PHYSICS DEPARTMENT, UNIVERSITY
            COLLEGE LONDON.
REFERENCE  (J,PPS,71,305,58)
AUTHOR     (T.C.GRIFFITH,A.P.BANFORD,M.Y.UPPAL,
            W.S.C.WILLIAMS)
TITLE      -NEUTRON-PROTON SCATTERING IN THE ENERGY RANGE
            70 TO 170 MEV.-
FACILITY   (SYNCY,2UK HAR) HARWELL SYNCHROCYCLOTRON.
INC-SOURCE (P-BE ) PROTONS FROM SYNCHROCYCLOTRON WITH
            A MAXIMUM ENERGY OF 170 MEV IMPINGING ONTO
            A BE-TARGET OF .25 INCH THICKNESS. THE N-BEAM
            WAS CONFINED TO A DIAMETER OF 2 INCHES BY
            MEANS OF A CONCRETE SHIELDING.
INC-SPECT  .THE NEUTRON SPECTRUM RANGED FROM ABOUT 50 TO 170
            MEV, WITH A PEAK NEAR 140 MEV. A GRAPH OF THE
            SPECTRUM IS GIVEN IN FIGURE 8 OF THE MAIN
            REFERENCE.
           .THE QUANTITY 'EN-MEAN' IS A SPECTRUM AVERAGED
            ENERGY BETWEEN THE LIMITS 'EN-MIN' AND 'EN-MAX'.
            IT IS CALLED THE 'EFFECTIVE ENERGY' IN THE MAIN
            REFERENCE. THE QUANTITY 'EN-ERR' IS THE ERROR IN
            'EN-MEAN' AND ARISES FROM THE ERROR IN THE
            MEASURED SPECTRUM.
SAMPLE     .BOTH SAMPLES (POLYETHYLENE AND CARBON ) WERE
            5 INCHES LONG AN 1.5 INCHES WIDE. THEY WERE
            100-200 MICRONS THICK.
           .THE POLYETHYLENE SAMPLE WAS CUT FROM A SHEET
            OF ABOUT 100 MICRONS THICKNESS. IT CONSISTED
            OF 100 PERCENT PURE (C-H(2))(N). THE THICKNESS
            WAS 10.54 +-0.01 MG/CM**2.
           .THE CARBON SAMPLE WAS PREPARED BY DRYING OUT
            OF AQUADAG WHICH HAD BEEN DILUTED IN WATER,
            IN A METAL MOULD. REMOVAL OF THE DRY C-FILM
            WAS FACILITATED BY THE USE OF A WET SHEET OF
            CELLOPHANE TIGHTLY STRETCHED OVER THE BASE OF
            THE MOULD. ITS THICKNESS WAS 13.62 +- 0.03
            MG/CM**2 AND WAS CHOSEN SO AS TO PRODUCE THE
            SAME ENERGY LOSS AS THE POLYETHYLENE TARGET
            FILM. IT CONSISTED OF 93.4 PERCENT CARBON,
            1 PERCENT HYDROGEN AND 5.6 PERCENT OXYGEN.
METHOD     (REC  ) MEASUREMENT OF THE ANGULAR DISTRIBUTIONS
            OF THE RECOILING PARTICLES FROM A CARBON
            SCATTERER AND FROM A POLYETHYLENE SCATTERER.
            THE DIFFERENCE YIELDS THE AMOUNTS OF
            PROTONS RECOILING FROM HYDROGEN NUCLEI AS
            A FUNCTION OF THE RECOIL ANGLES.
            FROM THESE AMOUNTS THE HYDROGEN ELASTIC
            SCATTERING ANGULAR DISTRIBUTIONS CAN BE
            DERIVED.
            THE PROTON ANGLES ARE DETERMINED BY THE
            ANALYSIS OF THE PROTON TRACKS
            IN A PHOTOGRAPHIC EMULSION.
            THE PROTON ENERGIES ARE DETERMINED FROM
            THE RANGES OF THE PROTONS IN THIS EMULSION.
            FROM THIS PROTON ENERGY THE NEUTRON ENERGY
            CAN BE DERIVED.
DETECTOR   (TRD  ) SCATTERING CHAMBER UNDER A PRESSURE OF
            1.E-2 CM HG CONTAINING FOUR 1.5 MILLI-M THICK
            GLASS PLATES COATED WITH A 600 MICRON LAYER OF
            ILFORD C2 PHOTOGRAPHIC EMULSION AND A 25 MICRON
            SUPERCOAT OF ILFORD G5 EMULSION.
           .THE FOUR PLATES WERE HELD AT ANGLES OF 54,44,34
            AND 24 DEGREES TO THE NEUTON BEAM.
           .THE PLATES AT 44,34 AND 24 DEGEREES WERE BEHIND
            ALUMINIUM ABSORBERS DESIGNED TO BRING MOST OF
            RECOILS TO REST IN THE EMULSION. UNFORTUNATELY
            THE EFFECT OF MULTIPLE SCATTERING IN THE
            ALUMINIUM WAS TOO LARGE, AND IT WAS NOT POSSIBLE
            TO USE THE MEASUREMENTS ON THE PLATES AT 34 AND
            24 DEGREES.
MONITOR    (1-H-1(N,EL)1-H-1,,DA) AT 62.5 DEGREES.
            ITS VALUE AS A FUNCTION OF THE NEUTRON ENERGY
            IS USED TO DETERMINE THE INCOMING NEUTRON
            SPECTRUM. THE NUMERICAL VALUES ARE GIVEN
            IN TABLE 2 OF THE MAIN REFERENCE.
PART-DET   (P     ) RECOIL PARTICLES.
STATUS     .DATA TAKEN FROM MAIN REFERENCE.
HISTORY    (820803C) G.C.
           (830210E)
CORRECTION .BACKGROUND FROM SCATTERING BY THE NYLON
            THREAD USED TO SUSPEND THE SAMPLES.
           .INTERACTIONS OF THE NEUTRONS WITH THE C-
            NUCLEI.
ERR-ANALYS (ERR-S) STANDARD DEVIATIONS ARISING MAINLY
            FROM THE STATISTICAL ERROR IN THE NUMBER
            OF TRACKS COUNTED.
ENDBIB              86
NOCOMMON             0          0
ENDSUBENT           89
";
"SUBENT        21815002     830210              20050926       0000
BIB                  4          6
REACTION   (1-H-1(N,EL)1-H-1,,DA,,SPA)
COMMENT    .THE DATA IS DERIVED FROM MEASUREMENTS ON
            THE PHOTOGRAPHIC PLATE AT 54 DEGREES.
STATUS     .TABLE 3 OF THE MAIN REFERENCE.
HISTORY    (820803C) G.C.
           (830210E)
ENDBIB               6
COMMON               4          3
EN-MIN     EN-MAX     EN-MEAN    EN-ERR
MEV        MEV        MEV        MEV
 1.2000E+02 1.7000E+02 1.3700E+02 5.0000E+00
ENDCOMMON            3
DATA                 3          5
ANG-CM     DATA       ERR-S
ADEG       MB/SR      MB/SR
 5.8300E+01 2.8500E+00 4.5000E-01
 4.8400E+01 3.6300E+00 4.0000E-01
 3.8700E+01 4.3500E+00 4.0000E-01
 2.9000E+01 5.4100E+00 5.2000E-01
 1.9300E+01 6.6500E+00 1.3000E+00
ENDDATA              7
ENDSUBENT           22
";
"SUBENT        21815003     830210              20050926       0000
BIB                  4          6
REACTION   (1-H-1(N,EL)1-H-1,,DA,,SPA)
COMMENT    .THE DATA IS DERIVED FROM MEASUREMENTS ON
            THE PHOTOGRAPHIC PLATE AT 54 DEGREES.
STATUS     .TABLE 3 OF THE MAIN REFERENCE.
HISTORY    (820803C) G.C.
           (830210E)
ENDBIB               6
COMMON               4          3
EN-MIN     EN-MAX     EN-MEAN    EN-ERR
MEV        MEV        MEV        MEV
 7.0000E+01 1.2000E+02 9.6000E+01 4.0000E+00
ENDCOMMON            3
DATA                 3          4
ANG-CM     DATA       ERR-S
ADEG       MB/SR      MB/SR
 5.8800E+01 5.2000E+00 8.5000E-01
 4.8900E+01 6.0000E+00 7.5000E-01
 3.9100E+01 7.6500E+00 7.0000E-01
 2.9300E+01 9.0000E+00 1.3000E+00
ENDDATA              6
ENDSUBENT           21
";
"SUBENT        21815004     830210              20050926       0000
BIB                  4          7
REACTION   (1-H-1(N,EL)1-H-1,,DA,,SPA)
COMMENT    .THE DATA IS DERIVED FROM MEASUREMENTS ON
            THE PHOTOGRAPHIC PLATES AT 54 AND 44
            DEGREES.
STATUS     .TABLE 4 OF THE MAIN REFERENCE.
HISTORY    (820803C) G.C.
           (830210E)
ENDBIB               7
COMMON               4          3
EN-MIN     EN-MAX     EN-MEAN    EN-ERR
MEV        MEV        MEV        MEV
 1.0000E+02 1.7000E+02 1.3000E+02 5.0000E+00
ENDCOMMON            3
DATA                 3          7
ANG-CM     DATA       ERR-S
ADEG       MB/SR      MB/SR
 7.8100E+01 2.6000E+00 7.0000E-01
 6.8200E+01 2.8900E+00 5.1000E-01
 5.8400E+01 2.9600E+00 3.4000E-01
 4.8600E+01 3.8200E+00 3.2000E-01
 3.8800E+01 4.5500E+00 3.7000E-01
 2.9100E+01 5.5600E+00 4.5000E-01
 1.9300E+01 6.4000E+00 9.0000E-01
ENDDATA              9
ENDSUBENT           25
"].

Definition e21852 : list string := ["SUBENT        21852001     840201              20050926       0000
BIB                 13         24
INSTITUTE  (2FR GRE)
REFERENCE  (J,PL/B,32,468,7008)
AUTHOR     (J.ARVIEUX, J.POUXE)
TITLE      .-HIGH-PRECISION MEASUREMENT OF THE ANISOTROPY OF
            THE N-P DIFFERENTIAL CROSS SECTION AT 14 MEV.-
INC-SOURCE (D-T  ) STANDARD D(T,N)2-HE-4 REACTION
SAMPLE     .C-H(2) FOIL OF 8.45 MILLI-GR/CM**2, 6 MM DIAM.,
            DIRECTLY STUCK BY HEATING ON A 8 MM THICK C BLOCK.
METHOD     (COINC) TRIPLE COINCIDENCE BETWEEN THE A-PARTICLE
                   AND THE E, DELTA-E DETECTOR
           .ANGLE PRECISION BETWEEN THE TWO TELESCOPES WAS OF
            THE ORDER OF 0.05 DEGREES.
DETECTOR   (TELES,SOLST,SOLST) TWO TELESCOPES OF SURFACE BARRIER
            SI-DETECT. WITH THICKNESSES OF 150 AND 1500 MICRO-M.
PART-DET   (P   )
STATUS     .TEXT, MAIN REFERENCE
HISTORY    (830610C) BN.
           (830801E)
CORRECTION .FOR BACKGROUND
           .FOR FINITE GEOMETRY EFFECTS OF THE ORDER OF 5*10**4,
            CALCULATED USING A MONTE-CARLO PROCEDURE,
            TAKING INTO ACCOUNT NON-UNIFORMITY OF THE
            BEAM INTENSITY ON THE TARGET
ERR-ANALYS (ERR-T) STATISTICAL AND SYSTEMATIC ERROR
ENDBIB              24
COMMON               2          3
EN         ANG-NRM
MEV        ADEG
 1.4000E+01 1.8000E+02
ENDCOMMON            3
ENDSUBENT           31
";
"SUBENT        21852002     830801              20050926       0000
BIB                  3          8
REACTION   (1-H-1(N,EL)1-H-1,,DA,,REL)
            ANISOTROPY SIGMA(CM) TO SIGMA(180.) OF THE
            N-P SCATTERING DIFF.CROSS SECTION
STATUS     .TEXT, MAIN REFERENCE
           .THE GIVEN ANISOTROPY VALUE IS THE RECIPROCAL OF
            THE DATA VALUE QUOTED IN THE REFERENCE.
HISTORY    (830610C)
           (830801E)
ENDBIB               8
NOCOMMON             0          0
DATA                 3          3
ANG-CM     DATA       ERR-T
ADEG       NO-DIM     NO-DIM
 1.0000E+02 9.6520E-01 1.2000E-02
 9.0000E+01 9.7940E-01 1.7000E-02
 8.0000E+01 9.6710E-01 1.6000E-02
ENDDATA              5
ENDSUBENT           18
"].

Definition e21971 : list string := ["SUBENT        21971001     860206              20050926       0000
BIB                 13         18
INSTITUTE  (2FR BRC)
REFERENCE  ((J,RE,96,219,1986)=(C,85SANTA,2,1561,1985))
AUTHOR     (J.FREHAUT,A.BERTIN,R.BLOIS,E.GRYNTAKIS,
            C.A.PHILIS)
TITLE      (N,2N) CROSS SECTIONS OF 2-H AND 239-PU
FACILITY   (VDG)
INC-SOURCE .NO INFORMATION
METHOD     .NOT GIVEN
DETECTOR   (STANK)LARGE GADOLINIUM LOADED LIQUID SCIN.
MONITOR    .DETECTOR EFFICIENCY WAS CALIBRATED USING A  252-CF
            SOURCE ASSUMING A VALUE OF NU=3.732. THIS VALUE WAS
            MULTIPLIED BY A CORRECTION FACTOR RANGING FROM 0.92
            TO 0.85 DPENDING ON ENERGY
STATUS     .DATA TAKEN FROM PAPER RECIEVED FROM AUTHOR
HISTORY    (850923C)HH.
           (860106E)
CORRECTION .NO INFORMATION
ERR-ANALYS .NO INFORMATION
ENDBIB              18
NOCOMMON             0          0
ENDSUBENT           21
";
"SUBENT        21971002     860106              20050926       0000
BIB                  3          4
REACTION   (1-H-2(N,2N)1-H-1,,SIG)
SAMPLE     .1.5 GRAMM OF DEUTERATED POLYETYLENE POWDER
HISTORY    (850923C)HH.
           (860106E)
ENDBIB               4
NOCOMMON             0          0
DATA                 4         16
EN         EN-ERR     DATA       DATA-ERR
MEV        MEV        MB         MB
 7.4100E+00 1.6500E-01 1.0200E+02 1.7000E+01
 7.9300E+00 1.5000E-01 1.3100E+02 1.5000E+01
 8.4400E+00 1.3500E-01 1.2100E+02 1.3000E+01
 8.9400E+00 1.2500E-01 1.3100E+02 1.0000E+01
 9.4400E+00 1.1500E-01 1.4200E+02 1.1000E+01
 9.9300E+00 1.1000E-01 1.1400E+02 1.0000E+01
 1.0420E+01 1.0000E-01 1.3500E+02 1.9000E+01
 1.0910E+01 9.5000E-02 1.3900E+02 1.0000E+01
 1.1400E+01 9.0000E-02 1.5900E+02 1.0000E+01
 1.1880E+01 8.5000E-02 1.4500E+02 1.0000E+01
 1.2360E+01 8.5000E-02 1.5300E+02 1.3000E+01
 1.2850E+01 8.0000E-02 1.6400E+02 1.4000E+01
 1.3330E+01 7.5000E-02 1.6300E+02 1.4000E+01
 1.3800E+01 7.5000E-02 1.7300E+02 1.4000E+01
 1.4280E+01 7.0000E-02 1.6600E+02 1.4000E+01
 1.4760E+01 6.5000E-02 1.8000E+02 1.4000E+01
ENDDATA             18
ENDSUBENT           27
";
"SUBENT        21971003     860106              20050926       0000
BIB                  3          4
REACTION   (94-PU-239(N,2N)94-PU-238,,SIG)
SAMPLE     .15.5 GRAMM OF 99.87 PER CENT ENRICHED PU-239
HISTORY    (850923C)HH.
           (860106E)
ENDBIB               4
NOCOMMON             0          0
DATA                 4         14
EN         EN-ERR     DATA       DATA-ERR
MEV        MEV        MB         MB
 6.4900E+00 8.5000E-02 2.4000E+01 6.3000E+01
 7.0100E+00 8.0000E-02 4.9000E+01 5.0000E+01
 7.5200E+00 7.5000E-02 5.4000E+01 5.8000E+01
 8.0300E+00 7.5000E-02 1.7700E+02 7.0000E+01
 8.5400E+00 7.0000E-02 2.7500E+02 5.4000E+01
 9.0400E+00 6.5000E-02 2.4900E+02 4.1000E+01
 9.5500E+00 6.5000E-02 3.5400E+02 5.6000E+01
 1.0060E+01 6.0000E-02 4.1500E+02 3.9000E+01
 1.0560E+01 6.0000E-02 4.1100E+02 7.0000E+01
 1.1070E+01 5.5000E-02 3.5600E+02 7.9000E+01
 1.1570E+01 5.5000E-02 4.1800E+02 4.9000E+01
 1.2080E+01 5.5000E-02 4.5500E+02 7.6000E+01
 1.2580E+01 5.0000E-02 3.1800E+02 1.3200E+02
 1.3090E+01 5.0000E-02 5.8800E+02 1.4800E+02
ENDDATA             16
ENDSUBENT           25
"].

Definition e21985 : list string := ["SUBENT        21985001     860210              20050926       0000
BIB                 15         38
INSTITUTE  (2BLGLVN)
REFERENCE  (J,PR/C,32,(5),1767,8511)
AUTHOR     (X.H.CHEN,C.DUPONT,P.LELEUX,P.LIPNIK,P.MACQ,A.NINANE)
TITLE      -MEASUREMANTS OF NEUTRON-DEUTERON ELASTIC AND CHARGE
            EXCHANGE SCATTERING-.
FACILITY   (ISOCY) ISOCHONOUS CYNCLOTRON.
INC-SOURCE (P-LI7) THE LI-7(P,N) REACTION.
SAMPLE     .A 5 MM THICK LIQUID DEUTERIUM TARGET LIMITED BY 6 MICR
            METER THICK ALUMINIZED MYLAR WINDOWS.
METHOD     (TOF  ) TIME OF FLIGHT TECHNIQUES.
DETECTOR   (SCIN ) A 0.1 MM THICK PLASTIC SCINTILLATOR JUST IN
            FRONT OF THE SAMPLE TO VETO CHARGE PARTICLES CON-
            TAMINATING THE NEUTRON BEAM.
           (SCIN ) A 0.1 MM THICK PLASTIC SCINTILLATOR JUST BEHIND
            THE SAMPLE WAS USED BOTH TO MEASURE THE NEUTRON ENERGY
            BY TIME OF FLIGHT AGAINST A CAPACITIVE BEAM PICKOFF AN
            TO MEASURE THE RECOIL CHARGED PARTICLES BY TIME OF
            FLIGHT AGAINST TO STOP DETECTORS AT 7 AND 45 DEGREES.
           (COIN,SCIN,SCIN) THE TWO STOP DECTECTORS EACH CONSISTED
            OF ONE 3 CM DIAMETER AND 1 MM THICK PLASTIC SCINTLLATO
            FOLLOWED BY A COPPER ABSORBER AND THEN A 4 CM DIAMETER
            AND 1 MM THICK PLASTIC SCINTILLATOR IN COINCIDENCE WIT
            THE FIRST PLASTIC SCINTILLATOR.
ANALYSIS   .THE ELASTIC DEUTERON AND THE QUASIELASTIC PROTON TIME
            OF FLIGHT SPECTRA ARE INTEGRATED.
MONITOR    (1-H-1(N,EL)1-H-1,,DA) NO DATA GIVEN. ONLY INFORMATION
            GIVEN IS THAT THE DATA WERE NORMALISED AT 90 DEGREE CM
            TO THE DATA IN A PRIVATE COMMUNICATION BY R.A.ARNDT AN
            L.D.ROPER.
PART-DET   (P    ) PROTONS
           (D    ) DEUTERONS
STATUS     .DATA TAKEN FROM REFERENCE.
HISTORY    (860128C)
           (860210E)
CORRECTION .FOR BACKGROUND,SOLID ANGLE OF THE STOP DETECTOR (MEASU
            RED WITH A KNOWN ALPHA SOURCE), AND PROTON AND DEUTERO
            LOSSES DUE TO REACTIONS IN THE STOP SCINTILLATOR AND I
            THE COPPER ABSORBER.
ENDBIB              38
NOCOMMON             0          0
ENDSUBENT           41
";
"SUBENT        21985002     860703              20050926       0000
BIB                  4         10
REACTION   (1-H-2(N,EL)1-H-2,,DA)
STATUS     .DATA TAKEN FROM TABLE 1.
HISTORY    (860128C)
           (860210E)
           (860417A)
           (860703E)
ERR-ANALYS (ERR-S) STATISTICAL ERROR
           .NONSTATISTICAL ERRORS CAME FROM THE SOLID ANGLE DETER-
            MINATION ( 1.1 PERCENT ) AND FROM THE NORMALISATION
            TO THE N-P CROSS SECTION ( LESS THAN 3 PERCENT ).
ENDBIB              10
NOCOMMON             0          0
DATA                 5          5
EN         EN-RSL     ANG-CM     DATA       ERR-S
MEV        MEV        ADEG       MB/SR      MB/SR
 3.1300E+01 2.1000E+00 1.6600E+02 2.2900E+01 1.5000E+00
 6.0900E+01 2.5000E+00 9.0000E+01 1.1400E+00 1.6000E-01
 6.0900E+01 2.5000E+00 1.6600E+02 6.1800E+00 2.4000E-01
 7.6200E+01 2.2000E+00 9.0000E+01 9.3000E-01 5.0000E-02
 7.6200E+01 2.2000E+00 1.6600E+02 4.0200E+00 1.9000E-01
ENDDATA              7
ENDSUBENT           22
";
"SUBENT        21985003     860325              20050926       0000
BIB                  4          5
REACTION   ((1-H-2(N,2N)1-H-1,,DA)/(1-H-1(N,EL)1-H-1,,DA))
STATUS     .DATA TAKEN FROM TABLE 2.
HISTORY    (860128C)
           (860210E)
ERR-ANALYS .NO INFORMATION GIVEN.
ENDBIB               5
COMMON               1          3
ANG
ADEG
 7.0000E+00
ENDCOMMON            3
DATA                 4          3
EN         EN-RSL     DATA       DATA-ERR
MEV        MEV        NO-DIM     NO-DIM
 3.1300E+01 2.1000E+00 4.2000E-01 5.0000E-02
 6.0900E+01 2.5000E+00 5.6000E-01 3.0000E-02
 7.6200E+01 2.2000E+00 6.5000E-01 4.0000E-02
ENDDATA              5
ENDSUBENT           19
"].

Definition e21993 : list string := ["SUBENT        21993001     860703              20050926       0000
BIB                 13         22
INSTITUTE  (2BLGLVN)
REFERENCE  (J,PR/C,32,(1),308,8507)
AUTHOR     (A.BOL,C.DUPONT,P.LELEUX,P.LIPNIK,P.MACQ,A.NINANE)
TITLE      -MEASUREMENT OF THE BACKWARD TO 90 DEGREES NEUTRON-
            PROTON ELASTIC CROSS SECTION RATIO BETWEEN 40
            AND 75 MEV.
FACILITY   (ISOCY) PROTON BEAM FROM LOUVAIN ACCELERATOR.
INC-SOURCE (P-LI7)  6MM OR 1CM THICK LI TARGET
SAMPLE     .LIQUID HYDROGEN TARGET 5MM THICK LIMITED BY
            6 MICROMETER THICK ALUMINIZED MYLAR WINDOWS
METHOD     (TOF)
DETECTOR   (SCIN) 4 SCINTILLATORS USED FOR THE TOF
                  ONE (START) BEHIND THE TARGET
                  THREE (STOP) AT DIFFERENT ANGLES
PART-DET   (P)
STATUS     .DATA TAKEN FROM MAIN REFERENCE
HISTORY    (860123C)  IF.
           (860210E)
           (860617A) HH
           (860703E)
ERR-ANALYS (EN-ERR) DUE TO THE LI THICKNESS
           (ERR-S)  STATISTICAL ERROR
ENDBIB              22
NOCOMMON             0          0
ENDSUBENT           25
";
"SUBENT        21993002     860703              20050926       0000
BIB                  3          6
REACTION   (1-H-1(N,EL)1-H-1,,DA,,RSD)
STATUS     .DATA TAKEN FROM TABLE 1 OF THE MAIN REFERENCE
HISTORY    (860123C)
           (860210E)
           (860617A) HH
           (860703E)
ENDBIB               6
NOCOMMON             0          0
DATA                 5         16
EN         EN-ERR     ANG        DATA       ERR-S
MEV        MEV        DEG-C      NO-DIM     NO-DIM
 4.0000E+01 1.6000E+00 1.6600E+02 1.3900E+00 3.0000E-02
 4.0000E+01 1.6000E+00 1.7800E+02 1.4900E+00 3.0000E-02
 4.5000E+01 1.5000E+00 1.6600E+02 1.4700E+00 3.0000E-02
 4.5000E+01 1.5000E+00 1.7800E+02 1.5700E+00 3.0000E-02
 5.0000E+01 1.4000E+00 1.6600E+02 1.5900E+00 3.0000E-02
 5.0000E+01 1.4000E+00 1.7800E+02 1.7000E+00 4.0000E-02
 5.5100E+01 1.3000E+00 1.6600E+02 1.7500E+00 4.0000E-02
 5.5100E+01 1.3000E+00 1.7800E+02 1.8200E+00 5.0000E-02
 6.1000E+01 1.2000E+00 1.6600E+02 1.8700E+00 4.0000E-02
 6.2200E+01 1.0000E+00 1.6600E+02 1.9000E+00 5.0000E-02
 6.2200E+01 1.0000E+00 1.7800E+02 1.9800E+00 6.0000E-02
 6.5000E+01 1.0000E+00 1.6600E+02 2.0000E+00 4.0000E-02
 6.5000E+01 1.0000E+00 1.7800E+02 2.1400E+00 1.0000E-01
 7.0000E+01 1.0000E+00 1.6600E+02 2.1000E+00 5.0000E-02
 7.0000E+01 1.0000E+00 1.7800E+02 2.3300E+00 6.0000E-02
 7.6200E+01 2.0000E+00 1.6600E+02 2.2200E+00 7.0000E-02
ENDDATA             18
ENDSUBENT           29
"].

Definition e22207 : list string := ["SUBENT        22207001     961014              20050926       0000
BIB                 16         49
INSTITUTE  (2GERKFK)
REFERENCE  (J,NP/A,518,561,90)
AUTHOR     (G.FINK,P.DOLL,T.D.FORD,R.GARRETT,W.HEERINGA,K.HOFMANN,
            H.O.KLAGES,H.KRUPP)
TITLE      -BACKWARD ANGLE NP DIFFERENTIAL CROSS SECTIONS FROM 22
            TO 50 MEV.
FACILITY   (CYCLO) THE KARLSRUHE CYCLOTRON AND THE POLARIZED NEU-
            TRON FACILITY POLKA. THE BEAM WAS PULSED AT A RATE OF
            11 MHZ.
INC-SOURCE (POLNS) POLARIZED NEUTRON FACILITY POLKA.
INC-SPECT  .CONTINUOUS NEUTRON SPECTRUM, DISTRIBUTED FROM 20 TO 50
            MEV. THE NEUTRON FLUX WAS MONITORED BY A SET OF PROTON
            RECOIL TELESCOPES.
SAMPLE     .THE SAMPLE WAS A 30 MG/CM2 POLYETHYLENE FOIL. THE
            BACKGROUND WAS MEASURED USING A CARBON TARGET.
METHOD     (TOF  ) THE NEUTRON ENERGY BINS WERE DETERMINED BY TOF
            TECHNIQUES.
           (COINC) THE RECOIL PROTONS WERE DETECTED WITH DELTA-E-E
            DETECTORS.
DETECTOR   (TELES,SOLST,NAICR) THE NP SCATTERING TOOK PLACE AT THE
            CENTER OF AN EVACUATED 80 CM DIAMETER SCATTERING CHAM-
            BER, PLACED AT ABOUT 6 M FROM THE NEUTRON SOURCE. THE
            COLLIMATED 20 MM DIAMETER NEUTRON BEAM ENTERED AND
            LEFT THE CHAMBER THROUGH 25 MICROMETER THICK STAINLESS
            STEEL WINDOWS. THE RECOIL PROTONS WERE DETECTED WITH 5
            DELTA-E-E TELESCOPES AT VARIOUS ANGLES. THE 12 MM BY
            42 MM DELTA-E DETECTORS, 500 MICROMETERS THICK, WERE
            OF THE PASSIVATED ION IMPLANTED SILICON TYPE. THE E
            DETECTORS WERE 2.5 CM THICK NAI CRYSTALS. THE PROTONS
            WERE MEASURED IN THE LAB ANGLE RANGE 7.5 TO 52.5 DEG.
PART-DET   (P    )
ANALYSIS   .THE MEASURED RELATIVE NP SCATTERING CROSS SECTIONS
            WERE NORMALIZED BY AN ITERATIVE PROCEDURE, INVOLVING
            PHASE-SHIFT ANALYSES AND PREDICTIONS FROM THE PARIS
            POTENTIAL.
CORRECTION .THE DATA WERE CORRECTED FOR CYCLOTRON PHASE INSTABILI-
            TIES, GAIN CHANGES IN THE ELECTRONICS AND VARIOUS
            BACKGROUND EFFECTS.
ERR-ANALYS (ERR-T) TOTAL  ERRORS GIVEN INCLUDE UNCERTAINTIES FROM
            THE CORRECTIONS, SYSTEMATIC DIFFERENCES OF THE DETEC-
            TORS AND STATISTICAL UNCERTAINTIES, WHICH ARE DOMINA-
            TING.
           (ERR-1) IN ADDITION, THERE IS A 1 PER-CENT NORMALIZA-
            TION UNCERTAINTY FOR THE ABSOLUTE CROSS SECTION SCALE.
STATUS     .DATA TAKEN FROM MAIN REF.
HISTORY    (921213C) N.O.
           (930329E)
           (961014U)  + + ENTRY CORRECTED BY S. MAEV
                          ERR-1 TRANSFERRED TO SAN 001
ENDBIB              49
COMMON               1          3
ERR-1
PER-CENT
 1.0000E+00
ENDCOMMON            3
ENDSUBENT           56
";
"SUBENT        22207002     961014              20050926       0000
BIB                  3          5
REACTION   (1-H-1(N,EL)1-H-1,,DA)
STATUS     .DATA TAKEN FROM MAIN REF.
HISTORY    (921213C) N.O.
           (930329E)
           (961014U) EN-MEAN DELETED. DATA-ERR REPLACED BY ERR-T
ENDBIB               5
NOCOMMON             0          0
DATA                 5         44
EN-MIN     EN-MAX     ANG-CM     DATA       ERR-T
MEV        MEV        ADEG       MB/SR      MB/SR
 2.0500E+01 2.3500E+01 1.0460E+02 3.4000E+01 1.9000E-01
 2.0500E+01 2.3500E+01 1.1960E+02 3.4930E+01 1.7000E-01
 2.0500E+01 2.3500E+01 1.3470E+02 3.5970E+01 1.8000E-01
 2.0500E+01 2.3500E+01 1.4980E+02 3.6920E+01 1.9000E-01
 2.0500E+01 2.3500E+01 1.6490E+02 3.8270E+01 1.7000E-01
 2.3500E+01 2.6500E+01 1.0460E+02 2.9390E+01 1.6000E-01
 2.3500E+01 2.6500E+01 1.1960E+02 3.0220E+01 1.4000E-01
 2.3500E+01 2.6500E+01 1.3470E+02 3.1170E+01 1.5000E-01
 2.3500E+01 2.6500E+01 1.4980E+02 3.2780E+01 1.6000E-01
 2.3500E+01 2.6500E+01 1.6490E+02 3.4020E+01 1.5000E-01
 2.6000E+01 2.9000E+01 1.0460E+02 2.6260E+01 1.8000E-01
 2.6000E+01 2.9000E+01 1.1960E+02 2.7170E+01 1.5000E-01
 2.6000E+01 2.9000E+01 1.3470E+02 2.8500E+01 1.7000E-01
 2.6000E+01 2.9000E+01 1.4980E+02 2.9960E+01 1.8000E-01
 2.6000E+01 2.9000E+01 1.6490E+02 3.1220E+01 1.6000E-01
 2.8500E+01 3.1500E+01 1.0460E+02 2.3800E+01 1.6000E-01
 2.8500E+01 3.1500E+01 1.1960E+02 2.4760E+01 1.4000E-01
 2.8500E+01 3.1500E+01 1.3470E+02 2.5770E+01 1.5000E-01
 2.8500E+01 3.1500E+01 1.4980E+02 2.7520E+01 1.6000E-01
 2.8500E+01 3.1500E+01 1.6490E+02 2.8800E+01 1.5000E-01
 3.1500E+01 3.4500E+01 8.9400E+01 2.0390E+01 1.9000E-01
 3.1500E+01 3.4500E+01 1.0440E+02 2.0900E+01 1.8000E-01
 3.1500E+01 3.4500E+01 1.1950E+02 2.1950E+01 1.5000E-01
 3.1500E+01 3.4500E+01 1.3460E+02 2.3140E+01 1.6000E-01
 3.1500E+01 3.4500E+01 1.4970E+02 2.5030E+01 1.8000E-01
 3.1500E+01 3.4500E+01 1.6480E+02 2.6580E+01 1.6000E-01
 3.4500E+01 3.7500E+01 8.9400E+01 1.8490E+01 2.1000E-01
 3.4500E+01 3.7500E+01 1.0440E+02 1.9170E+01 2.0000E-01
 3.4500E+01 3.7500E+01 1.1950E+02 2.0050E+01 1.8000E-01
 3.4500E+01 3.7500E+01 1.3460E+02 2.1160E+01 1.9000E-01
 3.4500E+01 3.7500E+01 1.4970E+02 2.3480E+01 2.1000E-01
 3.4500E+01 3.7500E+01 1.6480E+02 2.5160E+01 1.9000E-01
 3.8000E+01 4.2000E+01 8.9400E+01 1.5890E+01 2.3000E-01
 3.8000E+01 4.2000E+01 1.0440E+02 1.6850E+01 2.2000E-01
 3.8000E+01 4.2000E+01 1.1950E+02 1.7440E+01 1.9000E-01
 3.8000E+01 4.2000E+01 1.3460E+02 1.8890E+01 2.0000E-01
 3.8000E+01 4.2000E+01 1.4970E+02 2.1090E+01 2.3000E-01
 3.8000E+01 4.2000E+01 1.6480E+02 2.3210E+01 2.0000E-01
 4.8000E+01 5.2000E+01 8.9400E+01 1.1020E+01 2.1000E-01
 4.8000E+01 5.2000E+01 1.0440E+02 1.1470E+01 2.1000E-01
 4.8000E+01 5.2000E+01 1.1950E+02 1.2580E+01 1.9000E-01
 4.8000E+01 5.2000E+01 1.3460E+02 1.3880E+01 2.0000E-01
 4.8000E+01 5.2000E+01 1.4970E+02 1.6100E+01 2.3000E-01
 4.8000E+01 5.2000E+01 1.6480E+02 1.8360E+01 2.2000E-01
ENDDATA             46
ENDSUBENT           56
"].

Definition e22223 : list string := ["SUBENT        22223001     961014              20050926       0000
BIB                 16         55
INSTITUTE  (2SWDUPP)
REFERENCE  (J,PR/C,45,(2),496,9202)
AUTHOR     (T.ROENNQVIST,H.CONDE,N.OLSSON,R.ZORRO,J.BLOMGREN,
            G.TIBELL,O.JONSSON,L.NILSSON,P.U.RENBERG,
            S.Y.VAN DER WERF)
TITLE      -BACKWARD ANGLE N-P DIFFERENTIAL CROSS SECTION AT 96
            MEV.
FACILITY   (CYCLO)  THE GUSTAF WERNER CYCLOTRON AT THE SVEDBERG
            LABORATORY, UPPSALA UNIVERSITY, WAS USED.
INC-SOURCE (P-LI7) A PROTON BEAM OF 100 MEV IMPINGED ON A 100-200
            MG/CM2 THICK LITHIUM TARGET, ENRICHED TO 99.98 PER-
            CENT IN 7-LI. THE UNAFFECTED PROTON BEAM WAS BENT BY
            A MAGNET INTO A WELL-SHIELDED BEAM DUMP, WHILE THE
            NEUTRONS WERE COLLIMATED IN A NARROW CONE AT 0 DEGREES
            BY A HEAVY COLLIMATOR SYSTEM, BEFORE ENTERING THE EX-
            PERIMENTAL AREA ABOUT 8 M AFTER THE PRODUCTION TARGET.
            THE NEUTRON BEAM SPOT AT THE IRRADIATION POSITION HAD
            A DIAMETER OF 7 CM.
INC-SPECT  .THE NEUTRONS SHOWED A SEMI-MONOENERGETIC NEUTRON SPEC-
            TRUM, WITH A FULL ENERGY PEAK AND A LOW-ENERGY TAIL.
            THE LATTER WAS SUPRESSED BY TOF TECHNIQUES.
SAMPLE     .THREE TO FOUR 50 MG/CM2 THICK CH2 TARGETS WERE MOUNTED
            IN A MULTITARGET SYSTEM WITH MULTIWIRE PROPORTIONAL
            CHAMBERS BETWEEN THE TARGETS. IN THIS WAY THE ENERGY
            LOSS IN THE SUBSEQUENT TARGETS COULD BE CORRECTED FOR.
            FOR ANGLES LARGER THAN 15 DEGREES, PROTONS FROM REAC-
            TIONS ON CARBON IN THE TARGET CHAMBER FOILS CAN INTER-
            FERE, AND A 85 MG/CM2 12-C TARGET WAS USED TO CORRECT
            FOR THAT.
DETECTOR   (MAGSP) THE RECOIL PROTONS WERE DETECTED BY A MAGNETIC
            SPECTROGRAPH, EQUIPPED WITH FOUR POSITION-SENSITIVE
            DRIFT CHAMBERS AND THREE TRIGGER SCINTILLATORS. THE
            PROTON ENERGY AND EMISSION ANGLE WAS DETERMINED BY
            RAY-TRACING THROUGH THE MAGNETIC FIELD.
           (MWPC )
           (SCIN )
PART-DET   (P    )
ANALYSIS   (INTAD) GAUSSIANS WERE FITTED TO THE PROTON PEAK FOR
            EACH ANGULAR BIN. SINCE THE DATA ONLY SPAN A PART OF
            THE FULL ANGULAR RANGE, IT WAS EXTRAPOLATED BY USING
            THE VL35 SOLUTION OF THE ARNDT ET AL PHASE-SHIFT ANA-
            LYSIS. IN THIS WAY THE DIFFERENTIAL DATA COULD BE
            INTEGRATED AND NORMALIZED TO THE TOTAL CROSS SECTION.
MONITOR    (1-H-1(N,TOT),,SIG)
CORRECTION .THE DATA WERE CORRECTED FOR BACKGROUND AND FOR ACCEP-
            TANCE EFFECTS.
ERR-ANALYS (DATA-ERR) THE ERRORS GIVEN ARE MAINLY STATISTICAL AND
            ORIGINATE FROM COUNTING STATISTICS, THE PEAK-FITTING
            PROCEDURE AND 12-C BACKGROUND SUBTRACTION. IN ADDI-
            TION, THERE IS A SYSTEMATIC CROSS SECTION SCALE UN-
            CERTAINTY OF 4 PER-CENT.
STATUS     .DATA TAKEN FROM MAIN REF.
HISTORY    (921206C) N.O.
           (930329E)
           (961014U)     + + ENTRY CORRECTED BY S. MAEV  + +
ENDBIB              55
NOCOMMON             0          0
ENDSUBENT           58
";
"SUBENT        22223002     961014              20050926       0000
BIB                  3          6
REACTION   (1-H-1(N,EL)1-H-1,,DA)
STATUS     .DATA TAKEN FROM MAIN REF.
HISTORY    (921206C) N.O.
           (930329E)
           (961014U)  EN-RSL-HW TRANSFERRED FROM DATA TO COMMON
                      SECTION
ENDBIB               6
COMMON               4          3
EN         EN-RSL-HW  MONIT      MONIT-ERR
MEV        MEV        MB         MB
 9.6000E+01 5.0000E-00 7.7700E+01 3.0000E-01
ENDCOMMON            3
DATA                 3         32
ANG-CM     DATA-CM    DATA-ERR
ADEG       MB/SR      MB/SR
 1.1700E+02 5.4800E+00 1.6000E-01
 1.1900E+02 5.5600E+00 1.6000E-01
 1.2100E+02 5.7500E+00 1.6000E-01
 1.2300E+02 6.1700E+00 1.7000E-01
 1.2500E+02 6.2600E+00 1.7000E-01
 1.2700E+02 6.2500E+00 1.7000E-01
 1.2900E+02 6.6100E+00 1.4000E-01
 1.3100E+02 7.0900E+00 1.5000E-01
 1.3300E+02 7.2400E+00 1.5000E-01
 1.3500E+02 7.3600E+00 1.5000E-01
 1.3700E+02 7.4100E+00 1.5000E-01
 1.3900E+02 7.7200E+00 1.5000E-01
 1.4100E+02 7.9000E+00 1.5000E-01
 1.4300E+02 8.0000E+00 1.5000E-01
 1.4500E+02 8.2400E+00 1.6000E-01
 1.4700E+02 8.4700E+00 1.6000E-01
 1.4900E+02 8.8000E+00 1.1000E-01
 1.5100E+02 9.0400E+00 1.1000E-01
 1.5300E+02 9.2600E+00 1.3000E-01
 1.5500E+02 9.9700E+00 1.4000E-01
 1.5700E+02 1.0400E+01 1.4000E-01
 1.5900E+02 1.0830E+01 1.5000E-01
 1.6100E+02 1.1060E+01 1.5000E-01
 1.6300E+02 1.1710E+01 1.5000E-01
 1.6500E+02 1.2210E+01 1.6000E-01
 1.6700E+02 1.2910E+01 1.7000E-01
 1.6900E+02 1.3370E+01 1.4000E-01
 1.7100E+02 1.3800E+01 1.4000E-01
 1.7300E+02 1.4260E+01 1.4000E-01
 1.7500E+02 1.4610E+01 1.6000E-01
 1.7700E+02 1.4920E+01 1.6000E-01
 1.7900E+02 1.4800E+01 1.8000E-01
ENDDATA             34
ENDSUBENT           49
"].

Definition e22225 : list string := ["SUBENT        22225001     961016   20050616   20050926       0000
BIB                 13         57
INSTITUTE  (2UK NPL)
REFERENCE  (J,ANE,17,(12),657,90)
AUTHOR     (T.B.RYVES,P.KOLKOWSKI)
TITLE      -THE DIFFERENTIAL CROSS SECTION FOR NEUTRON-PROTON
            SCATTERING AT 14.5 MEV.
FACILITY   .SAMES ACCELERATOR OF NPL.
INC-SOURCE (D-T  ) A 150 KEV DEUTERON BEAM OF UP TO 5 MICROAMPS,
            COLLIMATED TO 8 MM DIAMETER, WAS DIRECTED ONTO A SOLID
            TI-T TARGET, 4 CI, 1 MG/CM2. THE TITANIUM WAS EVAPORA-
            TED ON A PURE ALUMINUM BACKING, 0.5 MM THICK AND 4.1
            CM DIAMETER. THE TARGET WAS INCLINED 45 DEGREES WITH
            RESPECT TO THE BEAM, AND WAS COOLED WITH A JET OF AIR.
METHOD     (ASSOP) THE NEUTRON FLUENCE WAS DETERMINED WITH THE
            ASSOCIATED PARTICLE TECHNIQUES, BY DETECTING THE ALPHA
            PARTICLES.
           (COINC) A PROTON RECOIL TELESCOPE WAS USED TO DETERMINE
            THE N-P SCATTERING CROSS SECTIONS.
MONITOR    . ABSOLUTE MEASUREMENTS
DETECTOR   (SOLST) THE ASSOCIATED ALPHA PARTICLES WERE DETECTED
            WITH A SILICON DETECTOR, HAVING A 4 MM DIAMETER APER-
            TURE, MOUNTED ABOUT 1 M FROM THE TARGET, AND AT AN
            ANGLE OF 90 DEGREES WITH RESPECT TO THE BEAM.
           (LONGC) IN ADDITION, A LONGCOUNTER, SITUATED AT 5 M
            FROM THE TARGET, WAS USED TO MONITOR THE FLUX STABILI-
            TY AND TARGET QUALITY.
           (TELES,SOLST,PROPC) THE PROTON RECOIL TELESCOPE HAD A
            24.322 MG/CM2 CH2 RADIATOR, 1.125 CM IN RADIUS, AND
            CONTAINING 2.088E+21 ATOMS OF HYDROGEN/CM2. THE DETEC-
            TOR APERTURE HAD A RADIUS OF 0.75015 CM, AND WAS SITU-
            ATED 12.666 CM FROM THE RADIATOR. THE DETECTOR SYSTEM
            CONSISTED OF PROPORTIONAL COUNTERS AND A SILICON SAND-
            WICH DETECTOR. THE PROPORTIONAL COUNTERS WERE OPERATED
            WITH A CONTINUOUS FLOW OF 95 PER-CENT AR AND 5 PER-
            CENT CO2 GAS AT PRESSURES OF 760 AND 400 TORR FOR THE
            0 AND 35 DEGREE MEASUREMENTS. THE SILICON SANDWICH DE-
            TECTOR CONSISTED OF TWO FULLY DEPLETED SURFACE BARRIER
            DELTA-E DETECTORS, 100 AND 250 MICROMETERS THICK,
            WORKING IN COINCIDENCE MODE. THE TELESCOPE WAS POSI-
            TIONED NORMAL TO THE TARGET AT A DISTANCE OF ABOUT 20
            CM, AND COULD BE ROTATED AROUND A VERTICAL AXIS
            THROUGH THE RADIATOR, FOR MEASUREMENTS AT DIFFERENT
            ANGLES. 10 MEASUREMENTS WERE MADE AT EACH OF 0 AND
            +/- 35 DEGREES SCATTERING ANGLE.
CORRECTION .CORRECTIONS WERE MADE FOR DEAD-TIME LOSSES IN THE AL-
            PHA COUNTING, BACKGROUND FROM CARBON IN THE RADIATOR,
            TARGET-SCATTERED NEUTRONS, PROTONS SCATTERED IN THE
            PRT APERTURE, PROTON REACTIONS IN SILICON, AND DEAD-
            TIME IN THE PRT ELECTRONICS. THE CALCULATED PRT EFFI-
            CIENCY WAS CONSIDERED TO BE EXACT.
ERR-ANALYS (ERR-T)    THE 180 DEGREE CROSS SECTION AND
                      THE 110/180 DEGREE CROSS SECTION RATIO HAS
            THE ERRORS CONTRIBUTIONS GIVEN IN PROPER SUBENTS
STATUS     .DATA OBTAINED FROM MAIN REF.
HISTORY    (921212C) N.O.
           (930329E)
           (961016A)  + + ENTRY CORRECTED BY S. MAEV
                      INCIDENT NEUTRON ENERGY PUT IN SAN 001
ENDBIB              57
COMMON               1          3
EN
MEV
 1.4470E+01
ENDCOMMON            3
ENDSUBENT           64
";
"SUBENT        22225002     961016   20050616   20050926       0000
BIB                  5         22
REACTION  1(1-H-1(N,EL)1-H-1,,DA)
          2(1-H-1(N,EL)1-H-1,,DA)
PART-DET   (P    )
ANALYSIS  1     ENDF/B-V USED TO CALCULATE THE PRT EFFICIENCY.
          2     ENDF/B-VI USED TO CALCULATE THE PRT EFFICIENCY.
HISTORY    (961016U) POINTER FORMALISM USED INSTEAD OF FLAGS
                     ENERGY TRNSFERRED IN SUBENT 001.
                     ERROR STRUCTURE GIVEN
ERR-ANALYS (ERR-S)  STATISTICAL ERROR                       0.4
           (ERR-1)  DEAD-TIME   ERROR                       0.1
           (ERR-2)  RADIATOR COMPOSITION, CH2 ERROR         0.1
           (ERR-3)  PRT INTERNAL GEOMETRY  ERROR            0.5
           (ERR-4)  DISTANCE TO TARGET     ERROR            0.4
           (ERR-5)  ATTENUATION OF NEUTRONS ERROR           0.2
           (ERR-6)  PEAK ANALYSIS, INCL SCATTERING ERROR    0.5
           (ERR-7)  LOST COUNTS IN PHA ERROR                0.2
           (ERR-8)  P LOSS IN COUNTER WIRES ERROR           0.1
           (ERR-9)  P LOSS IN SI REACTIONS ERROR            0.2
           (ERR-10) NEUTRON FLUENCE FROM ASSOP ERROR        1.0
            --------------------------------------------
             TOTAL                              1.4
           .
ENDBIB              22
COMMON              12          6
ERR-S      ERR-1      ERR-2      ERR-3      ERR-4      ERR-5
ERR-6      ERR-7      ERR-8      ERR-9      ERR-10     ERR-T
PER-CENT   PER-CENT   PER-CENT   PER-CENT   PER-CENT   PER-CENT
PER-CENT   PER-CENT   PER-CENT   PER-CENT   PER-CENT   PER-CENT
  0.4        0.1        0.1        0.5        0.4        0.2
    0.5        0.2        0.1        0.2        1.0        1.4
ENDCOMMON            6
DATA                 5          1
ANG-CM     DATA      1ERR-T     1DATA      2ERR-T     2
ADEG       MB/SR      MB/SR      MB/SR      MB/SR
 1.8000E+02 5.7200E+01 8.0000E-01 5.7100E+01 8.0000E-01
ENDDATA              3
ENDSUBENT           37
";
"SUBENT        22225003     961016   20050616   20050926       0000
BIB                  3         12
REACTION   ((1-H-1(N,SCT)1-H-1,,DA,P)//(1-H-1(N,SCT)1-H-1,,DA,P))
HISTORY    (961016U) REACTION SF7-'P' INTRODUCED.'EN' MOVED
                     IN SUBENT 001. ERROR STRUCTURE GIVEN
ERR-ANALYS (ERR-S)  STATISTICAL ERROR                    0.6
           (ERR-1)  DISTANCE TO TARGET ERROR             0.2
           (ERR-2)  ATTENUATION OF NEUTRONS ERROR        0.1
           (ERR-3)  PEAK ANALYSIS, INCL SCATTERING,ERROR 0.3
           (ERR-4)  P LOSS IN COUNTER WIRES ERROR        0.1
           (ERR-5)  P LOSS IN SI REACTIONS  ERROR        0.2
            --------------------------------------------
             TOTAL                                0.7
           .
ENDBIB              12
COMMON               6          3
ERR-S      ERR-1      ERR-2      ERR-3      ERR-4      ERR-5
PER-CENT   PER-CENT   PER-CENT   PER-CENT   PER-CENT   PER-CENT
  0.6        0.2        0.1        0.3        0.1        0.2
ENDCOMMON            3
DATA                 5          1
ANG-NM     ANG-DN     DATA       ERR-T      ERR-T
ADEG       ADEG       NO-DIM     NO-DIM     PER-CENT
 3.5000E+00 0.0000E+00 7.8900E-01 6.0000E-03 7.0000E-01
ENDDATA              3
ENDSUBENT           24
";
"SUBENT        22225004     961016   20050616   20050926       0000
BIB                  3         17
REACTION   ((1-H-1(N,SCT)1-H-1,,DA,P)//(1-H-1(N,SCT)1-H-1,,DA,P))
ERR-ANALYS (ERR-S)  STATISTICAL ERROR                       0.4
           (ERR-1)  DEAD-TIME   ERROR                       0.1
           (ERR-2)  RADIATOR COMPOSITION, CH2 ERROR         0.1
           (ERR-3)  PRT INTERNAL GEOMETRY  ERROR            0.5
           (ERR-4)  DISTANCE TO TARGET     ERROR            0.4
           (ERR-5)  ATTENUATION OF NEUTRONS ERROR           0.2
           (ERR-6)  PEAK ANALYSIS, INCL SCATTERING ERROR    0.5
           (ERR-7)  LOST COUNTS IN PHA ERROR                0.2
           (ERR-8)  P LOSS IN COUNTER WIRES ERROR           0.1
           (ERR-9)  P LOSS IN SI REACTIONS ERROR            0.2
           (ERR-10) NEUTRON FLUENCE FROM ASSOP ERROR        1.0
            --------------------------------------------
             TOTAL                              1.4
           .
HISTORY    (961016U) REACTION SF7='P' INTRODUCED.
            EN MOVED IN SUBENT 001. ERROR STRUCTURE GIVEN
ENDBIB              17
COMMON              11          6
ERR-S      ERR-1      ERR-2      ERR-3      ERR-4      ERR-5
ERR-6      ERR-7      ERR-8      ERR-9      ERR-10
PER-CENT   PER-CENT   PER-CENT   PER-CENT   PER-CENT   PER-CENT
PER-CENT   PER-CENT   PER-CENT   PER-CENT   PER-CENT
  0.4        0.1        0.1        0.5        0.4        0.2
    0.5        0.2        0.1        0.2        1.0
ENDCOMMON            6
DATA                 5          1
ANG-NM     ANG-DN     DATA       ERR-T      ERR-T
ADEG       ADEG       NO-DIM     NO-DIM     PER-CENT
 0.0000E+00 4.5000E+01 1.0530E+00 1.5000E-02 1.4000E-00
ENDDATA              3
ENDSUBENT           32
"].

Definition e22277 : list string := ["SUBENT        22277001     961223              20050926       0000
BIB                 16         60
INSTITUTE  (2SWDUPP)
REFERENCE  (J,PRL,75,1046,9508)
           (C,94GATLIN,,60,9405) REFERENCE ADDED 961223.
AUTHOR     (T.E.O.ERICSON,B.LOISEAU,J.NILSSON,N.OLSSON,J.BLOMGREN,
            H.CONDE,K.ELMGREN,O.JONSSON,L.NILSSON,P.U.RENBERG,
            A.RINGBOM,T.ROENNQVIST,G.TIBELL,R.ZORRO)
TITLE      -THE PI-NN COUPLING FROM HIGH PRECISION NP CHARGE
            EXCHANGE AT 162 MEV.
FACILITY   (CYCLO)  THE GUSTAF WERNER CYCLOTRON AT THE SVEDBERG
            LABORATORY, UPPSALA UNIVERSITY, WAS USED.
INC-SOURCE (P-LI7) A PROTON BEAM OF 162 MEV IMPINGED ON A 427
            MG/CM2 THICK LITHIUM TARGET, ENRICHED TO 99.98 PER-
            CENT IN 7-LI. THE UNAFFECTED PROTON BEAM WAS BENT BY
            A MAGNET INTO A WELL-SHIELDED BEAM DUMP, WHILE THE
            NEUTRONS WERE COLLIMATED IN A NARROW CONE AT 0 DEGREES
            BY A HEAVY COLLIMATOR SYSTEM, BEFORE ENTERING THE EX-
            PERIMENTAL AREA ABOUT 8 M AFTER THE PRODUCTION TARGET.
            THE NEUTRON BEAM SPOT AT THE IRRADIATION POSITION HAD
            A DIAMETER OF 7 CM.
INC-SPECT  .THE NEUTRONS SHOWED A SEMI-MONOENERGETIC NEUTRON SPEC-
            TRUM, WITH A FULL ENERGY PEAK AND A LOW-ENERGY TAIL.
            THE LATTER WAS SUPRESSED BY TOF TECHNIQUES.
SAMPLE     .FOUR 100 MG/CM2 THICK CH2 TARGETS WERE MOUNTED IN A
            MULTITARGET SYSTEM WITH MULTIWIRE PROPORTIONAL
            CHAMBERS BETWEEN THE TARGETS. IN THIS WAY THE ENERGY
            LOSS IN THE SUBSEQUENT TARGETS COULD BE CORRECTED FOR.
            FOR ANGLES LARGER THAN 15 DEGREES, PROTONS FROM REAC-
            TIONS ON CARBON IN THE TARGET CHAMBER FOILS CAN INTER-
            FERE, AND TWO 185 MG/CM2 12-C TARGET WAS USED TO
            CORRECT FOR THAT.
DETECTOR   (MAGSP) THE RECOIL PROTONS WERE DETECTED BY A MAGNETIC
            SPECTROGRAPH, EQUIPPED WITH FOUR POSITION-SENSITIVE
            DRIFT CHAMBERS AND THREE TRIGGER SCINTILLATORS. THE
            PROTON ENERGY AND EMISSION ANGLE WAS DETERMINED BY
            RAY-TRACING THROUGH THE MAGNETIC FIELD.
           (MWPC )
           (SCIN )
PART-DET   (P    )
ANALYSIS   (INTAD) GAUSSIANS WERE FITTED TO THE PROTON PEAK FOR
            EACH ANGULAR BIN. SINCE THE DATA ONLY SPAN A PART OF
            THE FULL ANGULAR RANGE, IT WAS EXTRAPOLATED BY USING
            THE VZ40 SOLUTION OF THE ARNDT ET AL PHASE-SHIFT ANA-
            LYSIS. IN THIS WAY THE DIFFERENTIAL DATA COULD BE
            INTEGRATED AND NORMALIZED TO THE TOTAL CROSS SECTION.
MONITOR    (1-H-1(N,TOT),,SIG) VALUE FROM LISOWSKI. IN ADDITION
            TO THE STATISTICAL ERROR GIVEN, THERE IS A 1 PERCENT
            SYSTEMATIC ERROR.
CORRECTION .THE DATA WERE CORRECTED FOR BACKGROUND AND FOR ACCEP-
            TANCE EFFECTS.
ERR-ANALYS (DATA-ERR) THE ERRORS GIVEN ARE MAINLY STATISTICAL AND
            ORIGINATE FROM COUNTING STATISTICS, THE PEAK-FITTING
            PROCEDURE AND 12-C BACKGROUND SUBTRACTION. IN ADDI-
            TION, THERE IS A SYSTEMATIC CROSS SECTION SCALE UN-
            CERTAINTY OF 4 PER-CENT.
STATUS     .DATA TAKEN FROM MAIN REF.
HISTORY    (950902C) N.O.
           (951213E)
           (961022A)  *  *  CORRECTED BY S. MAEV         *  *
           (961223A) NEW REFERENCE ADDED. N.O.
           (970214E)
ENDBIB              60
NOCOMMON             0          0
ENDSUBENT           63
";
"SUBENT        22277002     961022              20050926       0000
BIB                  3          8
REACTION   (1-H-1(N,EL)1-H-1,,DA)
STATUS     .DATA TAKEN FROM MAIN REF.
HISTORY    (950902C) N.O.
           (951213E)
           (961022A)  REACTION SF4 FIELD ADDED AND
                      ENERGIES FROM DATA TO COMMON SECTION MOVED
                      EN-RSL-HW CHANGED TO EN-ERR, EN-RSL-FW GIVEN
           (970214E)
ENDBIB               8
COMMON               5          3
EN         EN-ERR     EN-RSL-FW  MONIT      MONIT-ERR
MEV        MEV        MEV        MB         MB
 1.6200E+02 5.0000E-01 1.2000E+00 4.8831E+01 3.0153E-01
ENDCOMMON            3
DATA                 3         31
ANG-CM     DATA-CM    DATA-ERR
ADEG       MB/SR      MB/SR
 1.1900E+02 3.5500E+00 1.0000E-01
 1.2100E+02 3.6100E+00 1.0000E-01
 1.2300E+02 3.9900E+00 1.1000E-01
 1.2500E+02 4.0900E+00 1.1000E-01
 1.2700E+02 4.1900E+00 1.1000E-01
 1.2900E+02 4.3200E+00 1.1000E-01
 1.3100E+02 4.4700E+00 1.1000E-01
 1.3300E+02 4.7800E+00 1.1000E-01
 1.3500E+02 4.7900E+00 1.3000E-01
 1.3700E+02 5.3000E+00 9.0000E-02
 1.3900E+02 5.3400E+00 1.0000E-01
 1.4100E+02 5.8100E+00 1.1000E-01
 1.4300E+02 5.6400E+00 1.2000E-01
 1.4500E+02 5.8200E+00 1.3000E-01
 1.4700E+02 6.4300E+00 1.3000E-01
 1.4900E+02 6.5500E+00 1.1000E-01
 1.5100E+02 6.7900E+00 9.0000E-02
 1.5300E+02 7.1200E+00 8.0000E-02
 1.5500E+02 7.4300E+00 9.0000E-02
 1.5700E+02 7.9800E+00 1.0000E-01
 1.5900E+02 8.3700E+00 1.0000E-01
 1.6100E+02 8.8300E+00 1.0000E-01
 1.6300E+02 9.3900E+00 1.1000E-01
 1.6500E+02 9.9100E+00 1.0000E-01
 1.6700E+02 1.0660E+01 1.3000E-01
 1.6900E+02 1.1770E+01 1.7000E-01
 1.7100E+02 1.2250E+01 1.9000E-01
 1.7300E+02 1.3080E+01 2.0000E-01
 1.7500E+02 1.3270E+01 2.0000E-01
 1.7700E+02 1.3850E+01 2.3000E-01
 1.7900E+02 1.3940E+01 2.2000E-01
ENDDATA             33
ENDSUBENT           50
"].

Definition e22542 : list string := ["SUBENT        22542001   19991214   20030919   20050926       0000
BIB                  8          9
INSTITUTE  (2UK OXF)
REFERENCE  (J,PRS/A,229,492,1955)
AUTHOR     (J.J.THRESHER,R.G.P.VOSS,R.WILSON)
TITLE      NEUTRON-PROTON SCATTERING AT SMALL ANGLES.
INC-SPECT  BROAD SPECTRUM.
DETECTOR   (SCIN)     LIQUID SCINTILLATION COUNTER
STATUS     (SCSRS)
HISTORY    (19820331C)  COMPILED BY NNDC
           (19991214T)  Converted by S.M.
ENDBIB               9
NOCOMMON             0          0
ENDSUBENT           12
";
"SUBENT        22542002   19991214   20030919   20050926       0000
BIB                  2          2
REACTION   (1-H-1(N,EL)1-H-1,,DA,,SPA)
HISTORY    (19991214T)  Converted from SUBENT 60856002
ENDBIB               2
COMMON               2          3
EN         EN-RSL
MEV        MEV
 1.0500E+02 3.0000E+00
ENDCOMMON            3
DATA                 4          7
COS-CM     ANG-RSL    DATA       ERR-S
NO-DIM     ADEG       MB/SR      MB/SR
 9.9420E-01 1.3000E+00 1.1600E+01 1.0000E+00
 9.8330E-01 1.3000E+00 1.1100E+01 1.0000E+00
 9.3670E-01 1.3000E+00 1.0200E+01 6.0000E-01
 8.5990E-01 1.3000E+00 8.5000E+00 4.0000E-01
 7.5590E-01 1.3000E+00 7.1000E+00 4.5000E-01
 6.2700E-01 1.3000E+00 6.0000E+00 5.0000E-01
 4.7900E-01 1.3000E+00 4.5500E+00 5.0000E-01
ENDDATA              9
ENDSUBENT           20
";
"SUBENT        22542003   19991214   20030919   20050926       0000
BIB                  3          3
REACTION   (1-H-1(N,EL)1-H-1,,DA,,SPA)
ERR-ANALYS  DATA-ERR GIVEN IS STATISTICAL ERROR ONLY
HISTORY    (19991214T)  Converted from SUBENT 60856003
ENDBIB               3
COMMON               2          3
EN         EN-RSL
MEV        MEV
 1.3700E+02 5.0000E+00
ENDCOMMON            3
DATA                 3          7
COS-CM     DATA       ERR-S
NO-DIM     MB/SR      MB/SR
 9.9400E-01 8.9000E+00 1.0000E+01
 9.8200E-01 8.0000E+00 6.0000E+00
 9.3500E-01 6.9000E+00 4.0000E+00
 8.5700E-01 5.8500E+00 3.5000E+01
 7.5100E-01 4.3800E+00 4.0000E+01
 6.2100E-01 2.8600E+00 4.0000E+01
 4.7300E-01 2.7000E+00 4.0000E+00
ENDDATA              9
ENDSUBENT           21
"].

Definition e22886 : list string := ["SUBENT        22886001   20051208   20060217   20060213       2175
BIB                 14         50
TITLE      .Forward-angle neutron-proton scattering at 96 MeV
AUTHOR     (C.JOHANSSON, J.BLOMGREN, A.ATAC, B.BERGENWALL,
           S.DANGTIP, K.ELMGREN, A.HILDEBRAND, O.JONSSON, J.KLUG,
           P.MERMOD, P.NADEL-TURONSKI, L.NILSSON, N.OLSSON,
           S.POMP, A.V.PROKOFIEV, P.-U.RENBERG, U.TIPPAWAN,
           M.OESTERLUND)
INSTITUTE  (2SWDUPP) .Johansson, Blomgren, Bergenwall, Dangtip,
                      Elmgren, Hildebrand, Klug, Mermod,
                      Nilsson, Olsson, Pomp, Tippawan,
                      Oesterlund - Department of Neutron Research
                     .Jonsson, Nilsson, Prokofiev, Renberg -
                       The Swedberg Laboratory
                     .Nadel-Turonski - Dept of Radiation Science
           (2SWDFOI) .Elmgren, Olsson
           (3TAICHM) .Dangtip, Tippawan
           (1USAGWU) .Nadel-Turonski
REFERENCE  (J,PR/C,71,024002,2005)    Main reference, data given
           (J,NIM/A,489,282,2002) Description of the experimental
             arrangements, including SCANDAL detector system
           (J,PR/C,57,1077,1998)  Experimental Details
FACILITY   (CYCLO,2SWDUPP)  Gustaf Werner proton cyclotron
                            of the Swedberg lab
INC-SOURCE (P-LI7)  427 mg/cm2 thick lithium target enriched to
                    99.98% by 7Li
DETECTOR   (TELES,PROPC,PROPC) Nine multiwire proportional
                               chambers (MWPC)
           (TELES,SCIN,CSICR)  SCANDAL set-up:
            - proton detection with 35 MeV energy threshold in
              the angular range 10-140 degrees
            - particle identification using E-DE technique
            - proton energy measured using 24 CsI(Na) detectors
            - proton trajectory calculated with drift chambers
            - count rate increased using a sandwiched multitarget
              system
            - events associated with 96 MeV neutrons from the
              beam are selected using a time-of-flight technique
            - energy resolution ~3.7 MeV
            - angular resolution  aprx. 10 degree
           (TFBC)  For neutron flux monitoring
METHOD     (TOF)
PART-DET   (N,P)
MONITOR    .Absolute measurements
SAMPLE     .Target box containes cylinders of C-H2 16 mm high and
            8 mm diameter, mass 748.2 gram, and C-12 targets, the
            latter for subtraction of the carbon contribution
            to the C-H2 spectra, containing 98.9% of C-12, weight
            1225 gram
CORRECTION .For energy loss in the subsequent targets
STATUS     .Data from main reference
HISTORY    (20051205C)    S.M.
ENDBIB              50
COMMON               3          3
EN         EN-ERR     EN-RSL-FW
MEV        MEV        MEV
    95.6     0.5        1.6
ENDCOMMON            3
ENDSUBENT           57
";
"SUBENT        22886002   20051209   20060217   20060213       2175
BIB                  2          3
REACTION   (1-H-1(N,EL)1-H-1,,DA)   Neutron  angdist
STATUS     .Data from Table I of main reference
           (APRVD)  J.Blomgren, 2005-06-27
ENDBIB               3
NOCOMMON             0          0
DATA                 6         12
ANG-CM     DATA-CM    ERR-S      ERR-S      ERR-SYS    ERR-SYS
ADEG       MB/SR      MB/SR      PER-CENT   MB/SR      PER-CENT
19.9       10.68        0.37       3.5        1.31      12.3
27.0        9.82        0.32       3.3        0.65       6.6
34.2        7.39        0.17       2.3        0.31       4.2
42.5        7.63        0.13       1.7        0.30       3.9
50.0        5.70        0.11       1.9        0.23       4.0
51.6        6.31        0.16       2.5        0.25       4.0
58.2        5.08        0.09       1.8        0.21       4.1
58.9        4.54        0.12       2.6        0.18       4.0
66.5        4.33        0.11       2.5        0.18       4.2
66.9        4.48        0.08       1.8        0.18       4.0
74.6        4.28        0.10       2.3        0.18       4.2
75.6        4.03        0.07       1.7        0.18       4.5
ENDDATA             14
ENDSUBENT           22
";
"SUBENT        22886003   20051208   20060217   20060213       2175
BIB                  3          5
REACTION   (1-H-1(N,EL)1-H-1,,DA)  Neutron angdist
REL-REF    (R,22668002,J.RAHM+,J,PR/C,63,044001,2001)
STATUS     .From Table II of main reference
           (RNORM,22668002)
           (APRVD)  J.Blomgren, 2005-06-27
ENDBIB               5
NOCOMMON             0          0
DATA                 4         53
ANG-CM     DATA-CM    ERR-T      ERR-T
ADEG       MB/SR      MB/SR      PER-CENT
 75.         4.10      0.11        2.7
 77.         3.99      0.11        2.7
 79.         3.99      0.11        2.8
 81.         4.11      0.11        2.8
 83.         4.13      0.11        2.7
 85.         4.02      0.10        2.7
 87.         4.11      0.10        2.5
 89.         4.07      0.10        2.4
 91.         4.16      0.10        2.5
 93.         4.14      0.10        2.4
 95.         4.20      0.10        2.4
 97.         4.14      0.10        2.4
 99.         4.36      0.06        1.4
101.         4.47      0.06        1.4
103.         4.59      0.06        1.3
105.         4.69      0.06        1.3
107.         4.82      0.06        1.2
109.         4.93      0.06        1.2
111.         5.02      0.07        1.4
113.         5.22      0.07        1.3
115.         5.28      0.07        1.3
117.         5.43      0.06        1.1
119.         5.60      0.06        1.1
121.         5.88      0.07        1.2
123.         6.12      0.07        1.1
125.         6.24      0.07        1.1
127.         6.41      0.07        1.1
129.         6.68      0.12        1.8
131.         7.17      0.13        1.8
133.         7.31      0.13        1.8
135.         7.44      0.14        1.9
137.         7.51      0.14        1.8
139.         7.70      0.14        1.8
141.         8.01      0.14        1.7
143.         8.10      0.14        1.7
145.         8.34      0.14        1.7
147.         8.55      0.15        1.8
149.         8.95      0.10        1.1
151.         9.19      0.10        1.1
153.         9.47      0.10        1.1
155.        10.14      0.12        1.2
157.        10.60      0.12        1.1
159.        11.00      0.14        1.3
161.        11.26      0.14        1.2
163.        11.92      0.14        1.2
165.        12.42      0.15        1.2
167.        13.15      0.16        1.2
169.        13.62      0.12        0.9
171.        14.04      0.13        0.9
173.        14.53      0.13        0.9
175.        14.89      0.14        0.9
177.        15.19      0.15        1.1
179.        15.05      0.17        1.0
ENDDATA             55
ENDSUBENT           65
"].

Definition e22914 : list string := ["SUBENT        22914001   20080701   20080828   20080828       2200
BIB                 16         70
TITLE       Search for three-body force effects in neutron-
            deuteron scattering at 95 MeV.
AUTHOR     (P.Mermod, J.Blomgren, B.Bergenwall, A.Hildebrand,
           C.Johansson, J.Klug, L.Nilsson, N.Olsson, M.Osterlund,
           S.Pomp, U.Tippawan, O.Jonsson,A.Prokofiev,P.-U.Renberg,
           P.Nadel-Turonski, Y.Maeda, H.Sakai, A.Tamii)
INSTITUTE  (2SWDUPP) Klug, Blomgren, Bergenwall, Hildebrand,
                      Johansson, Mermod, Nilsson, Pomp, Tippawan,
                      Olsson, Osterlund -
                      Dept.of Neutron Research, Uppsala University
                     Jonsson, Prokofiev, Renberg, Nilsson -
                      Swedberg Lab.,
                     Nadel-Turonski- Dept. of Radiation Sciences
           (2SWDFOI) Olsson - Swedish Defence Res.Agency
           (2JPNTOK) Maeda, Sakai, Tamii -Dep.of Physics
REFERENCE  (J,PL/B,597,243,2004) Main Ref.
           (J,NIM/A,489,282,2002) Details of neutron beam facility
           (J,NIM/A,452,484,2000) MEDLEY exp.setup description
           (C,2004SANTA,1,688,200409)     Graphs.
           (J,PR/C,74,054002,2006) Data confirmed in Fig.15.
            Details of experiment and data analysis.
FACILITY   (CYCLO,2SWDUPP)  MEDLEY experimental setup at the
                            Swedberg Laboratory - TSL
INC-SOURCE (P-LI7) 98 MeV proton beam of about 5 microA struck
            8 mm thick Li-7 target.
INC-SPECT  .Full-energy peak neutrons of 94.8 MeV and 2.7 MeV FWHM
            Intensity about 5.E4 n/(cm2*sec) at target position.
            Relative neutron fluences were determined by two
            independent fission-based monitors.
DETECTOR   (TELES,SIBAR,CSICR) Eight detector telescopes,each can
            be equipped with one or two silicon detectors and one
            CsI detector. For light ion detection in energy range
            3-130 MeV.Telescopes were placed in forward hemisphere
            at various angles. Energy resolution from 3 to 15 MeV
            (FWHM) varying from telescope to telescope.
            CsI detection efficiency between 0.92 and 1.00 with
            uncertainty up to 2%.
SAMPLE     .Polyethylene C-D2 of 280 microm thickness,
            C-H2 of 1 mm or 195 microm thickness foils for
            nd and np measurements respectively.
            C target of 150 microm thickness for carbon background
            subtraction. Empty target frame for instrumental
            background subtraction.
METHOD     (EDE) Protons and deuterons were identified by
                 selection in deltaE/E Two-dimensional plot.
           (TOF) Events due to low-energy neutrons were partly
                 rejected by time-of-flight techniques.
CORRECTION .Correction factor for energy resolution from 0.99 to
            0.74 with uncertainty up to 2%.
            Correction for CsI detection efficiency.
            Correction for energy loses inside target at smallest
            neutron c.m. angle by about factor 2.
MONITOR    (1-H-1(N,EL)1-H-1,,DA)
MONIT-REF  (22668002,J.RAHM+,J,PR/C,63,044001,2001)  - Absolute
            cross-sections are obtained by normalization to the
            H(N,P) elastic scattering differential cross-section
            at 96 MeV, obtained by LISA magnetic spectrometer.
ERR-ANALYS (ERR-S) Counting Statistics uncertainty about 4.%
           (ERR-SYS) Systematic uncertainty(including ERR-1,ERR-2,
                    ERR-3) about 5.%
           (ERR-1) Absolute normalization uncertainty,
           (ERR-2) Uncertainty in setup geometry and detector
                   response,
           (ERR-3) Event identification uncertainty.
           (ERR-4) Uncertainty in absolute neutron flux given by
                   neutron monitors.
COMMENT    Corresponding author e-mail : jan.blomgren@tsl.uu.se
HISTORY    (20060518C) M.M. / S.M.
           (20070628A)  4th Reference was added.   M.M.
           (20080701A) 5th Reference was added.    M.M.
ENDBIB              70
COMMON               7          6
EN         EN-RSL-FW  ANG-ERR    ERR-1      ERR-2      ERR-3
ERR-4
MEV        MEV        ADEG       PER-CENT   PER-CENT   PER-CENT
PER-CENT
94.8        2.7        0.5           4.         2.         3.
 10.
ENDCOMMON            6
ENDSUBENT           80
";
"SUBENT        22914002   20080701   20080828   20080828       2200
BIB                  2          2
REACTION   (1-H-1(N,EL)1-H-1,,DA)
STATUS     (TABLE) From Table 1 of main Ref.
ENDBIB               2
NOCOMMON             0          0
DATA                 4         10
ANG-CM     DATA-CM    ERR-S      ERR-SYS
ADEG       MB/SR      MB/SR      MB/SR
  27.5       7.66       0.38        0.41
  50.6       5.53       0.11        0.30
  58.9       4.69       0.08        0.21
  69.7       4.63       0.07        0.25
  87.2       4.13       0.04        0.24
  98.6       4.16       0.06        0.19
 107.0       4.89       0.05        0.28
 127.6       6.41       0.05        0.37
 139.1       7.83       0.10        0.43
 150.0       9.25       0.11        0.54
ENDDATA             12
ENDSUBENT           19
";
"SUBENT        22914003   20080701   20080828   20080828       2200
BIB                  2          2
REACTION   (1-H-2(N,EL)1-H-2,,DA)
STATUS     (TABLE) From Table 1 of main Ref.
ENDBIB               2
NOCOMMON             0          0
DATA                 4         10
ANG-CM     DATA-CM    ERR-S      ERR-SYS
ADEG       MB/SR      MB/SR      MB/SR
  29.5      17.1        0.2         2.2
  49.6       3.87       0.06        0.20
  58.3       1.86       0.03        0.10
  69.5       1.31       0.03        0.07
  88.8       0.668      0.015       0.038
  99.2       0.490      0.016       0.027
 107.6       0.495      0.017       0.029
 128.7       0.506      0.016       0.029
 139.5       0.483      0.027       0.026
 150.0       0.746      0.049       0.043
ENDDATA             12
ENDSUBENT           19
"].

Definition e30078 : list string := ["SUBENT        30078001   20080215   20080530   20080530       3125
BIB                 15         31
INSTITUTE  (3ISLHFA)
REFERENCE  (J,PL/B,24,173,196702)
AUTHOR     (A.Suhami,R.Fox)
TITLE      Neutron-proton small angle scattering
INC-SOURCE (D-T) tritium target
SAMPLE     Liquid scintillator Ne213 containing hydrogen
            and carbon
METHOD     (TOF,COINC) fast time-of-flight technique,detection of
           recoil protons and scattered neutrons by pulse shape
           discrimination.
DETECTOR   (SCIN)liquid scintillator NE213 as target and
            detector in combination with RCA 8575 photomultiplier
            for recoil proton detection
MONITOR    (1-H-1(N,EL)1-H-1,,DA)
            arithmetic mean normalized to 53 mb/ster
           calculated for 0 degr. by Nakamura in J.Phys.Soc.Japan,
           15,1359(1960).
PART-DET   (N,RCL) recoil protons and energy spectrum of scattered
           neutrons.
COMMENT    Reference quotes energy 14.1 MeV but priv.Comm. gives
           14.2 MeV.
STATUS     (TABLE) Letter Suhami to NNCSC 67/03/19
HISTORY    (19670802C) data from author's letter entered in
            Dastar-00221
           (19670804A) Dastar proof copy sent to author
           (19701209T) Dastar-00221 converted to Exfor
           (19790308U) ND-minor changes-
           (20080305A) BIB section updated
CORRECTION Corrected for angular resol.,mult.scattering and
           detector efficiency
ERR-ANALYS (ERR-S) Only statistical errors given.
ENDBIB              31
COMMON               4          3
EN         EN-RSL     ANG-RSL    MONIT
MEV        KEV        ADEG       MB/SR
 1.4200E+01 5.0000E+02 1.0000E+00 5.3000E+01
ENDCOMMON            3
ENDSUBENT           38
";
"SUBENT        30078002   20080215   20080530   20080530       3125
BIB                  1          1
REACTION   (1-H-1(N,EL)1-H-1,,DA)
ENDBIB               1
NOCOMMON             0          0
DATA                 3         15
ANG-CM     DATA-CM    ERR-S
ADEG       MB/SR      MB/SR
 1.2000E+01 5.1300E+01 2.1000E+00
 1.4000E+01 5.7000E+01 2.2000E+00
 1.6000E+01 5.4100E+01 2.1000E+00
 1.8000E+01 4.9700E+01 2.0000E+00
 2.0000E+01 5.5400E+01 2.1000E+00
 2.2000E+01 5.0000E+01 2.0000E+00
 2.4000E+01 5.3000E+01 2.1000E+00
 2.6000E+01 5.2200E+01 2.1000E+00
 2.8000E+01 5.2200E+01 2.1000E+00
 3.0000E+01 5.3800E+01 2.1000E+00
 3.2000E+01 5.2300E+01 2.1000E+00
 3.4000E+01 5.6700E+01 2.2000E+00
 3.6000E+01 5.2200E+01 2.1000E+00
 3.8000E+01 5.3200E+01 2.1000E+00
 9.0000E+01 5.2300E+01 2.1000E+00
ENDDATA             17
ENDSUBENT           23
"].

Definition e30162 : list string := ["SUBENT        30162001   20080208   20080530   20080530       3126
BIB                 12         16
INSTITUTE  (2GERJEU)
REFERENCE  (J,ADP,16,354,196507)Graph, sigma versus angle
AUTHOR     (E.Greiner, H.Karge)
TITLE      Investigation of n-p-scattering at 14.1 MeV
EXP-YEAR   (1965)
FACILITY   (VDG) Cascade-generator
INC-SOURCE (D-T) 1-H-3(d,n)2-He-4 reaction
SAMPLE     Hydrogen gas, 45 atmospheres, 99.9% purity
METHOD     Stereographic camera to registrate and to project
           the proton tracks in the cloud-chamber
DETECTOR   High-pressure-diffusion-cloud-chamber
PART-DET   (P) Recoil protons detected
HISTORY    (19670727C) Data compiled as Dastar-00113
           (19720405T) Data converted to Exfor
           (19760625U) Labcode and other bib corrections. OS
           (20080208A) BIB section updated
ENDBIB              16
COMMON               2          3
EN         EN-RSL
MEV        MEV
 1.4100E+01 3.5000E-01
ENDCOMMON            3
ENDSUBENT           23
";
"SUBENT        30162002   20080208   20080530   20080530       3126
BIB                  3          4
REACTION   (1-H-1(N,EL)1-H-1,,DA,,REL)
STATUS     (TABLE) Data taken from Karge's letter 23rd Jan 1967
                  corresponding to fig.3 of Ann.Phys. 16, 354 1967
ERR-ANALYS (ERR-S) All errors are statistical
ENDBIB               4
NOCOMMON             0          0
DATA                 3          5
ANG-CM     DATA       ERR-S
ADEG       ARB-UNITS  ARB-UNITS
 1.7000E+02 1.0550E+02 5.8000E+00
 1.5000E+02 1.0850E+02 4.9000E+00
 1.3000E+02 1.0310E+02 3.8000E+00
 1.1000E+02 9.7500E+01 3.4000E+00
 9.0000E+01 1.0220E+02 3.2000E+00
ENDDATA              7
ENDSUBENT           16
";
"SUBENT        30162003   20080208   20080530   20080530       3126
BIB                  4         13
REACTION   (1-H-1(N,EL)1-H-1,,DA,,COS/RS)
COMMENT    The experimental points are fitted by
           sigma(arb-units) = 1. + 0.074 * cos(ang) ** 2
           which yields
           diff-sigma(180.Deg) / diff-sigma(90.deg) = 1.074+-0.04
           All in center-of-mass-system
STATUS     (DEP,30162002). The given parameters are taken from
                Large's letter (23rd Jan 1967) corresponding to
                      the table in Ann.Phys. 16, 354 1967
                     .And are obtained by fitting cos**2 to the
                      measured data compiled as Exfor-30162.002
ERR-ANALYS No error for the cos**2 coefficient given, whereas
           error for the diff-sigma-ratio is given in the comment
ENDBIB              13
NOCOMMON             0          0
DATA                 2          1
NUMBER-CM  DATA
NO-DIM     NO-DIM
 2.0000E+00 7.4000E-02
ENDDATA              3
ENDSUBENT           21
"].

Definition e30327 : list string := ["SUBENT        30327001   20090115   20090508   20090506       3134
BIB                 13         18
INSTITUTE  (3HUNKFI)
REFERENCE  (J,PL/B,29,105,196904)
AUTHOR     (T.Czibok, GY.Hrehuss, I.Kovacs, L.Nagy, I.Vinnay)
TITLE      Measurements on the differential cross-section of
           n-p scattering below 3 MeV
FACILITY   (CCW) Cockcroft-Walton accelerator
INC-SOURCE (D-D) Deuteron-deuterium
SAMPLE     Terylene film, 5.5 mg/cm2 thick
METHOD     (COINC) Counter telescope.Proton counters (at 0 and
           15 degrees) in coincidence with a thin scintillation
           layer (deposited directly onto the surface of the
           radiator) in order to reduce the background.
DETECTOR   (SIBAR) surface barrier Si detectors
PART-DET   (P) Protons
ERR-ANALYS (DATA-ERR) The errors given are standard deviations.
STATUS     (TABLE) Data taken from Phys.Lett.B29(1969)105,Table 1.
HISTORY    (19760303C) OS.
           (20090125A) BIB section updated
ENDBIB              18
NOCOMMON             0          0
ENDSUBENT           21
";
"SUBENT        30327002   20090115   20090508   20090506       3134
BIB                  1          1
REACTION   ((1-H-1(N,EL)1-H-1,,DA)//(1-H-1(N,EL)1-H-1,,DA))
ENDBIB               1
NOCOMMON             0          0
DATA                 6          1
ANG-CM-NM  ANG-CM-DN  EN         EN-ERR     DATA       DATA-ERR
ADEG       ADEG       MEV        MEV        NO-DIM     NO-DIM
 0.0        30.        2.4600E+00 1.0000E-01 1.0700E+00 2.4000E-02
ENDDATA              3
ENDSUBENT            9
"].

Definition e30340 : list string := ["SUBENT        30340001   20090115   20090508   20090506       3134
BIB                  7         13
INSTITUTE  (3HUNKFI)
REFERENCE  (R,KFKI-10/1969,196903) Detailed. Tables, graphs
           (R,KFKI-19/1968,1968) Preliminary
           (J,PL/B,28,585,196903) Short, graphs only
AUTHOR     (GY.Hrehuss, T.Czibok)
TITLE      Oscillation in the energy dependence of the n-p
           scattering cross-section
FACILITY   (CCW,3HUNKFI) Cockcroft-Walton accelerator
INC-SOURCE (P-LI7) Proton-lithium7 for neutron energy 0.4-0.5 MeV
           (P-T) Proton-tritium for neutron energy 0.8-1.6 MeV
           (D-D)Deuteron-deuterium for neutron energy 2.5-5.3 MeV
HISTORY    (19760909C) OS.
           (20090115A) BIB section updated
ENDBIB              13
NOCOMMON             0          0
ENDSUBENT           16
";
"SUBENT        30340002   20090115   20090508   20090506       3134
BIB                  8         17
REACTION   ((1-H-1(N,TOT),,SIG)-
           (1-H-2(N,TOT),,SIG))
SAMPLE     H2O, D2O
METHOD     Relative-transmission measurement
DETECTOR   (SCIN) Scintillation counters as monitor and detector
STATUS     (TABLE) Data taken from KFKI-10/1969, Table 2.
HISTORY    (19760909C) OS.
CORRECTION For determination of background (15-30%) the
             transmission of a Cu sample was measured.
             For the measurement with t(p,n) neutrons background
             could be reduced (less than 5%) using another
             sample container setup.
           Multiple-scattering and in-scattering corrections were
             not necessary since no absolute cross section
             determination was done.
ERR-ANALYS (DATA-ERR) Cross-section errors correspond to standard
           deviation of single transmission ratio data
ENDBIB              17
NOCOMMON             0          0
DATA                 4         50
EN         EN-RSL     DATA       DATA-ERR
MEV        KEV        MB         MB
 3.9400E-01 6.0000E+00 3.3700E+03 2.2300E+03
 4.0600E-01 6.0000E+00 3.6400E+03 1.3300E+03
 4.2200E-01 6.0000E+00 3.1300E+03 9.0000E+02
 4.3500E-01 6.0000E+00 2.8400E+03 4.1000E+02
 4.4000E-01 6.0000E+00 2.5600E+03 3.2000E+02
 4.4500E-01 6.0000E+00 3.3100E+03 4.4000E+02
 4.4800E-01 6.0000E+00 3.2600E+03 3.0000E+02
 4.5200E-01 6.0000E+00 2.8200E+03 2.9000E+02
 4.6200E-01 5.0000E+00 3.0600E+03 7.6000E+02
 4.7000E-01 4.0000E+00 2.6700E+03 3.5000E+02
 8.3500E-01 2.0000E+01 1.7430E+03 4.7000E+01
 8.5500E-01 2.0000E+01 1.7640E+03 4.5000E+01
 8.6800E-01 2.0000E+01 1.6820E+03 4.9000E+01
 8.9500E-01 2.0000E+01 1.6320E+03 3.8000E+01
 9.2500E-01 2.0000E+01 1.4030E+03 5.7000E+01
 9.5000E-01 2.0000E+01 1.4780E+03 5.9000E+01
 9.7000E-01 2.0000E+01 1.3730E+03 4.7000E+01
 9.7500E-01 2.5000E+01 1.4110E+03 4.6000E+01
 1.0000E+00 1.5000E+01 1.3730E+03 4.4000E+01
 1.0200E+00 2.5000E+01 1.2380E+03 4.3000E+01
 1.0500E+00 2.5000E+01 1.2190E+03 5.6000E+01
 1.0900E+00 2.5000E+01 1.1600E+03 4.7000E+01
 1.1350E+00 2.5000E+01 1.1480E+03 3.3000E+01
 1.1650E+00 2.5000E+01 1.1120E+03 3.5000E+01
 1.2150E+00 2.5000E+01 1.0110E+03 3.6000E+01
 1.2550E+00 2.5000E+01 8.9100E+02 3.2000E+01
 1.3200E+00 2.5000E+01 8.3200E+02 3.8000E+01
 1.3800E+00 2.0000E+01 8.2800E+02 3.5000E+01
 1.4300E+00 2.0000E+01 7.2900E+02 2.7000E+01
 1.5000E+00 2.0000E+01 7.1600E+02 3.4000E+01
 1.5700E+00 1.5000E+01 6.5100E+02 3.2000E+01
 1.6100E+00 1.5000E+01 5.5300E+02 3.9000E+01
 2.5800E+00 1.0000E+02 1.4000E+02 4.8000E+01
 2.6700E+00 9.0000E+01 1.8900E+02 2.5600E+02
 2.8300E+00 1.0000E+02 2.0100E+02 5.0000E+01
 2.9500E+00 1.0000E+02 1.9300E+02 1.5200E+02
 3.0900E+00 1.0000E+02 9.3000E+01 4.5000E+01
 3.2700E+00 1.0000E+02 1.0000E+01 8.4000E+01
 3.3700E+00 1.2000E+02 1.2900E+02 4.5000E+01
 3.6000E+00 1.1000E+02 2.7200E+02 1.7800E+02
 3.6500E+00 1.1000E+02 1.5000E+02 4.5000E+01
 3.9300E+00 1.1000E+02 3.1000E+01 1.2600E+02
 3.9400E+00 1.0000E+02 1.8500E+02 3.2000E+01
 4.1800E+00 1.0000E+02-9.0000E+00 3.5000E+01
 4.2800E+00 9.0000E+01 1.0300E+02 1.1100E+02
 4.5600E+00 1.0000E+02 6.9000E+01 2.7000E+01
 4.5900E+00 8.0000E+01 1.4800E+02 1.1200E+02
 4.8600E+00 7.0000E+01 2.3100E+02 4.7000E+01
 5.0600E+00 5.0000E+01 6.0000E+01 4.0000E+01
 5.2400E+00 1.0000E+01 1.5300E+02 7.0000E+01
ENDDATA             52
ENDSUBENT           74
";
"SUBENT        30340003   20090115   20090508   20090506       3134
BIB                  9         14
REACTION   ((1-H-1(N,EL)1-H-1,,DA)//(1-H-1(N,EL)1-H-1,,DA))
SAMPLE     H2O
METHOD     (PSD) Measurement of recoil protons. Gamma-background
           was eliminated by pulse-shape discrimination.
DETECTOR   (SCIN) Trans-stylben crystal scintillation counter
PART-DET   (P) Recoil protons
ANALYSIS   Differential cross-sections were calculated from the
           measured energy spectra of recoil protons. Since the
           neutron flux was not determined the flux-independent
           values relative to those at 50 degrees are given.
ERR-ANALYS (DATA-ERR) Errors refer to the accuracy of the analysis
           Compared with this, statistical errors are negligible.
STATUS     (TABLE) Data taken from KFKI-10/1969, Table 4.
HISTORY    (19760909C) OS.
ENDBIB              14
NOCOMMON             0          0
DATA                 6          1
ANG-CM-NM  ANG-CM-DN  EN         EN-RSL     DATA       DATA-ERR
ADEG       ADEG       MEV        MEV        NO-DIM     NO-DIM
 1.0000E+01 5.0000E+01 2.7200E+00 1.1000E-01 1.8650E+00 1.9500E-01
ENDDATA              3
ENDSUBENT           22
"].

Definition e30679 : list string := ["SUBENT        30679001   20090904   20091127   20091125       3140
BIB                 13         22
INSTITUTE  (3CZRUJF)
REFERENCE  (C,79SMOLENIC,,119,197906) in Russian
AUTHOR     (J.Vincour,P.Bem,P.Kozma,B.Presperin)
TITLE      Angular distribution of n-p scattering at 14.7 MeV
FACILITY   (NGEN)
           Neutron generator with deuteron energy up to 120keV
INC-SOURCE (D-T)
SAMPLE     Polyethylene foil 8.27 mg/cm2
METHOD     (COINC,EDE)
DETECTOR   (TELES,SIBAR,SIBAR) Two dE (150 mu-m thick and 100 mm2
           area) and one E (500 mu-m thick and 200 mm2 area)
           silicon surface barrier detectors in coincidence
MONITOR    Surface barrier detectors used as neutron monitor
ERR-ANALYS (DATA-ERR) Deuteron energy, coincidence system error,
           telescope effectivity,multiple scattering effects
           were taken into account.
STATUS     (TABLE) Data taken from text and Tbl.1 of 2nd Int.Symp.
           of Neutron Induced Reactions,Smolenice,
                                        June 25-29,1979,pag.119
HISTORY    (19840607C) DG.-
           (20090725A) SD:Updated to new date formats,lower case.
           Cosmetic corrections and additions.
ENDBIB              22
COMMON               2          3
EN         EN-RSL-FW
MEV        MEV
 1.4700E+01 2.8000E-01
ENDCOMMON            3
ENDSUBENT           29
";
"SUBENT        30679002   20090904   20091127   20091125       3140
BIB                  2          4
REACTION   (1-H-1(N,EL)1-H-1,,DA,,REL)
MISC-COL   (MISC1) Proton angle in lab system
           (MISC2) + unsymetric proton angular resolution
           (MISC3) - unsymetric proton angular resolution
ENDBIB               4
NOCOMMON             0          0
DATA                 8          5
ANG-CM     +ANG-RSL   -ANG-RSL   DATA-CM    DATA-ERR   MISC1
MISC2      MISC3
ADEG       ADEG       ADEG       ARB-UNITS  ARB-UNITS  ADEG
ADEG       ADEG
 1.7300E+02 4.5000E+00 4.5000E+00 4.5670E+03 3.7000E+01 3.5000E+00
 2.3000E+00 2.3000E+00
 1.5900E+02 8.2000E+00 7.8000E+00 4.5790E+03 6.0000E+01 1.0500E+01
 3.8000E+00 4.0000E+00
 1.3950E+02 8.1000E+00 8.0000E+00 4.4480E+03 4.0000E+01 2.0200E+01
 3.9000E+00 4.1000E+00
 1.1940E+02 7.9000E+00 7.4000E+00 4.3780E+03 3.9000E+01 3.0200E+01
 3.8000E+00 4.0000E+00
 9.9300E+01 7.7000E+00 6.6000E+00 4.2700E+03 4.3000E+01 4.0100E+01
 3.5000E+00 3.6000E+00
ENDDATA             14
ENDSUBENT           23
";
"SUBENT        30679003   20090904   20091127   20091125       3140
BIB                  2          2
REACTION   (1-H-1(N,EL)1-H-1,,DA,,COS/RS)
STATUS     (DEP,30679002)
ENDBIB               2
COMMON               2          3
NUMBER    1NUMBER    2
NO-DIM     NO-DIM
 0.0000E+00 2.0000E+00
ENDCOMMON            3
DATA                 3          1
DATA      1DATA      2DATA-ERR  2
NO-DIM     NO-DIM     NO-DIM
 1.0000E+00 7.0000E-02 1.2000E-02
ENDDATA              3
ENDSUBENT           14
";
"SUBENT        30679004   20090904   20091127   20091125       3140
BIB                  2          2
REACTION   (1-H-1(N,EL)1-H-1,,DA,,RSD)
STATUS     (DEP,30679002)
ENDBIB               2
NOCOMMON             0          0
DATA                 3          1
ANG        DATA       DATA-ERR
ADEG       NO-DIM     NO-DIM
 1.8000E+02 1.0700E+00 1.1000E-02
ENDDATA              3
ENDSUBENT           10
"].

Definition e31048 : list string := ["SUBENT        31048001   20090920   20100128   20100126       3142
BIB                  7         13
TITLE      Elastic scattering of 14.4 MeV neutrons on hydrogen
           isotopes.
INSTITUTE  (3CRORBZ)
REFERENCE  (C,67BRELA,II,867,1967) Tables, no details on experim.
           (C,67TOKYO,,625(3.38),1967)
AUTHOR     (I.Basar)
DETECTOR   (TELES) Counter telescope for recoil particles
STATUS     (TABLE) Data from Tables 1-4 of ref.67BRELA,II,867,1967
HISTORY    (19771115T) Converted from EXFOR 70048
           (20090912A) SD:Updated to new date formats,lower case.
           Cosmetic changes, description of samples added to
           Subents. Data heading corrected on CMS in all Subents.
            Status SCSRS replaced
ENDBIB              13
COMMON               1          3
EN
MEV
 1.4400E+01
ENDCOMMON            3
ENDSUBENT           20
";
"SUBENT        31048002   20090920   20100128   20100126       3142
BIB                  3          4
REACTION   (1-H-1(N,EL)1-H-1,,DA)
SAMPLE     The proton target was a polyethylene (CH2)n foil
           2.7 mg/cm2 thick.
HISTORY    (20090912A) Data heading from lab.system changed on CMS
ENDBIB               4
NOCOMMON             0          0
DATA                 4         11
COS-CM     ANG-RSL    DATA-CM    DATA-ERR
NO-DIM     ADEG       MB/SR      MB/SR
 1.7540E-01 9.2000E+00 5.1400E+01 9.0000E-01
 3.5000E-03 9.4000E+00 4.7600E+01 1.1000E+00
-1.6680E-01 9.9000E+00 5.2800E+01 1.1000E+00
-3.3050E-01 1.1000E+01 5.2400E+01 1.2000E+00
-4.8630E-01 1.1000E+01 5.3300E+01 1.1000E+00
-6.2800E-01 1.2000E+01 5.2900E+01 1.1000E+00
-7.4780E-01 1.2000E+01 5.6400E+01 1.0000E+00
-8.4810E-01 1.2000E+01 5.8600E+01 1.0000E+00
-9.2390E-01 1.2000E+01 5.6900E+01 1.0000E+00
-9.6900E-01 9.5000E+00 5.7600E+01 1.0000E+00
-9.8330E-01 7.7000E+00 5.9500E+01 1.1000E+00
ENDDATA             13
ENDSUBENT           22
";
"SUBENT        31048003   20090920   20100128   20100126       3142
BIB                  3          5
REACTION   (1-H-2(N,EL)1-H-2,,DA)
SAMPLE     The deuteron target was a circular layer of deuterited
           paraphine (CD2)n deposited on a gold foil.
           The (CD2)n thickness was 1.07 mg/cm2
HISTORY    (20090912A) Data heading from lab.system changed on CMS
ENDBIB               5
NOCOMMON             0          0
DATA                 4         11
COS-CM     ANG-RSL    DATA-CM    DATA-ERR
NO-DIM     ADEG       MB/SR      MB/SR
 1.7540E-01 9.2000E+00 3.6800E+01 1.1000E+00
 3.5000E-03 9.4000E+00 3.1400E+01 8.0000E-01
-1.6680E-01 9.9000E+00 1.8600E+01 8.0000E-01
-3.3050E-01 1.1000E+01 1.1900E+01 5.0000E-01
-4.8630E-01 1.1000E+01 8.4000E+00 3.0000E-01
-6.2800E-01 1.2000E+01 1.0200E+01 5.0000E-01
-7.4780E-01 1.2000E+01 1.6000E+01 7.0000E-01
-8.4810E-01 1.2000E+01 2.9000E+01 9.0000E-01
-9.2390E-01 1.2000E+01 5.0700E+01 1.0000E+00
-9.6900E-01 9.5000E+00 7.9900E+01 1.5000E+00
-9.8330E-01 7.7000E+00 9.2400E+01 2.3000E+00
ENDDATA             13
ENDSUBENT           23
";
"SUBENT        31048004   20090920   20100128   20100126       3142
BIB                  3          4
REACTION   (1-H-3(N,EL)1-H-3,,DA)
SAMPLE     A ZrT target on tungsten backing of nominal
           activity 15.04 Ci
HISTORY    (20090912A) Data heading from lab.system changed on CMS
ENDBIB               4
NOCOMMON             0          0
DATA                 4         11
COS-CM     ANG-RSL    DATA-CM    DATA-ERR
NO-DIM     ADEG       MB/SR      MB/SR
 1.7540E-01 7.5000E+00 3.4300E+01 8.0000E-01
 3.5000E-03 7.7000E+00 2.2200E+01 4.0000E-01
-1.6680E-01 8.1000E+00 1.4500E+01 5.0000E-01
-3.3220E-01 8.6000E+00 6.4000E+00 3.0000E-01
-4.8940E-01 9.2000E+00 6.0000E+00 3.0000E-01
-6.3070E-01 9.3000E+00 1.2000E+01 3.0000E-01
-7.5130E-01 9.4000E+00 2.0500E+01 4.0000E-01
-8.5080E-01 9.6000E+00 2.6900E+01 5.0000E-01
-9.2720E-01 9.4000E+00 3.3700E+01 6.0000E-01
-9.7240E-01 7.8000E+00 4.2700E+01 6.0000E-01
-9.8660E-01 6.3000E+00 4.3700E+01 6.0000E-01
ENDDATA             13
ENDSUBENT           22
";
"SUBENT        31048005   20090920   20100128   20100126       3142
BIB                  3          3
REACTION   (1-H-3(N,EL)1-H-3,,DA)
SAMPLE     A TiT on copper backing of  nominal activity 1.47 Ci.
HISTORY    (20090912A) Data heading from lab.system changed on CMS
ENDBIB               3
NOCOMMON             0          0
DATA                 4         11
COS-CM     ANG-RSL    DATA-CM    DATA-ERR
NO-DIM     ADEG       MB/SR      MB/SR
 1.7540E-01 1.1000E+01 3.4700E+01 2.4000E+00
 5.2000E-03 1.1000E+01 2.4200E+01 4.0000E+00
-1.6510E-01 1.1000E+01 1.6300E+01 2.0000E+00
-3.2890E-01 1.2000E+01 1.0600E+01 1.9000E+00
-4.8480E-01 1.3000E+01 9.3000E+00 1.1000E+00
-6.2520E-01 1.3000E+01 1.3900E+01 2.0000E+00
-7.4550E-01 1.3000E+01 1.8300E+01 2.3000E+00
-8.4530E-01 1.3000E+01 2.5900E+01 2.5000E+00
-9.2190E-01 1.3000E+01 3.7600E+01 2.6000E+00
-9.6640E-01 1.1000E+01 4.2300E+01 2.6000E+00
-9.7440E-01 7.7000E+00 4.4500E+01 3.1000E+00
ENDDATA             13
ENDSUBENT           21
"].

Definition e40177 : list string := ["SUBENT        40177001   20021225   20030502   20050926       0000
BIB                 12         44
INSTITUTE  (4RUSFEI)
REFERENCE  (J,AE,33,825,197210)     Table of Data and Graph are
                                  Given
AUTHOR     (YU.G.PANITKIN,V.A.TOLSTIKOV)
TITLE       Radiative Capture of Neutrons by U-238 in the Neutron
            Energy Range 5-20 MeV
FACILITY   (VDG) Two Van De Graaff Accelerators with a Maximum
                Of Energy 2.5 MeV and 5 MeV Respectively
INC-SOURCE (D-D)      Deuteron-Deuterium Reaction in Neutron
                  Energy Range 5-7 MeV
           (D-T)  Deuteron-Tritium Reaction in the Neutron Energy
                  Range 17-20 MeV
METHOD     (ACTIV)    Activation
DETECTOR   (GELI)     Germanium-Lithium Detector For Gammas
           (FISCH)    Fission Chamber For the Neutron Flux
                     Measurements
ANALYSIS   (AREA)     Area Analysis
CORRECTION Correction For Background of Neutron(1-2 PERCENTS),
           Neutrons Inelastic Scattering on Construction Materials
            (10-12 PERCENTS FOR THE SAMPLE AND 2 PERCENTS FOR THE
            FISSION CHAMBER),Neutrons Emitting from the Target'S
           Backing(10-80 PERCENTS FOR U-238 AND 2-25 PERCENTS FOR
           THE FISSION CHAMBER)And Admixture of the Other Fissible
           Nuclei(4 PERCENTS) Were Taken Into Account For the
           First Region of the Measurements
           For the Second One were Induced the Corrections For
           Background of Neutrons(2 PERCENTS),Inelastic Scattering
            (10 PERCENTS) And Neutrons Emitting from the Target
           Backing(10-80 PERCENTS FOR U-238 AND 2-20 PERCENTS FOR
           AL FOIL)
ERR-ANALYS (ERR-T)           Mean Square Error of the Experiment
           For the First Part of the Experiment All Errors of the
           Corrections Except That in Fission Cross Section of
           U-235 and Capture Cross Section of U-238 were Taken
           Into Account
           For the Second Part the Errors of (N,P) Cross Section
           For Al were Introduced Besides That
HISTORY    (19731122C)  Compiled at the Centre
           (19750210A) Corrections in Data-Section of Subentry 002
           (19870608A) Subent 40177003 Inserted Containing
            Renormalized Set of Data For Sigma(NG) U-238
           (20010314U)  Dates and Bib-Information Corrected
           (20021225A)  Corrected at CJD
           (20021225U) Last checking has been done.
ENDBIB              44
NOCOMMON
ENDSUBENT           47
";
"SUBENT        40177002   20021225   20030502   20050926       0000
BIB                  7         24
REACTION   (92-U-238(N,G)92-U-239,,SIG)
MONITOR    ((MONIT1)92-U-238(N,G)92-U-239,,SIG) Normalis. Capture
            Cross-Section at 24.4 KeV are Taken from Nucl.Sci.And
            Engng.,33,24,1968
           ((MONIT2)92-U-235(N,F),,SIG)         For Neutron Flux
            Measurement Fission  Cross Section of U-235 are Taken
            From W.Hart, Parer Uk-10,Uk-Ussr Seminar, June, 1968
           ((MONIT3)13-AL-27(N,P)12-MG-27,,SIG)    For Neutron
              Flux Measurement N-P Cross-Sections  are Taken from
              G.Calvi Et Al, Nucl.Phys,39,621,1962 and
                G.Mani Et Al, Nucl.Phys.,19,535,1960
MONIT-REF  ((MONIT1),,J,NSE,33,24,1968)
           ((MONIT2),W.HART+,W,HART,1968)
           ((MONIT3),G.CALVI+,J,NP,39,621,1962)
SAMPLE     Powder of the Oxide of U-238
           Before the Activity Measurement the Sample was Purified
           From Fission Fragments
STATUS     .Data from J,Ae,33,(4),825,7210
ERR-ANALYS (EN-ERR)  The Errors was Conditioned by Accelerator
            Beam Attenuation and Dependence of Neutrons Energy
            Upon40177001 the Angle of Incidence
HISTORY    (20010314U)    Monitor Keyword Inserted
           (20021225A)   Bib-Info Specified
           (20021225U) Last checking has been done.
ENDBIB              24
COMMON               2          3
EN-NRM     MONIT1
KEV        MB
       24.4       516.
ENDCOMMON            3
DATA                 7          7
EN         EN-ERR     DATA       ERR-T      MONIT2     MONIT3
MONIT3-ERR
MEV        MEV        MB         MB         B          MB
MB
         5.      0.115       8.3         1.        1.09

         6.      0.136       6.8         0.9       1.11

         7.      0.16        5.8         1.1       1.59

        17.      0.26        3.7         1.3                   50.
        10.
        18.      0.235       3.3         1.2                   40.
         8.
        19.      0.25        2.9         1.4                   40.
         8.
        20.      0.285       3.36        1.9                   25.
         5.
ENDDATA             18
ENDSUBENT           51
";
"SUBENT        40177003   20021225   20030502   20050926       0000
BIB                  5         15
REACTION   (92-U-238(N,G)92-U-239,,SIG)
MONITOR    ((MONIT4)92-U-235(N,F),,SIG)
ERR-ANALYS (ERR-1)  Error of the Cross-Section Energy
                    Dependence
STATUS     (APRVD)   Tolstikov, 1987-06
           (COREL,40121002) /* Data Contaned in References    */
           (COREL,40177002) /* 1. C,70Helsinki,Vol.2,51,1970  */
           (COREL,40431002) /* 2. C,70Helsinki,Vol.2,57,1970  */
                            /* 3. J,Ae,Vol.33,782, 1972       */
                            /* 4. J,Ae,Vol.33,825, 1972       */
               /*     are Renormalized by Tolstikov in 1976   */
HISTORY    (19870608C) Compiled at the Center - CJD
            Renormalized Set of Data For Sigma(NG) U-238
           (20021225A)   Corrected at CJD. Bib-Info Added
           (20021225U) Last checking has been done.
ENDBIB              15
NOCOMMON
DATA                 8         36
EN         EN-RSL-FW  DATA       ERR-S      ERR-1      ERR-T
MONIT4     MONIT4-ERR
KEV        KEV        MB         PER-CENT   PER-CENT   PER-CENT
B          PER-CENT
  24.         8.       478.        2.5        3.        5.9
     2.21        2.3
  30.         6.       454.                             4.4
     2.11        2.2
  35.         8.       419.        3.1        3.5       6.1
     2.04        2.4
  45.         8.5      372.        2.2        2.7       5.8
     1.89        2.4
  55.         9.       364.        2.7        2.7       5.8
     1.82        2.4
  65.        10.       307.        2.         2.5       5.8
     1.76        2.4
  75.        10.5      279.        2.5        2.5       5.8
     1.67        2.4
  85.        11.       242.        2.1        3.1       6.
     1.62        2.4
 105.        11.5      211.        2.1        3.9       6.5
     1.57        3.8
 125.        12.5      187.        2.1        3.7       6.3
     1.51        3.5
 145.        13.5      168.        2.2        4.6       6.6
     1.45        4.5
 200.        18.       148.        2.2        2.7       5.8
     1.36        2.4
 250.        19.       136.        2.2        3.4       6.2
     1.30        3.2
 300.        19.       125.        2.2        3.5       6.3
     1.26        3.3
 400.        19.5      117.5       2.2        4.        6.5
     1.21        3.7
 500.        22.       114.5       2.2        4.3       6.7
     1.16        4.1
 600.        34.       113.5       2.2        4.2       6.7
     1.14        4.
 700.        35.       119.5       2.2        3.9       6.5
     1.12        3.7
 800.        36.       119.5       2.2        3.8       6.5
     1.14        3.6
 900.        36.       122.5       2.2        4.5       7.
     1.18        4.3
1000.        39.       118.5       2.2        3.3       6.1
     1.23        3.
1100.        41.       113.5       2.3        3.3       6.1
     1.24        3.
1200.        43.        99.        2.4        4.4       6.8
     1.25        4.1
1300.        45.        85.5       2.6        3.1       6.
     1.24        2.4
1500.        49.        63.        2.7        3.1       6.1
     1.24        2.6
1800.        54.        52.        2.9        3.        6.
     1.28        2.
2000.        57.        44.        2.6        2.9       6.
     1.28        2.2
2200.        61.        36.5       3.3        4.        6.3
     1.28        2.4
2500.        67.        28.5       3.4        3.8       6.4
     1.24        2.5
2800.        73.        23.5       3.8        4.2       6.6
     1.22        2.5
3000.        78.        20.        3.6        3.9       6.5
     1.21        2.3
3500.        94.        17.2       8.2                 10.
     1.18        2.9
4000.       110.        14.8       7.2                  9.2
     1.14        2.9
5000.       115.         9.3      12.2                 13.5
     1.09        3.
6000.       136.         7.8      13.3                 14.3
     1.14        2.9
7000.       160.         6.1      18.7                 20.
     1.52        5.3
ENDDATA             76
ENDSUBENT           96
"].

Definition e40431 : list string := ["SUBENT        40431001     870609              20050926       0000
BIB                 11         35
TITLE       ABSOLUTE MEASUREMENTS OF NEUTRON RADIATIVE CAPTURE
            CROSS-SECTION WITH ENERGY 30 KEV FOR U-238
AUTHOR     (JU.G.PANITKIN,L.E.SHERMAN)
INSTITUTE  (4CCPFEI)
REFERENCE  (J,AE,39,17,7507) DATA ARE GIVEN
           (R,YFI-19,7,7411)     DATA ARE GIVEN
METHOD     (ACTIV)  ACTIVATION METHOD FOR DEFINITION
            OF NEUTRON RADIATIVE CAPTURE CROSS-SECTION.
            METHOD OF ASSOCIATED ACTIVITY OVER GAMMA-RAYS WITH
            ENERGY 477 KEV FROM REACTION LI-7(P,N)BE-7
            FOR DEFINITION OF NEUTRON FLUX.
FACILITY   (VDG)      VAN DE GRAAFF
DETECTOR   (GELI)  GERMANIUM-LITHIUM DETECTOR FOR MEASUREMENT
           OF U-239 ACTIVITY. 4PI-BETA-COUNTER WAS USED FOR
           DEFINITION OF GELI-DETECTION EFFICIENCY.
INC-SOURCE (P-LI7) PROTON-LITHIUM REACTION.
           MAXIMUM ENERGY EQUAL 2.5 MEV.
CORRECTION RESONANCE SELF-SHIELDING (0.3 PERCENT), MULTIPLE
           NEUTRON SCATTERING IN TARGET (0.3 PERCENT),
           BACKGROUND OF NEUTRONS SCATTERING IN CHAMBER
           OF LI-7 TARGET (0.1 PERCENT), NEUTRON SCATTERING
           BY MATERIALS OF CONSTRUCTION (5.0 PERCENT),
           EFFECTIVE THICKNESS OF TARGET-SAMPLE BECAUSE OF
           APEX ANGLE OF NEUTRON CONE (1.3 PERCENT)
ERR-ANALYS ERROR SHOWN ON THE DATA IS TOTAL AND INCLUDES
           STATISTICAL ERROR OF ONE MEASUREMENT (1.5 PERCENT),
           GE(LI)-DETECTOR EFFICIENCY ERROR FOR MEASUREMENT
           OF U-238 AND LI-TARGET (2.1 AND 3.38 PERCENTS,
           RESPECTIVELY), SELF-SHIELDING ERROR (0.1 PERCENT),
           NEUTRON FLUX ERROR (0.2 PERCENT), NEUTRON SCATTERING
           ERROR (0.15PERCENT), HALF-LIFE ERROR OF U-239 AND
           BE-7 (0.5 PERCENT),
HISTORY    (770215C)
           (870609A) RENORMALIZED DATA DELETED. ISO-QUANT INTO
                      REACTION CONVERTED.
ENDBIB              35
NOCOMMON             0          0
ENDSUBENT           38
";
"SUBENT        40431002     870609              20050926       0000
BIB                  3          3
REACTION   (92-U-238(N,G)92-U-239,,SIG)
MONITOR       ABSOLUTE MEASUREMENTS
COMMENT     DATA FROM THIS SUBENT TRANSFERRED TO SUBENT 40177003
ENDBIB               3
NOCOMMON             0          0
DATA                 4          1
EN         EN-ERR     DATA       ERR-T
KEV        KEV        MB         MB
30.0       6.0        465.0      23.0
ENDDATA              3
ENDSUBENT           11
"].

Definition e41202 : list string := ["SUBENT        41202001     960813              20050926       0000
BIB                 13         13
TITLE       ELASTIC SCATTERING OF 580-MEV NEUTRONS BY PROTONS
AUTHOR     (YU.M.KAZARINOV,YU.N.SIMONOB)
INSTITUTE  (4RUSIFP)
REFERENCE  (J,ZET,31,(2),169,5608)   GRAPH IS GIVEN
FACILITY   (SYNCY)  SYNCHRO-CYCLOTRON OF IFP
METHOD     (REC)    REGISTRATION OF THE RECOIL PROTONS
DETECTOR   (TELES)  THREE SCINTILLATION COUNTERS TELESCOPE
MONITOR    (1-H-1(N,TOT),,SIG)
MONIT-REF  (,,J,ZET,29,369,55)
CORRECTION  CORRECTIONS WERE MADE ON NUCLEAR ABSORPTION
SAMPLE      PARAFFIN CUBE
ERR-ANALYS (ERR-S)  STATISTICAL ERROR
HISTORY    (960808C)  + + COMPILED AT THE CENTRE - CJD + +
ENDBIB              13
NOCOMMON             0          0
ENDSUBENT           16
";
"SUBENT        41202002     960813              20050926       0000
BIB                  2          2
REACTION   (1-H-1(N,EL)1-H-1,,DA)
STATUS     (CURVE)   DATA ARE TAKEN FROM THE CURVE
ENDBIB               2
COMMON               4          3
EN-MEAN    EN-RSL     MONIT      MONIT-ERR
EV         EV         MB         MB
   5.80E+08   1.30E+08  26.0       3.
ENDCOMMON            3
DATA                 3         15
ANG-CM     DATA       ERR-S
ADEG       MB/SR      MB/SR
  35.         3.75       0.2
  45.         3.0        0.3
  53.         2.32       0.2
  62.         2.12       0.2
  72.         1.67       0.13
  82.         1.1        0.12
  92.         0.86       0.1
 102.         0.76       0.1
 113.         0.79       0.1
 123.         0.92       0.1
 135.         1.65       0.15
 147.         2.05       0.2
 157.         3.34       0.3
 170.         5.25       0.5
 180.         8.31       0.7
ENDDATA             17
ENDSUBENT           28
"].

Definition e41206 : list string := ["SUBENT        41206001     960813              20050926       0000
BIB                  7         10
INSTITUTE  (4ZZZDUB)
REFERENCE  (J,ZET,36,735,5903)   DATA TABLE IS GIVEN
           (J,JET,9,516,59)      ENGLISH OF ZET 36 735
AUTHOR     (B.M.GOLOVIN,V.P.DZHELEPOV,YU.V.KATYSHEV,A.D.KONIN,
           S.V.MEDVED)
TITLE      SCATTERING OF 590 MEV NEUTRONS BY PROTONS IN THE SMALL
           ANGLE REGION.
FACILITY   (SYNCY,4RUSIFP)
DETECTOR   (TELES)   COUNTER TELESCOPE
HISTORY    (960813T)   CONVERTED FROM ENTRY 80305
ENDBIB              10
NOCOMMON             0          0
ENDSUBENT           13
";
"SUBENT        41206002     960813              20050926       0000
BIB                  6          7
REACTION   (1-H-1(N,EL)1-H-1,,DA)       RELATIVE TO (N,P)
               SCATTERING AT 35 ADEG
METHOD     (REC)  RING GEOMETRY
MONITOR    (1-H-1(N,EL)1-H-1,,DA)
MONIT-REF  (41202002,,J,ZET,31,169,56)  NORMALIZED AT 35 ADEG-CM
ERR-ANALYS (ERR-S) DATA-ERR GIVEN IS STATISTICAL ERROR ONLY
STATUS     (SCSRS)
ENDBIB               7
COMMON               4          3
EN         ANG-NRM    MONIT      MONIT-ERR
EV         ADEG       MB/SR      MB/SR
 5.9000E+08  35.        3.7        0.2
ENDCOMMON            3
DATA                 3          4
COS-CM     DATA       ERR-S
NO-DIM     MB/SR      MB/SR
 9.9620E-01 1.0000E+01 1.5000E+00
 9.9030E-01 8.2000E+00 1.4000E+00
 9.7990E-01 6.4000E+00 9.0000E-01
 9.2050E-01 4.3000E+00 5.0000E-01
ENDDATA              6
ENDSUBENT           22
"].

Definition e41207 : list string := ["SUBENT        41207001     960813              20050926       0000
BIB                  9         10
INSTITUTE  (4ZZZDUB)
REFERENCE  (J,ZET,37,1587,5912)
           (J,JET,10,1125,60)
AUTHOR     (N.S.AMAGLOBELI,YU.M.KAZARINOV)
TITLE      ELASTIC SCATTERING OF 630 MEV NEUTRONS BY PROTONS.
DETECTOR   (TELES)    COUNTER TELESCOPE
FACILITY   (SYNCY,4RUSIFP)   680-MEV PROTONS
INC-SOURCE (P-BE)  680-MEV PROTONS HIT BE-TARGET
ERR-ANALYS  ERRORS ARE NOT SPECIFIED, PROBABLY STATISTICAL
HISTORY    (960813T)  CONVERTED FROM ENTRY 80306
ENDBIB              10
NOCOMMON             0          0
ENDSUBENT           13
";
"SUBENT        41207002     960813              20050926       0000
BIB                  3          3
REACTION   (1-H-1(N,EL)1-H-1,,DA)
MONITOR    (1-H-1(N,TOT),,SIG)
STATUS     (SCSRS)
ENDBIB               3
COMMON               4          3
EN         EN-RSL     MONIT      MONIT-ERR
EV         EV         MB         MB
 6.3000E+08 1.5000E+07  25.8         4.5
ENDCOMMON            3
DATA                 4         20
COS-CM     ANG-RSL    DATA       DATA-ERR
NO-DIM     ADEG       MB/SR      MB/SR
 9.8500E-01 2.0000E+00 8.2000E+00 1.0000E+00
 9.2000E-01 2.0000E+00 4.9000E+00 7.0000E-01
 8.1900E-01 2.0000E+00 3.8000E+00 2.0000E-01
 7.1900E-01 2.0000E+00 2.6000E+00 2.0000E-01
 6.0200E-01 2.0000E+00 2.2000E+00 2.0000E-01
 4.6900E-01 2.0000E+00 1.8000E+00 1.0000E-01
 3.2600E-01 2.0000E+00 1.5000E+00 1.0000E-01
 1.3900E-01 2.0000E+00 1.2000E+00
-3.5000E-02 2.0000E+00 1.0000E+00
-2.0800E-01 2.0000E+00 9.0000E-01
-3.7500E-01 2.0000E+00 9.0000E-01
-5.3000E-01 2.0000E+00 1.4000E+00 5.0000E-02
-6.8200E-01 2.0000E+00 1.7000E+00 1.0000E-01
-8.1900E-01 2.0000E+00 2.5000E+00 2.0000E-01
-9.1400E-01 2.0000E+00 3.4000E+00 3.0000E-01
-9.4000E-01 1.0000E+00 4.0000E+00 3.0000E-01
-9.6600E-01 1.0000E+00 4.7000E+00 4.0000E-01
-9.8200E-01 1.0000E+00 6.0000E+00 4.0000E-01
-9.9300E-01 1.0000E+00 6.7000E+00 4.0000E-01
-9.9900E-01 1.0000E+00 8.3000E+00 6.0000E-01
ENDDATA             22
ENDSUBENT           34
"].

Definition e41209 : list string := ["SUBENT        41209001     970219              20050926       0000
BIB                 12         20
INSTITUTE  (4ZZZDUB)
REFERENCE  (J,ZET,43,35,6207)  GRAPH IS GIVEN
           (J,JET,16,24,63)    ENGLISH TRANSLATION OF ZET 43 35
AUTHOR     (YU.M.KAZARINOV,YU.N.SIMONOV)
TITLE       SCATTERING OF 200 MEV NEUTRONS BY PROTONS.
FACILITY   (SYNCY)    SYNCHRO-CYCLOTRON
METHOD     (REC)      PROTON RECOIL METHOD
MONITOR     GIVEN IN PROPER SUBENTRY
SAMPLE      POLYETHILENE C-H2, THICKNESS 59 GRAM/CM2
            AND GRAPHITE, THICKNESS 54 GRAM/CM2
DETECTOR   (TELES)  THREE SCINTILLATION COUNTER TELESCOPE
           .FOR PROTON DETECTION, 5 SCINTILLATION COUNTER
           .TELESCOPE WITH CONVERTOR FOR NEUTRON DETECTION
ANALYSIS    CROSS-SECTION WAS DETERMINED BY THE DIFFERENCE BETWEE
           .SCATTERING IN POLYETHILENE AND GRAPHITE
STATUS     (SCSRS)
HISTORY    (960815T) CONVERTED FROM ENTRY 80308 IN THE CJD-CENTRE
                 WITH ADDITION OF SOME BIB-INFORMATION IN SAN 001
           (970219U)  ENERGY MOVED TO SAN 001
                      PART-DET KEYWORD DELETED IN SAN 001
ENDBIB              20
COMMON               2          3
EN         EN-RSL
MEV        MEV
 2.0000E+02 4.0000E+01
ENDCOMMON            3
ENDSUBENT           27
";
"SUBENT        41209002     970219              20050926       0000
BIB                  4          5
REACTION   (1-H-1(N,EL)1-H-1,,DA)
PART-DET   (N,P) NEUTRONS DETECTED AT 67.5DEG AND LESS, RECOIL
                 PROTONS AT 67.5DEG AND GREATER.
MONITOR    (1-H-1(N,TOT),,SIG)
HISTORY    (970219U)  ENERGY MOVED TO SAN 001
ENDBIB               5
COMMON               1          3
MONIT
MB
 4.2700E+01
ENDCOMMON            3
DATA                 4         21
COS-CM     ANG-RSL    DATA       DATA-ERR
NO-DIM     ADEG       MB/SR      MB/SR
 9.9450E-01 2.0000E+00 9.5000E+00 2.5000E+00
 9.8480E-01 2.0000E+00 8.3000E+00 8.0000E-01
 9.3360E-01 3.0000E+00 4.7000E+00 7.0000E-01
 8.5720E-01 3.0000E+00 4.1000E+00 5.0000E-01
 7.4310E-01 3.0000E+00 3.0000E+00 4.0000E-01
 4.6950E-01 3.0000E+00 2.4000E+00 4.0000E-01
 3.8270E-01 2.0000E+00 2.2000E+00 2.0000E-01
 2.2500E-01 2.0000E+00 1.9000E+00 1.0000E-01
 5.2300E-02 2.0000E+00 1.9000E+00 1.0000E-01
-1.2190E-01 2.0000E+00 2.2000E+00 1.0000E-01
-3.2560E-01 2.0000E+00 2.8000E+00 1.5000E-01
-4.6950E-01 2.0000E+00 3.2000E+00 2.5000E-01
-6.4280E-01 2.0000E+00 3.8000E+00 2.0000E-01
-7.7710E-01 2.0000E+00 4.7000E+00 1.5000E-01
-8.6600E-01 2.0000E+00 5.5000E+00 1.5000E-01
-9.3970E-01 2.0000E+00 7.0000E+00 1.5000E-01
-9.6130E-01 1.0000E+00 8.1000E+00 2.5000E-01
-9.7030E-01 1.0000E+00 9.3000E+00 2.5000E-01
-9.8480E-01 1.0000E+00 1.0300E+01 2.5000E-01
-9.9450E-01 1.0000E+00 1.1300E+01 3.0000E-01
-1.0000E+00 1.0000E+00 1.1400E+01 4.0000E-01
ENDDATA             23
ENDSUBENT           37
";
"SUBENT        41209003     970219              20050926       0000
BIB                  2          2
REACTION   (1-H-1(N,TOT),,SIG)
HISTORY    (970219U)  ENERGY MOVED TO SAN 001
ENDBIB               2
NOCOMMON             0          0
DATA                 2          1
DATA       DATA-ERR
B          B
 4.2700E-02 9.0000E-04
ENDDATA              3
ENDSUBENT           10
"].

Definition e41224 : list string := ["SUBENT        41224001   20080219   20080801   20080721       4143
BIB                 13         27
INSTITUTE  (4RUSITE)
REFERENCE  (J,ZET,31,(2),169,195608)  Main reference.
           (J,JET,4,161,1957)
AUTHOR     (Yu.M.Kazarinov, Yu.N.Simonov)
TITLE      Neutron elastic scattering by protons at 580 MeV energy
EXP-YEAR   (1954)
FACILITY   (SYNCY)
INC-SOURCE (P-BE)  Neutrons with max energy 600 MeV were obtained
                 at bombardment of Be-target with 680-MeV protons
INC-SPECT   Neutron beam has maximum at energy 600 MeV and
            half-width about 130 MeV. Mean energy was determined
            to be 580 MeV taking into account detector threshold.
            Neutron beam intensity at target position -
            2.E+4 neutron/cm**2/sec.
METHOD     (REC)      Recoil protons method
           (COINC)    Coincidence
DETECTOR   (TELES,SCIN,SCIN)    Counter telescope consisting of
                   three scintillation counters in coincidence.
            Detector threshold 450 MeV was ensured by tungsten and
            copper filters.
CORRECTION  For charged pi-mesons.
            For self-absorption.
STATUS     (SCSRS)
HISTORY    (19970407C)  +  +  Compiled at the center - CJD +  +
           (20080219A) M.M. TITLE was added. Upper-lower case
            correction. Dates were corrected for 4-digits year.
            BIB information was added. SUBENT 003 was added.
ENDBIB              27
NOCOMMON             0          0
ENDSUBENT           30
";
"SUBENT        41224002   20080219   20080801   20080721       4143
BIB                  9         32
REACTION   (1-H-1(N,EL)1-H-1,,DA) Neutron angular distribution.
MONITOR    ((MONIT1)1-H-1(N,EL)1-H-1,,SIG,,,DERIV)
           (6-C-12(N,EL)6-C-12,,SIG)
ANALYSIS   Absolute values of differential cross-sections were
           determined by normalization to total elastic
           cross-section (26.0 +- 3. mb), which was defined as
           difference of total cross-section (36. +- 2. mb) from
           REL-REF(Dzhelepov+) and cross-section of pi-mesons
           production(10. +- 2. mb) at n-p interactions. Differen.
           cross-section was assumed to be about constant at
           angles   < 35 deg in CM system and was equal to value
           at 35 deg.,as it was defined in experiments at energy
           range 300-400 MeV(see REL-REF of Hartzler+ for details)
REL-REF    (R,11078001,A.L.Hartzler+,J,PR,95,591,1954)
           (R,41261002,V.P.Dzhelepov+,J,ZET,29,369,1955)
            Cross-section data used in normalization.
ASSUMED    (ASSUM1,1-H-1(N,X)0-P0-0,,SIG) pi-mesons production c-s
           (ASSUM2,1-H-1(N,TOT),,SIG) total c-s from REL-REF of
                   Dzhelepov+.
ERR-ANALYS (ERR-S) Data errors given are standard statistical.
           (ERR-1) Error of total elastic scattering cross-section
                   determination.
           (ERR-2) Uncertainty in normalization.
SAMPLE      Paraffin and graphite of thickness
            5., 3., 0.5 gram/cm**2 for angle ranges in lab.system
            0.-15., 25.-60. , 60.-70. degrees, respectively .
STATUS      Data are presented on Fig.2 of main reference as
            dependence from angle in CM system.
HISTORY    (19970407T)  Data are converted from SUBENT 80348002
           (20080219A) ANG-RSL was moved into COMMON.
            -HW was added to EN-RSL. Errors are added.
            DATA was changed into DATA-CM.
ENDBIB              32
COMMON              11          6
EN         EN-RSL-HW  MONIT1     MONIT1-ERR ANG-RSL    ERR-1
ERR-2      ASSUM1     ASSUM1-ERR ASSUM2     ASSUM2-ERR
MEV        MEV        MB         MB         ADEG       PER-CENT
PER-CENT   MB         MB         MB         MB
 5.8000E+02 1.3000E+02 26.          3.        2.0       12.
   10.       10.         2.        36.        2.
ENDCOMMON            6
DATA                 3         15
COS-CM     DATA-CM    ERR-S
NO-DIM     MB/SR      MB/SR
 8.1900E-01 3.7000E+00 2.0000E-01
 7.0700E-01 3.0000E+00 3.0000E-01
 5.8800E-01 2.3000E+00 2.0000E-01
 4.5400E-01 2.1000E+00 2.0000E-01
 2.9200E-01 1.6000E+00 1.0000E-01
 1.2200E-01 1.1000E+00 1.0000E-01
-5.2000E-02 9.0000E-01
-2.2500E-01 8.0000E-01
-4.0700E-01 8.0000E-01
-5.5900E-01 1.0000E+00 1.0000E-01
-7.1900E-01 1.7000E+00 1.0000E-01
-8.3900E-01 2.1000E+00 2.0000E-01
-9.1400E-01 3.4000E+00 3.0000E-01
-9.7800E-01 5.4000E+00 5.0000E-01
-9.9900E-01 8.5000E+00 8.0000E-01
ENDDATA             17
ENDSUBENT           61
";
"SUBENT        41224003   20080219   20080801   20080721       4143
BIB                  2          6
REACTION   (1-H-1(N,EL)1-H-1,,DA,,LEG/1K2/FCT,DERIV) For neutron.
           Legendre coefficients in form of :
             d/dA=(1/(4*pi**2))*(1/k**2)*SUM(A(L)*P(L))
            , where k=1/lambda, lambda= wave length.
STATUS     (DEP,41224002)
             Text of main reference, p.172.
ENDBIB               6
COMMON               2          3
EN         EN-RSL-HW
MEV        MEV
 5.8000E+02 1.3000E+02
ENDCOMMON            3
DATA                 3         13
NUMBER-CM  DATA-CM    DATA-ERR
NO-DIM     NO-DIM     NO-DIM
0.          1.29         0.05
1.          0.24         0.13
2.          1.42         0.2
3.         -0.87         0.24
4.          0.28         0.22
5.         -0.5          0.16
6.          0.14         0.1
7.         -0.33         0.1
8.          0.19         0.18
9.         -0.2          0.24
10.         0.39         0.26
11.         0.1          0.19
12.         0.25         0.15
ENDDATA             15
ENDSUBENT           30
"].

Definition e41335 : list string := ["SUBENT        41335001   20130118   20130502   20130410       4159
BIB                 11         19
TITLE      .Radiative capture of neutrons by U-238 in the energy
            range 0.024 - 1.1 MeV
AUTHOR     (Yu.G.Panitkin,Yu.Ya.Stavisskiy,V.A.Tolstikov)
INSTITUTE  (4RUSFEI)
REFERENCE  (C,71KIEV,1,321,197105)  Main reference, data are giveN
FACILITY   (VDG,4RUSFEI)
INC-SOURCE (P-T)
           (P-LI7)
METHOD     (ACTIV)  Activation
DETECTOR   (GELI)  For gamma detection
           (FISCH) For U-235 fission fragments detection .
           Spectrometer resolution for 80 keV gamma-energy is
           about 2 keV.
PART-DET   (G,FF)
ERR-ANALYS (DATA-ERR)  Errors are not specified
HISTORY    (19981027C)
           (20130118A) M.M. Upper -> lower case correction.
           BIB information was updated.
           Subent 002 was corrected.
ENDBIB              19
NOCOMMON             0          0
ENDSUBENT           22
";
"SUBENT        41335002   20130118   20130502   20130410       4159
BIB                  8         20
REACTION   (92-U-238(N,G)92-U-239,,SIG)
DECAY-DATA (92-U-239,,DG,74.) After b- decay of U-239 in Np-239.
MONITOR    ((MONIT1)92-U-235(N,F),,SIG)  Used for c-s trend.
           ((MONIT2)92-U-238(N,G)92-U-239,,SIG)
           Used at point 24.4 keV.
MONIT-REF  (20362002,H.O.Menlove+,J,NSE,33,24,1968) For MONIT2.
           (,W.Hart,C,68DUBNA,,1968) For MONIT1.
           Paper UK10 UK-USSR Seminar, June, 1968.
           Evaluated fission cross sections in the energy range
           1 keV to 15 MeV.
CORRECTION -For target scattered neutrons - 2.% in 0.024-0.145 MeV
           energy range, less 1.% in 0.45 -1.1 MeV.
           -For background of neutrons scattered in accelerator
           chamber  < 0.1%.
           -For neutron beam fluctuations < 0.5%.
STATUS     (TABLE)  Data are taken from C,71KIEV,1,321,1971
ERR-ANALYS (DATA-ERR) Errors of MONIT1 (U-235 c-s) and MONIT2
           were not included.
HISTORY    (19981027T)   Converted from SUBENT 88035002
           (20130118A) M.M.  Duplicative line was deleted.
ENDBIB              20
COMMON               4          3
E-NRM      E-RSL      EN-NRM     MONIT2
KEV        KEV        KEV        MB
  74.       2.         24.4       516.
ENDCOMMON            3
DATA                 5         21
EN         EN-RSL     DATA       DATA-ERR   MONIT1
KEV        KEV        MB         MB         B
 2.4000E+01 8.0000E+00 5.1600E+02 1.0000E+01 2.45
 3.5000E+01 8.0000E+00 4.3900E+02 1.2000E+01 2.19
 4.5000E+01 8.5000E+00 3.8200E+02 5.0000E+00 2.00
 5.5000E+01 9.0000E+00 3.6600E+02 8.0000E+00 1.90
 6.5000E+01 1.0000E+01 3.1000E+02 4.0000E+00 1.82
 7.5000E+01 1.0500E+01 2.8400E+02 2.0000E+00 1.76
 8.5000E+01 1.1000E+01 2.4800E+02 4.0000E+00 1.70
 1.0500E+02 1.1500E+01 2.1100E+02 2.0000E+00 1.62
 1.2500E+02 1.2500E+01 1.8600E+02 2.0000E+00 1.56
 1.4500E+02 1.3500E+01 1.7000E+02 3.0000E+00 1.51
 2.0000E+02 1.8000E+01 1.5000E+02 3.0000E+00 1.42
 2.5000E+02 1.9000E+01 1.3600E+02 3.0000E+00 1.35
 3.0000E+02 1.9000E+01 1.2600E+02 3.0000E+00 1.30
 4.0000E+02 1.9500E+01 1.1700E+02 3.0000E+00 1.23
 5.0000E+02 2.2000E+01 1.1200E+02 3.0000E+00 1.16
 6.0000E+02 3.4000E+01 1.1200E+02 2.0000E+00 1.14
 7.0000E+02 3.5000E+01 1.1700E+02 2.0000E+00 1.14
 8.0000E+02 3.6000E+01 1.1900E+02 2.0000E+00 1.16
 9.0000E+02 3.6000E+01 1.1900E+02 2.0000E+00 1.18
 1.0000E+03 3.9000E+01 1.1200E+02 3.0000E+00 1.21
 1.1000E+03 4.1000E+01 1.0900E+02 3.0000E+00 1.23
ENDDATA             23
ENDSUBENT           52
"].

Definition eC1236 : list string := ["SUBENT        C1236001   20050531   20070104   20061127       C078
BIB                  8         11
INSTITUTE  (1USANCA,1USATNL)
REFERENCE  (J,NP/A,684,549,2001)
AUTHOR     (M.H.Wood,C.R.Brune,B.M.Fisher,H.J.Karwowski,
            A.Kievsky,D.S.Leonard,E.J.Ludwig,S.Rosati,M.Viviani)
TITLE       Low-energy P-D elastic scattering and the ""Ay puzzle""
FACILITY   (VDGT,1USATNL)
SAMPLE     Thin hydrogenated carbon foils with the abondances of
            0.5x10E18 hydrogen and 1x10e18 carbon atoms/cm2
DETECTOR   (SCIN) No details
HISTORY    (20050531C) DR
           (20060620C) DR Subentry 4 corrected (VAP->TAP)
ENDBIB              11
COMMON               2          3
EN-CM      EN-RSL
KEV        KEV
667.       1.
ENDCOMMON            3
ENDSUBENT           18
";
"SUBENT        C1236002   20050531   20050801   20050926       C074
BIB                  3          3
REACTION   (1-H-1(D,EL)1-H-1,,POL/DA,,ANA)
ERR-ANALYS No information
STATUS     (CURVE) Data read from Fig. 1
ENDBIB               3
NOCOMMON             0          0
DATA                 2          7
ANG-CM     DATA-CM
ADEG       NO-DIM
   5.16E+01   8.47E-03
   6.12E+01   1.11E-02
   7.49E+01   1.36E-02
   8.67E+01   1.36E-02
   1.09E+02   1.05E-02
   1.19E+02   8.70E-03
   1.40E+02   5.06E-03
ENDDATA              9
ENDSUBENT           17
";
"SUBENT        C1236003   20050531   20050801   20050926       C074
BIB                  3          3
REACTION   (1-H-1(D,EL)1-H-1,,POL/DA,,VAP)
ERR-ANALYS No information
STATUS     (CURVE) Data read from Fig. 1
ENDBIB               3
NOCOMMON             0          0
DATA                 2          8
ANG-CM     DATA-CM
ADEG       NO-DIM
   4.93E+01   4.11E-03
   5.43E+01   4.71E-03
   6.05E+01   5.63E-03
   7.32E+01   6.60E-03
   8.72E+01   7.16E-03
   1.07E+02   5.56E-03
   1.19E+02   4.88E-03
   1.37E+02   2.52E-03
ENDDATA             10
ENDSUBENT           18
";
"SUBENT        C1236004   20050531   20070104   20061127       C078
BIB                  3          3
REACTION   (1-H-1(D,EL)1-H-1,20,POL/DA,,TAP)
ERR-ANALYS No information
STATUS     (CURVE) Data read from Fig. 1
ENDBIB               3
NOCOMMON             0          0
DATA                 2         23
ANG-CM     DATA-CM
ADEG       NO-DIM
   3.31E+01  -2.93E-02
   3.99E+01  -3.09E-02
   4.62E+01  -2.92E-02
   5.63E+01  -2.50E-02
   6.03E+01  -2.26E-02
   7.80E+01  -1.18E-02
   8.39E+01  -8.24E-03
   8.74E+01  -8.83E-03
   9.56E+01  -1.35E-03
   9.79E+01  -1.35E-03
   1.00E+02  -4.95E-04
   1.04E+02   2.81E-03
   1.08E+02   4.96E-03
   1.10E+02   5.53E-03
   1.14E+02   6.82E-03
   1.18E+02   7.97E-03
   1.20E+02   8.54E-03
   1.23E+02   1.02E-02
   1.28E+02   1.11E-02
   1.31E+02   1.14E-02
   1.49E+02   8.92E-03
   1.54E+02   8.91E-03
   1.58E+02   9.48E-03
ENDDATA             25
ENDSUBENT           33
";
"SUBENT        C1236005   20050531   20050801   20050926       C074
BIB                  3          3
REACTION   (1-H-1(D,EL)1-H-1,21,POL/DA,,TAP)
ERR-ANALYS No information
STATUS     (CURVE) Data read from Fig. 1
ENDBIB               3
NOCOMMON             0          0
DATA                 2         24
ANG-CM     DATA-CM
ADEG       NO-DIM
   3.34E+01   1.16E-02
   3.97E+01   1.46E-02
   4.65E+01   1.60E-02
   5.60E+01   1.94E-02
   6.02E+01   2.03E-02
   7.81E+01   2.09E-02
   8.00E+01   2.01E-02
   8.39E+01   2.22E-02
   8.72E+01   2.08E-02
   9.60E+01   1.89E-02
   9.79E+01   1.93E-02
   1.00E+02   1.79E-02
   1.04E+02   1.76E-02
   1.07E+02   1.63E-02
   1.09E+02   1.63E-02
   1.14E+02   1.27E-02
   1.18E+02   1.13E-02
   1.20E+02   1.05E-02
   1.24E+02   8.75E-03
   1.27E+02   7.12E-03
   1.32E+02   6.05E-03
   1.50E+02   2.17E-03
   1.54E+02  -2.19E-04
   1.57E+02  -6.14E-04
ENDDATA             26
ENDSUBENT           34
";
"SUBENT        C1236006   20050531   20050801   20050926       C074
BIB                  3          3
REACTION   (1-H-1(D,EL)1-H-1,22,POL/DA,,TAP)
ERR-ANALYS (DATA-ERR) No information
STATUS     (CURVE) Data read from Fig. 1
ENDBIB               3
NOCOMMON             0          0
DATA                 3         24
ANG-CM     DATA-CM    DATA-ERR
ADEG       NO-DIM     NO-DIM
   3.31E+01  -1.26E-03   5.71E-04
   3.94E+01  -2.40E-03   5.71E-04
   4.60E+01  -3.33E-03   7.14E-04
   5.58E+01  -5.19E-03   4.99E-04
   5.97E+01  -4.98E-03   5.00E-04
   7.81E+01  -8.88E-03   7.14E-04
   8.00E+01  -8.20E-03   8.21E-04
   8.44E+01  -8.99E-03   7.14E-04
   8.72E+01  -8.81E-03   4.28E-04
   9.61E+01  -1.11E-02   6.42E-04
   9.75E+01  -1.06E-02   5.35E-04
   1.00E+02  -1.08E-02   5.71E-04
   1.04E+02  -1.08E-02   5.00E-04
   1.08E+02  -1.04E-02   5.35E-04
   1.09E+02  -1.00E-02   7.14E-04
   1.14E+02  -9.93E-03   5.71E-04
   1.18E+02  -8.97E-03
   1.20E+02  -8.22E-03   8.92E-04
   1.24E+02  -8.36E-03   9.28E-04
   1.28E+02  -7.51E-03   7.14E-04
   1.32E+02  -7.29E-03   8.21E-04
   1.49E+02  -3.26E-03   1.00E-03
   1.54E+02  -1.98E-03   1.03E-03
   1.57E+02  -1.16E-03   9.28E-04
ENDDATA             26
ENDSUBENT           34
";
"SUBENT        C1236007   20050531   20050801   20050926       C074
BIB                  3          3
REACTION   (1-H-1(D,EL)1-H-1,,DA)
ERR-ANALYS No information
STATUS     (CURVE) Data read from Fig. 1
ENDBIB               3
NOCOMMON             0          0
DATA                 2         39
ANG-CM     DATA-CM
ADEG       B/SR
  2.083E+01   2.57E+00
  2.428E+01   1.56E+00
  2.728E+01   1.03E+00
  3.030E+01   7.31E-01
  3.332E+01   5.73E-01
  3.681E+01   4.51E-01
  3.983E+01   3.58E-01
  4.309E+01   3.15E-01
  4.658E+01   2.64E-01
  4.984E+01   2.49E-01
  5.217E+01   2.35E-01
  5.636E+01   2.13E-01
  6.008E+01   1.91E-01
  6.334E+01   1.90E-01
  6.707E+01   1.83E-01
  7.126E+01   1.61E-01
  7.498E+01   1.60E-01
  7.941E+01   1.66E-01
  8.313E+01   1.66E-01
  8.686E+01   1.65E-01
  9.268E+01   1.65E-01
  9.780E+01   1.64E-01
  1.036E+02   1.70E-01
  1.061E+02   1.77E-01
  1.101E+02   1.83E-01
  1.143E+02   1.97E-01
  1.238E+02   2.39E-01
  1.264E+02   2.45E-01
  1.294E+02   2.52E-01
  1.320E+02   2.66E-01
  1.348E+02   2.66E-01
  1.378E+02   2.79E-01
  1.478E+02   2.99E-01
  1.506E+02   3.06E-01
  1.537E+02   3.13E-01
  1.569E+02   3.34E-01
  1.602E+02   3.40E-01
  1.632E+02   3.47E-01
  1.658E+02   3.47E-01
ENDDATA             41
ENDSUBENT           49
"].

Definition eC1285 : list string := ["SUBENT        C1285001   20070709   20070824   20070803       C081
BIB                  8         11
INSTITUTE  (1USAWIS)
REFERENCE  (J,NP/A,464,223,1987)
AUTHOR     (J.Sowinski,D.D.Pun-Casavant,L.D.Knutson)
TITLE      High precision measurement of the analyzing powers for
           D-P elastic scattering at E(D)=10 MeV
FACILITY   (VDGT)
DETECTOR   (SOLST)
SAMPLE     99.999% pure hydrogen gas
HISTORY    (20050801C) DR
           (20070709A) DR Subentry 6 added (taken from A1244,
                          which is deleted)
ENDBIB              11
COMMON               1          3
EN
MEV
10.0
ENDCOMMON            3
ENDSUBENT           18
";
"SUBENT        C1285002   20050801   20051109   20051018       C075
BIB                  3          4
REACTION   (1-H-1(D,EL)1-H-1,20,POL/DA,,TAP)
ERR-ANALYS (ERR-S) Statistical error
           (ERR-SYS) Systematic error on analyzing power
STATUS     Data taken from Table 2
ENDBIB               4
COMMON               1          3
ERR-SYS
PER-CENT
1.
ENDCOMMON            3
DATA                 3         33
ANG-CM     DATA-CM    ERR-S
ADEG       NO-DIM     NO-DIM
 22.76     -0.05116   0.00022
 30.54     -0.03298   0.00018
 38.25     -0.02019   0.00027
 46.21     -0.01131   0.00023
 49.91     -0.00882   0.00028
 54.70     -0.00565   0.00031
 57.90     -0.00394   0.00043
 63.38     -0.00302   0.00020
 65.90     -0.00296   0.00033
 69.90     -0.00355   0.00028
 72.66     -0.00452   0.00032
 77.90     -0.00761   0.00050
 82.93     -0.01243   0.00024
 85.90     -0.01518   0.00027
 89.93     -0.02049   0.00033
 95.22     -0.02701   0.00037
 97.93     -0.02805   0.00064
105.92     -0.02900   0.00032
109.89     -0.02456   0.00030
114.88     -0.01415   0.00045
119.88      0.00095   0.00028
124.88      0.01539   0.00046
129.87      0.02711   0.00035
134.87      0.03263   0.00047
139.86      0.03275   0.00031
144.85      0.02909   0.00041
149.93      0.02466   0.00029
154.93      0.01803   0.00027
158.02      0.01433   0.00034
159.87      0.01230   0.00031
164.91      0.00701   0.00028
170.58      0.00190   0.00039
172.34      0.00042   0.00027
ENDDATA             35
ENDSUBENT           48
";
"SUBENT        C1285003   20050801   20051109   20051018       C075
BIB                  3          4
REACTION   (1-H-1(D,EL)1-H-1,21,POL/DA,,TAP)
ERR-ANALYS (ERR-S) Statistical error
           (ERR-SYS) Systematic error on analyzing power
STATUS     Data taken from Table 2
ENDBIB               4
COMMON               1          3
ERR-SYS
PER-CENT
2.
ENDCOMMON            3
DATA                 3         33
ANG-CM     DATA-CM    ERR-S
ADEG       NO-DIM     NO-DIM
 22.76      0.01806   0.00016
 30.54      0.01790   0.00015
 38.25      0.01598   0.00020
 46.21      0.01263   0.00017
 49.91      0.01127   0.00024
 54.70      0.00793   0.00020
 57.90      0.00658   0.00024
 63.38      0.00191   0.00017
 65.90      0.00088   0.00024
 69.90     -0.00164   0.00020
 72.66     -0.00417   0.00025
 77.90     -0.00616   0.00022
 82.93     -0.00831   0.00022
 85.90     -0.00816   0.00022
 89.93     -0.00711   0.00022
 95.22     -0.00408   0.00036
 97.93     -0.00034   0.00024
105.92      0.01328   0.00025
109.89      0.02109   0.00026
114.88      0.02965   0.00027
119.88      0.03278   0.00026
124.88      0.03072   0.00031
129.87      0.02366   0.00031
134.87      0.01437   0.00032
139.86      0.00563   0.00026
144.85     -0.00159   0.00027
149.93     -0.00660   0.00022
154.93     -0.01004   0.00022
158.02     -0.01104   0.00026
159.87     -0.01103   0.00019
164.91     -0.00973   0.00022
170.58     -0.00610   0.00029
172.34     -0.00541   0.00023
ENDDATA             35
ENDSUBENT           48
";
"SUBENT        C1285004   20050801   20051109   20051018       C075
BIB                  3          4
REACTION   (1-H-1(D,EL)1-H-1,22,POL/DA,,TAP)
ERR-ANALYS (ERR-S) Statistical error
           (ERR-SYS) Systematic error on analyzing power
STATUS     Data taken from Table 2
ENDBIB               4
COMMON               1          3
ERR-SYS
PER-CENT
1.
ENDCOMMON            3
DATA                 3         33
ANG-CM     DATA-CM    ERR-S
ADEG       NO-DIM     NO-DIM
 22.76     -0.00331   0.00023
 30.54     -0.00737   0.00022
 38.25     -0.01058   0.00027
 46.21     -0.01421   0.00023
 49.91     -0.01585   0.00031
 54.70     -0.01859   0.00029
 57.90     -0.01957   0.00040
 63.38     -0.02188   0.00030
 65.90     -0.02174   0.00038
 69.90     -0.02411   0.00027
 72.66     -0.02480   0.00034
 77.90     -0.02628   0.00036
 82.93     -0.02774   0.00032
 85.90     -0.02873   0.00035
 89.93     -0.02986   0.00031
 95.22     -0.03130   0.00033
 97.93     -0.03349   0.00039
105.92     -0.03848   0.00038
109.89     -0.04143   0.00039
114.88     -0.04498   0.00040
119.88     -0.04617   0.00042
124.88     -0.04667   0.00044
129.87     -0.04354   0.00046
134.87     -0.03929   0.00045
139.86     -0.03257   0.00043
144.85     -0.02604   0.00039
149.93     -0.01949   0.00029
154.93     -0.01445   0.00030
158.02     -0.01074   0.00037
159.87     -0.00916   0.00031
164.91     -0.00451   0.00030
170.58     -0.00177   0.00046
172.34     -0.00130   0.00035
ENDDATA             35
ENDSUBENT           48
";
"SUBENT        C1285005   20050801   20051109   20051018       C075
BIB                  3          4
REACTION   (1-H-1(D,EL)1-H-1,,POL/DA,,VAP)
ERR-ANALYS (ERR-S) Statistical error
           (ERR-SYS) Systematic error on analyzing power
STATUS     Data taken from Table 2
ENDBIB               4
COMMON               1          3
ERR-SYS
PER-CENT
2.
ENDCOMMON            3
DATA                 3         33
ANG-CM     DATA-CM    ERR-S
ADEG       NO-DIM     NO-DIM
 22.76     0.00603    0.00018
 30.54     0.00635    0.00019
 38.25     0.00639    0.00023
 46.21     0.00667    0.00018
 49.91     0.00672    0.00028
 54.70     0.00695    0.00023
 57.90     0.00756    0.00027
 63.38     0.00776    0.00017
 65.90     0.00811    0.00029
 69.90     0.00855    0.00024
 72.66     0.00894    0.00023
 77.90     0.01067    0.00024
 82.93     0.01276    0.00022
 85.90     0.01406    0.00026
 89.93     0.01612    0.00026
 95.22     0.02004    0.00027
 97.93     0.02373    0.00026
105.92     0.03162    0.00030
109.89     0.03600    0.00027
114.88     0.03980    0.00029
119.88     0.04032    0.00031
124.88     0.03899    0.00034
129.87     0.03477    0.00032
134.87     0.03012    0.00032
139.86     0.02498    0.00025
144.85     0.01964    0.00031
149.93     0.01583    0.00024
154.93     0.01263    0.00026
158.02     0.00944    0.00035
159.87     0.00892    0.00043
164.91     0.00598    0.00026
170.58     0.00325    0.00032
172.34     0.00268    0.00029
ENDDATA             35
ENDSUBENT           48
";
"SUBENT        C1285006   20070709   20070824   20070803       C081
BIB                  3          5
REACTION   (1-H-1(D,EL)1-H-1,,DA)
ERR-ANALYS (ANG-ERR) Digitizing error
           (DATA-ERR) Digitizing error
           (ERR-T) Total error
STATUS     (CURVE) Fig 7
ENDBIB               5
COMMON               3          3
ANG-ERR    ERR-T      DATA-ERR
ADEG       PER-CENT   MB/SR
  1.         1.         4.
ENDCOMMON            3
DATA                 2         27
ANG-CM     DATA-CM
ADEG       MB/SR
    16.4      411.4
    21.16     260.2
    25.06     213.4
    29.1      195.7
    33.2      189.5
    38.67     183.3
    42.77     177.1
    46.84     165.1
    50.94     159.
    59.1      140.9
    64.55     128.8
    71.37     116.6
    75.46     110.5
    78.19     104.4
    83.63      92.34
    93.14      68.31
   104.1       55.76
   113.7       49.12
   119.2       48.64
   124.8       59.75
   130.3       70.86
   137.3       87.65
   143.       127.7
   150.       150.3
   155.7      190.4
   161.4      230.5
   167.1      270.6
ENDDATA             29
ENDSUBENT           43
"].

Definition eC1560 : list string := ["SUBENT        C1560001   20070620   20070824   20070803       C081
BIB                  9         12
INSTITUTE  (1USATNL)
REFERENCE  (R,TUNL-36,34,1997)
AUTHOR     (C.R.Brune,B.J.Crowe,B.W.Fisher,W.H.Geist,
            H.J.Karwowski,A.Kievsky,E.J.Ludwig,K.D.Veal,M.H.Wood)
TITLE      Vector and Tensor Analyzing Powers for Proton-Deuteron
            Scattering at Low Energies
FACILITY   (VDGT,1USATNL) FN tandem
INC-SPECT  Polarized deuteron and proton beams
DETECTOR   (SIBAR) Three pairs of symmetrically placed silicon
            detectors
SAMPLE     20 microg/cm2 hydrogenated carbon foils
HISTORY    (20070620C) DR
ENDBIB              12
NOCOMMON             0          0
ENDSUBENT           15
";
"SUBENT        C1560002   20070620   20070824   20070803       C081
BIB                  3          3
REACTION   (1-H-1(D,EL)1-H-1,21,POL/DA,,TAP)
ERR-ANALYS (DATA-ERR) No information
STATUS     (CURVE) Data taken from Fig. 2.4-2
ENDBIB               3
COMMON               1          3
EN-CM
MEV
0.432
ENDCOMMON            3
DATA                 3         21
ANG-CM     DATA       DATA-ERR
ADEG       NO-DIM     NO-DIM
  3.113E+01  6.204E-03  1.080E-03
  4.238E+01  1.061E-02  7.919E-04
  5.203E+01  1.387E-02  6.485E-04
  6.414E+01  1.590E-02  1.007E-03
  7.112E+01  1.764E-02  7.919E-04
  7.302E+01  1.728E-02  7.924E-04
  7.359E+01  1.599E-02  1.078E-03
  7.761E+01  1.715E-02  5.041E-04
  8.516E+01  1.766E-02  7.204E-04
  8.710E+01  1.572E-02  1.008E-03
  9.086E+01  1.666E-02  7.906E-04
  9.815E+01  1.660E-02  1.007E-03
  1.053E+02  1.273E-02  9.354E-04
  1.115E+02  1.223E-02  1.008E-03
  1.134E+02  1.008E-02  1.007E-03
  1.254E+02  7.220E-03  7.915E-04
  1.311E+02  6.078E-03  8.635E-04
  1.332E+02  5.578E-03  1.150E-03
  1.382E+02  3.643E-03  1.295E-03
  1.455E+02  1.856E-03  1.080E-03
  1.517E+02  2.226E-03  1.368E-03
ENDDATA             23
ENDSUBENT           35
";
"SUBENT        C1560003   20070620   20070824   20070803       C081
BIB                  3          3
REACTION   (1-H-1(D,EL)1-H-1,,POL/DA,,ANA)
ERR-ANALYS (DATA-ERR) No information
STATUS     (CURVE) Data taken from Fig. 2.4-2
ENDBIB               3
COMMON               1          3
EN-CM
MEV
0.432
ENDCOMMON            3
DATA                 3         21
ANG-CM     DATA       DATA-ERR
ADEG       NO-DIM     NO-DIM
  3.163E+01  1.137E-02  6.626E-04
  4.263E+01  1.527E-02  1.040E-03
  5.229E+01  1.908E-02  1.419E-03
  6.448E+01  1.702E-02  1.230E-03
  7.149E+01  1.779E-02  1.040E-03
  7.392E+01  1.789E-02  1.608E-03
  7.799E+01  1.686E-02  9.451E-04
  8.580E+01  1.792E-02  9.469E-04
  9.154E+01  1.443E-02  8.511E-04
  9.156E+01  1.320E-02  1.039E-03
  9.862E+01  1.066E-02  1.134E-03
  1.057E+02  7.462E-03  1.702E-03
  1.120E+02  4.260E-03  1.513E-03
  1.139E+02  1.900E-03  1.513E-03
  1.258E+02  2.492E-03  1.513E-03
  1.320E+02  2.505E-03  1.514E-03
  1.341E+02  5.253E-03  2.176E-03
  1.388E+02  3.447E-04  1.702E-03
  1.458E+02 -9.643E-04  2.553E-03
  1.518E+02 -6.680E-04  2.364E-03
  1.591E+02 -5.192E-03  3.121E-03
ENDDATA             23
ENDSUBENT           35
";
"SUBENT        C1560004   20070620   20070824   20070803       C081
BIB                  3          3
REACTION   (1-H-1(D,EL)1-H-1,,POL/DA,,VAP)
ERR-ANALYS (DATA-ERR) No information
STATUS     (CURVE) Data taken from Fig. 2.4-3
ENDBIB               3
COMMON               1          3
EN-CM
MEV
0.432
ENDCOMMON            3
DATA                 3          3
ANG-CM     DATA       DATA-ERR
ADEG       NO-DIM     NO-DIM
  6.084E+01  1.884E-03  1.873E-04
  8.745E+01  3.506E-03  2.247E-04
  1.379E+02  1.563E-03  2.247E-04
ENDDATA              5
ENDSUBENT           17
";
"SUBENT        C1560005   20070620   20070824   20070803       C081
BIB                  3          3
REACTION   (1-H-1(D,EL)1-H-1,,POL/DA,,VAP)
ERR-ANALYS (DATA-ERR) No information
STATUS     (CURVE) Data taken from Fig. 2.4-3
ENDBIB               3
COMMON               1          3
ANG-CM
ADEG
87.6
ENDCOMMON            3
DATA                 3         10
EN-CM      DATA       DATA-ERR
MEV        NO-DIM     NO-DIM
  2.096E-01 -3.648E-03  9.393E-05
  4.289E-01 -2.857E-03  7.042E-05
  6.614E-01 -1.877E-03  7.053E-05
  8.286E-01 -9.665E-04  7.030E-05
  9.988E-01 -4.082E-04  4.702E-05
  1.329E+00  7.086E-04  1.646E-04
  1.496E+00  1.361E-03  1.412E-04
  1.663E+00  1.308E-03  1.411E-04
  1.829E+00  1.467E-03  1.410E-04
  1.999E+00  1.249E-03  1.879E-04
ENDDATA             12
ENDSUBENT           24
";
"SUBENT        C1560006   20070620   20070824   20070803       C081
BIB                  3          3
REACTION   (1-H-2(P,EL)1-H-2,,POL/DA,,ANA)
ERR-ANALYS (DATA-ERR) No information
STATUS     (CURVE) Data taken from Fig. 2.4-4
ENDBIB               3
COMMON               1          3
EN-CM
MEV
0.432
ENDCOMMON            3
DATA                 3          3
ANG-CM     DATA       DATA-ERR
ADEG       NO-DIM     NO-DIM
  6.127E+01  3.811E-03  3.972E-04
  8.768E+01  5.895E-03  3.973E-04
  1.200E+02  3.591E-03  3.594E-04
ENDDATA              5
ENDSUBENT           17
"].

Definition eD0480 : list string := ["SUBENT        D0480001   20130625   20130927   20130903       D089
BIB                 13         47
TITLE      Three-nucleon force effects in cross section and
            spin observables of elastic deuteron-proton
            scattering at 90 MeV/nucleon
AUTHOR     (H.R.Amir-Ahmadi, R.Castelijns, A.Deltuva,
            M.Eslami-Kalantari, E.D.van Garderen, M.N.Harakeh,
            N.Kalantar-Nayestanaki, M.Kis, H.Loehner,
            M.Mahjour-Shafiei, H.Mardanpour, J.G.Messchendorp,
            B.Mukherjee, D.Savran, K.Sekiguchi, S.V.Shende,
            H.Witala, H.J.Woertche)
INSTITUTE  (2NEDKVI,2PRTFNL,2GERTHD,2JPNIPC,3POLUJK)
REFERENCE  (J,PR/C,75,041001,2007)
REL-REF    (I,,H.J.Wortche+,J,NP/A,687,321,2001)
            Detector setup description given
SAMPLE     Depending on the reaction rate, either a solid CH2
            foil or a liquid hydrogen target was used.
DETECTOR   (MAGSP) Big-Bite Spectrometer (BBS)
           (DRFTC) Two vertical-drift chambers (VDC) at the
            focal-plane with which the track of particles can be
            reconstructed.
           (MWPC) The track of the protons after scattering from
            the graphite slab was reconstructed with multiwire
            proportional chambers (MWPC).
FACILITY   (CYCLO,2NEDKVI) AGOR-cyclotron
PART-DET   (P)
INC-SOURCE (POLIS) polarized-ion source used
ERR-ANALYS (DATA-ERR) This error accounts for the statistical
            uncertainties and a very small point-to-point (PTP)
            uncertainty.
           The statistical uncertainties come from the spin-
            dependent cross sections and the statistical
            uncertainty in determining the incoming-beam
            polarization.
           The small PTP uncertainty accounts for a small
            instability of the experimental apparatus over long
            periods of time and background subtraction.
           (ERR-SYS) Other systematic uncertainties originate
            from the target thickness measurement, the estimation
            of the angular opening of the detector, the total
            collected charge in the Faraday cup, and the
            systematic error of the incoming beam polarization.
           The resultant systematic error is <=5% for the cross
            sections and 3% for all other spin-dependent
            observables.
STATUS     (TABLE) Data recieved from Dr. N.Kalantar-Nayestanaki
           (APRVD) Entry approved by Dr. N.Kalantar-Nayestanaki
HISTORY    (20080715C) SD, LV.
           (20130625U) On. REFERENCE: NP/A moved to REL-REF
ENDBIB              47
COMMON               1          3
EN
MEV
 180.
ENDCOMMON            3
ENDSUBENT           54
";
"SUBENT        D0480002   20080715   20081028   20081023       D063
BIB                  1          1
REACTION   (1-H-1(D,EL)1-H-1,,DA,P)  fig.1
ENDBIB               1
COMMON               1          3
ERR-SYS
PER-CENT
  5.
ENDCOMMON            3
DATA                 3          9
ANG-CM     DATA-CM    DATA-ERR
ADEG       MB/SR      MB/SR
       90.0      0.767      0.002
       99.5      0.641      0.002
      109.3      0.575      0.004
      119.4      0.528      0.003
      129.7      0.512      0.004
      139.8      0.549      0.003
      150.0      0.801      0.001
      160.0      1.488      0.001
      169.6      2.724      0.009
ENDDATA             11
ENDSUBENT           21
";
"SUBENT        D0480003   20080715   20081028   20081023       D063
BIB                  1          1
REACTION   (1-H-1(D,EL)1-H-1,,POL/DA,P,ANA) fig.1
ENDBIB               1
COMMON               1          3
ERR-SYS
PER-CENT
  3.
ENDCOMMON            3
DATA                 3          9
ANG-CM     DATA       DATA-ERR
ADEG       NO-DIM     NO-DIM
       90.0     -0.432      0.008
       99.5     -0.483      0.005
      109.3     -0.451      0.009
      119.4     -0.339      0.003
      129.7     -0.163      0.005
      139.8      0.087      0.003
      150.0      0.247      0.003
      160.0      0.175      0.007
      169.6      0.070      0.050
ENDDATA             11
ENDSUBENT           21
";
"SUBENT        D0480004   20080715   20081028   20081023       D063
BIB                  1          1
REACTION   (1-H-1(D,EL)1-H-1,NN,POL/DA,,ANA) fig.1
ENDBIB               1
COMMON               1          3
ERR-SYS
PER-CENT
  3.
ENDCOMMON            3
DATA                 3          9
ANG-CM     DATA       DATA-ERR
ADEG       NO-DIM     NO-DIM
       90.0      0.375      0.006
       99.5      0.495      0.008
      109.3      0.589      0.009
      119.4      0.619      0.008
      129.7      0.619      0.008
      139.8      0.492      0.007
      150.0      0.353      0.004
      160.0      0.242      0.004
      169.6      0.225      0.033
ENDDATA             11
ENDSUBENT           21
";
"SUBENT        D0480005   20080715   20081028   20081023       D063
BIB                  1          1
REACTION   (1-H-1(D,EL)1-H-1,,POL/DA,P) fig.1
ENDBIB               1
COMMON               1          3
ERR-SYS
PER-CENT
  3.
ENDCOMMON            3
DATA                 3          9
ANG-CM     DATA       DATA-ERR
ADEG       NO-DIM     NO-DIM
       90.0      0.480      0.040
       99.5      0.610      0.009
      109.3      0.630      0.009
      119.4      0.440      0.010
      129.7      0.239      0.015
      139.8     -0.064      0.008
      150.0     -0.229      0.009
      160.0     -0.163      0.010
      169.6     -0.076      0.015
ENDDATA             11
ENDSUBENT           21
";
"SUBENT        D0480006   20130625   20130927   20130903       D089
BIB                  2          2
REACTION   (1-H-1(D,EL)1-H-1,NN,POL/DA,,K) fig.1
HISTORY    (20130625A) On. REACTION(SF7): P deleted
ENDBIB               2
COMMON               1          3
ERR-SYS
PER-CENT
  3.
ENDCOMMON            3
DATA                 3          9
ANG-CM     DATA       DATA-ERR
ADEG       NO-DIM     NO-DIM
  90.0      0.376      0.035
  99.5      0.406      0.015
 109.3      0.443      0.013
 119.4      0.418      0.021
 129.7      0.262      0.020
 139.8      0.194      0.014
 150.0      0.301      0.018
 160.0      0.535      0.020
 169.6      0.606      0.031
ENDDATA             11
ENDSUBENT           22
"].

Definition eE0783 : list string := ["SUBENT        E0783001   20040622              20050926       0000
BIB                 10         19
TITLE       ACCELERATION OF PROTONS AND DEUTERONS POLARIZED IN
            THE HORIZONTAL PLANEBY THE RCNP CYCLOTRON
AUTHOR     (K.HATANAKA,N.MATSUOKA,H.SAKAI,T.SAITO,H.TAMURA,
           K.HOSONO,M.KONDO,K.IMAI,H.SHIMIZU,K.NISHIMURA)
INSTITUTE  (2JPNOSA) RESEARCH CENTER FOR NUCLEAR PHYSICS, OSAKA
            UNIV.
           (2JPNKTO)
REFERENCE  (J,NIM,217,397,1983)
FACILITY   (CYCLO,2JPNOSA)
INC-SOURCE  BEAM-INTENSITY IS 0.5NA
            BEAM-POLARIZATION IS NOT GIVEN
           (ATOMI) with a Wien filter
SAMPLE      TARGET IS NOT POLARIZED
            TARGET IS NOT ALIGNED
PART-DET   (D)
STATUS     (CURVE) DATA TAKEN FROM GRAPH
HISTORY    (19881027T) CONVERTED FROM NRDF DATA NO. D783
           (20040401A) Author's name is corrected. Code is added
                       into INC-SOURCE. E-EXC=0.0 MeV is deleted.
ENDBIB              19
COMMON               1          3
EN
MEV
56.
ENDCOMMON            3
ENDSUBENT           26
";
"SUBENT        E0783002   20040622              20050926       0000
BIB                  4          5
REACTION   (1-H-1(D,EL)1-H-1,SL,POL/DA,,ANA)
FLAG       (1.) DATA ERROR IS SMALLER THAN DATA POINT
ERR-ANALYS (DATA-ERR) Uncertainty scanned from figure
HISTORY    (20040401A) Quantity code is correcetd.
                       ERR-ANALYS is added.
ENDBIB               5
NOCOMMON             0          0
DATA                 4         24
ANG-CM     DATA       DATA-ERR   FLAG
ADEG       NO-DIM     NO-DIM     NO-DIM
     30.712 -2.211E-03                    1.
     38.727 -5.861E-03  0.821E-02
     46.135  1.022E-02                    1.
     55.814  4.098E-02                    1.
     64.866  7.998E-02                    1.
     69.415  1.126E-01                    1.
     74.316  1.633E-01  0.147E-01
     79.924  2.517E-01  0.115E-01
     84.442  2.663E-01  0.131E-01
     89.661  3.153E-01  0.821E-02
     94.181  3.315E-01  0.164E-01
     99.114  4.003E-01  0.115E-01
    104.318  4.411E-01  0.131E-01
    109.841  4.802E-01  0.132E-01
    115.135  3.880E-01  0.132E-01
    120.355  2.531E-01  0.131E-01
    125.595 -5.416E-02  0.214E-01
    129.340 -2.990E-01  0.197E-01
    134.447 -3.140E-01  0.180E-01
    139.629 -1.024E-01  0.197E-01
    145.538 -2.551E-02  0.148E-01
    150.255  1.040E-01  0.246E-01
    155.357  8.570E-02  0.246E-01
    160.562  1.265E-01  0.197E-01
ENDDATA             26
ENDSUBENT           36
"].

Definition eE0839 : list string := ["SUBENT        E0839001   20040622              20050926       0000
BIB                  9         26
TITLE       MEASUREMENTS OF ANALYZING POWERS A(Y),A(XX),A(YY)
            AND A(XZ) IN DP ELASTIC SCATTERING AT E(D)=56 MEV
AUTHOR     (K.HATANAKA,N.MATSUOKA,H.SAKAI,T.SAITO,K.HOSONO,
           Y.KOIKE,M.KONDO,K.IMAI,H.SHIMIZU,T.ICHIHARA,
           K.NISHIMURA,A.OKIHANA)
INSTITUTE  (2JPNOSA) RESEARCH CENTER FOR NUCLEAR PHYSICS, OSAKA
            UNIV.
           (2JPNKTO)
           (2JPNKUE)
REFERENCE  (J,NP/A,426,77,1984)
FACILITY   (CYCLO,2JPNOSA)
DETECTOR   (COIN,SOLST,SOLST,TELES) OVERALL-ENERGY-RESOLUTION
            IS 600.KEV
INC-SOURCE  BEAM-INTENSITY IS BETWEEN 10. AND 100.NA
            BEAM-POLARIZATION IS BETWEEN 70. AND 80.PER-CENT
            ION-SOURCE=AN ATOMIC-BEAM-TYPE POLARIZED ION SOURCE
SAMPLE      TARGET IS NATURAL
            CHEMICAL-FORM OF TARGET IS ELEMENT
            PHYSICAL-FORM OF TARGET IS GAS
            TARGET-THICKNESS=THE TYPICAL GAS PRESSURE WAS 820
            TORR AT 20 DEG.C.
            TARGET IS NOT POLARIZED
            TARGET IS NOT ALIGNED
HISTORY    (19881021T) CONVERTED FROM NRDF DATA NO. D839
           (20040401A) PAR in SF5 and E-EXC=0.0 MEV are deleted.
                       Headings for uncertainties are corrected.
ENDBIB              26
NOCOMMON             0          0
ENDSUBENT           29
";
"SUBENT        E0839002   20040622              20050926       0000
BIB                  3          4
REACTION   (1-H-1(D,EL)1-H-1,,DA)
ERR-ANALYS (ERR-SYS) Uncertaintiy mainly due to beam integration
           (ERR-S) Statistical uncertainty
HISTORY    (20040401A) ERR-ANALYS is added.
ENDBIB               4
COMMON               2          3
EN         ERR-SYS
MEV        PER-CENT
56.        3.
ENDCOMMON            3
DATA                 3         38
ANG-CM     DATA       ERR-S
ADEG       MB/SR      MB/SR
      30.50       66.0        0.2
      33.62       63.7        0.2
      36.78       58.5        0.2
      39.96       54.5        0.2
      43.17       50.3        0.1
      46.42       46.9        0.2
      49.71       42.8        0.2
      53.05       39.3        0.2
      56.45       35.3        0.2
      59.35       30.2        0.1
      63.33       26.7        0.1
      67.31       23.5        0.1
      71.29       20.5        0.1
      75.27      18.07       0.04
      79.26      15.70       0.04
      83.25      13.65       0.04
      87.25      11.92       0.03
      91.25      10.33       0.02
      95.25       8.85       0.02
      99.26       7.60       0.02
     103.27       6.34       0.01
     107.28       5.35       0.01
     111.30       4.42       0.01
     115.32       3.63       0.01
     119.35       2.87       0.01
     123.38       2.39       0.01
     127.41       2.19       0.01
     131.44       2.33       0.01
     135.48       3.02       0.01
     139.51       4.52       0.03
     143.56       6.88       0.05
     145.58       8.57       0.10
     147.60      10.45       0.07
     149.62      12.06       0.13
     151.65      14.85       0.10
     153.67      17.44       0.19
     155.69      20.40       0.12
     159.74      27.40       0.27
ENDDATA             40
ENDSUBENT           53
";
"SUBENT        E0839003   20040622              20050926       0000
BIB                  3          4
REACTION   (1-H-1(D,EL)1-H-1,,POL/DA,,ANA)
ERR-ANALYS (ERR-1) Uncertaintiy from error of Ay in polarimeter
           (ERR-S) Statistical uncertainty
HISTORY    (20040401A) ERR-ANALYS is added.
ENDBIB               4
COMMON               2          3
EN         ERR-1
MEV        PER-CENT
56.        10.
ENDCOMMON            3
DATA                 3         38
ANG-CM     DATA       ERR-S
ADEG       NO-DIM     NO-DIM
      30.50      0.043      0.006
      33.62      0.041      0.007
      36.78      0.038      0.007
      39.96      0.039      0.005
      43.17      0.039      0.004
      46.42      0.028      0.006
      49.71      0.037      0.006
      53.05      0.024      0.005
      56.45      0.016      0.005
      59.35      0.009      0.004
      63.33     -0.005      0.004
      67.31     -0.027      0.008
      71.29     -0.042      0.008
      75.27     -0.057      0.009
      79.26     -0.082      0.009
      83.25     -0.110      0.009
      87.25     -0.128      0.010
      91.25     -0.154      0.009
      95.25     -0.176      0.010
      99.26     -0.196      0.010
     103.27     -0.206      0.009
     107.28     -0.232      0.010
     111.30     -0.233      0.010
     115.32     -0.187      0.009
     119.35     -0.159      0.009
     123.38     -0.061      0.009
     127.41      0.096      0.009
     131.44      0.224      0.010
     135.48      0.290      0.011
     139.51      0.310      0.014
     143.56      0.239      0.012
     145.58      0.219      0.021
     147.60      0.198      0.012
     149.62      0.185      0.021
     151.65      0.146      0.011
     153.67      0.117      0.019
     155.69      0.101      0.013
     159.74      0.060      0.019
ENDDATA             40
ENDSUBENT           53
";
"SUBENT        E0839004   20040622              20050926       0000
BIB                  3          4
REACTION   (1-H-1(D,EL)1-H-1,SS,POL/DA,,ANA)
ERR-ANALYS (ERR-1) Uncertaintiy from error of Ay in polarimeter
           (ERR-S) Statistical uncertainty
HISTORY    (20040401A) ERR-ANALYS is added.
ENDBIB               4
COMMON               2          3
EN         ERR-1
MEV        PER-CENT
56.        10.
ENDCOMMON            3
DATA                 3         35
ANG-CM     DATA       ERR-S
ADEG       NO-DIM     NO-DIM
      36.78     -0.045      0.003
      39.96     -0.052      0.005
      43.17     -0.062      0.003
      46.42     -0.064      0.006
      49.71     -0.081      0.004
      53.05     -0.086      0.006
      56.45     -0.101        0.2
      59.35     -0.123      0.006
      63.33     -0.127      0.006
      67.31     -0.152      0.012
      71.29     -0.155      0.013
      75.27     -0.169      0.014
      79.26     -0.134      0.013
      83.25     -0.120      0.012
      87.25     -0.098      0.013
      91.25     -0.059      0.012
      95.25      0.013      0.012
      99.26      0.058      0.013
     103.27      0.137      0.013
     107.28      0.206      0.014
     111.30      0.313      0.014
     115.32      0.389      0.016
     119.35      0.375      0.014
     123.38      0.298      0.014
     127.41      0.006      0.012
     131.44     -0.312      0.015
     135.48     -0.550      0.023
     139.51     -0.641      0.018
     143.56     -0.583      0.016
     145.58     -0.515      0.025
     147.60     -0.497      0.017
     149.62     -0.475      0.027
     151.65     -0.399      0.015
     153.67     -0.342      0.021
     155.69     -0.279      0.016
ENDDATA             37
ENDSUBENT           50
";
"SUBENT        E0839005   20040622              20050926       0000
BIB                  3          4
REACTION   (1-H-1(D,EL)1-H-1,NN,POL/DA,,ANA)
ERR-ANALYS (ERR-1) Uncertaintiy from error of Ay in polarimeter
           (ERR-S) Statistical uncertainty
HISTORY    (20040401A) ERR-ANALYS is added.
ENDBIB               4
COMMON               2          3
EN         ERR-1
MEV        PER-CENT
56.        10.
ENDCOMMON            3
DATA                 3         38
ANG-CM     DATA       ERR-S
ADEG       NO-DIM     NO-DIM
      30.50      0.037      0.006
      33.62      0.039      0.006
      36.78      0.033      0.006
      39.96      0.018      0.004
      43.17      0.045      0.004
      46.42      0.050      0.005
      49.71      0.042      0.005
      53.05      0.059      0.004
      56.45      0.070      0.005
      59.35      0.076      0.004
      63.33      0.082      0.004
      67.31      0.094      0.008
      71.29      0.123      0.009
      75.27      0.145      0.010
      79.26      0.151      0.010
      83.25      0.148      0.009
      87.25      0.179      0.011
      91.25      0.195      0.010
      95.25      0.206      0.011
      99.26      0.247      0.012
     103.27      0.277      0.011
     107.28      0.308      0.012
     111.30      0.387      0.013
     115.32      0.448      0.015
     119.35      0.499      0.013
     123.38      0.546      0.015
     127.41      0.587      0.016
     131.44      0.536      0.016
     135.48      0.392      0.016
     139.51      0.229      0.011
     143.56      0.162      0.009
     145.58      0.138      0.017
     147.60      0.099      0.009
     149.62      0.051      0.017
     151.65      0.076      0.009
     153.67      0.036      0.015
     155.69      0.034      0.010
     159.74      0.008      0.014
ENDDATA             40
ENDSUBENT           53
";
"SUBENT        E0839006   20040622              20050926       0000
BIB                  3          4
REACTION   (1-H-1(D,EL)1-H-1,SL,POL/DA,,ANA)
ERR-ANALYS (ERR-1) Uncertaintiy from error of Ay in polarimeter
           (ERR-S) Statistical uncertainty
HISTORY    (20040401A) ERR-ANALYS is added.
ENDBIB               4
COMMON               2          3
EN         ERR-1
MEV        PER-CENT
56.        10.
ENDCOMMON            3
DATA                 3         25
ANG-CM     DATA       ERR-S
ADEG       NO-DIM     NO-DIM
      30.50      0.002      0.009
      38.36     -0.005      0.008
      46.42      0.016      0.008
      54.75      0.049      0.005
      63.46      0.093      0.006
      64.32      0.088      0.007
      69.30      0.128      0.007
      74.28      0.180      0.012
      79.26      0.270      0.008
      84.25      0.298      0.011
      89.25      0.358      0.013
      94.25      0.381      0.022
      99.26      0.447      0.014
     104.27      0.486      0.013
     109.29      0.529      0.019
     114.32      0.401      0.015
     119.35      0.273      0.017
     124.38     -0.060      0.033
     129.42     -0.306      0.018
     134.47     -0.333      0.016
     139.51     -0.108      0.022
     144.57     -0.030      0.017
     149.62      0.107      0.025
     154.68      0.095      0.021
     159.74      0.131      0.021
ENDDATA             27
ENDSUBENT           40
"].

Definition eE1627 : list string := ["SUBENT        E1627001   20080131   20080131   20080131       E051
BIB                 12         26
TITLE      Measurement of the vector and tensor analyzing powers
           for the d-p elastic scattering at Ed=270 MeV
AUTHOR     (N.Sakamoto, H.Okamura, T.Uesaka, S.Ishida, H.Otsu,
           T.Wakasa, Y.Satou, T.Niizeki, K.Katoh, T.Yamashita,
           K.Hatanaka, Y.Koike, H.Sakai)
INSTITUTE  (2JPNTOK) Department of Physics
           (2JPNTIT) Department of Physics
           (2JPNOSA) Research Center for Nuclear Physics
           (2JPNHOS) Department of Physics
REFERENCE  (J,PL/B,367,(1-4),60,199601)
           Main reference. See also TITLE and AUTHOR.
           (T,SAKAMOTO,199512) N.Sakamoto, Numerical data
PART-DET   (D,P)
MISC-COL   (MISC) Polar angle between beam and proton in
                  laboratory system
INC-SOURCE Beam intensity is 10 to 30 nA.
           (POLIS)
SAMPLE     - Chemical-form of target is CH2.
           - Physical-form of target is solid.
           - Target-thickness is 8.1 mg/cm**2.
METHOD     (COINC) Detect deuteron and proton in coincidence.
FACILITY   (CYCLO,2JPNIPC)
DETECTOR   (SCIN) To detect scattered deuterons and recoil
                  protons
HISTORY    (19980414T) Converted from NRDF D1627
           (20070317T) On. Re-Converted from NRDF D1627
ENDBIB              26
COMMON               3          3
EN         POL-BM-MIN POL-BM-MAX
MEV        NO-DIM     NO-DIM
 270.       0.6        0.7
ENDCOMMON            3
ENDSUBENT           33
";
"SUBENT        E1627002   20080131   20080131   20080131       E051
BIB                  5          7
REACTION   (1-H-1(D,EL)1-H-1,,POL/DA,,ANA)
EN-SEC     ANG-CM is polar angle between beam and deuteron in
           center of mass system
ERR-ANALYS (ERR-S) Statistical uncertainty
ADD-RES    (COMP) Faddeev method
STATUS     (TABLE) Data (Fig.1, p62 in main reference) taken from
                   doctor thesis of N.Sakamoto
ENDBIB               7
NOCOMMON             0          0
DATA                 4         10
ANG-CM     MISC       DATA       ERR-S
ADEG       ADEG       NO-DIM     NO-DIM
 137.8      20.0       -0.046     0.006
 127.3      25.0       -0.199     0.007
 116.9      30.0       -0.302     0.019
 106.7      35.0       -0.382     0.006
 96.6       40.0       -0.400     0.005
 90.0       43.3       -0.391     0.007
 86.5       45.0       -0.381     0.006
 76.6       50.0       -0.297     0.006
 66.8       55.0       -0.164     0.004
 57.0       60.0       0.030      0.003
ENDDATA             12
ENDSUBENT           24
";
"SUBENT        E1627003   20080131   20080131   20080131       E051
BIB                  5          7
REACTION   (1-H-1(D,EL)1-H-1,NN,POL/DA,,ANA)
EN-SEC     ANG-CM is polar angle between beam and deuteron in
           center of mass system
ERR-ANALYS (ERR-S) Statistical uncertainty
ADD-RES    (COMP) Faddeev method
STATUS     (TABLE) Data (Fig.1, p62 in main reference) taken from
                   doctor thesis of N.Sakamoto
ENDBIB               7
NOCOMMON             0          0
DATA                 4         10
ANG-CM     MISC       DATA       ERR-S
ADEG       ADEG       NO-DIM     NO-DIM
 137.8      20.0       0.559      0.020
 127.3      25.0       0.600      0.011
 116.9      30.0       0.687      0.074
 106.7      35.0       0.612      0.018
 96.6       40.0       0.544      0.013
 90.0       43.3       0.478      0.016
 86.5       45.0       0.491      0.016
 76.6       50.0       0.382      0.015
 66.8       55.0       0.329      0.013
 57.0       60.0       0.314      0.010
ENDDATA             12
ENDSUBENT           24
";
"SUBENT        E1627004   20080131   20080131   20080131       E051
BIB                  5          7
REACTION   (1-H-1(D,EL)1-H-1,SS,POL/DA,,ANA)
EN-SEC     ANG-CM is polar angle between beam and deuteron in
           center of mass system
ERR-ANALYS (ERR-S) Statistical uncertainty
ADD-RES    (COMP) Faddeev method
STATUS     (TABLE) Data (Fig.1, p62 in main reference) taken from
                   doctor thesis of N.Sakamoto
ENDBIB               7
NOCOMMON             0          0
DATA                 4          9
ANG-CM     MISC       DATA       ERR-S
ADEG       ADEG       NO-DIM     NO-DIM
 137.8      20.0       -0.285     0.014
 127.3      25.0       -0.248     0.008
 116.9      30.0       -0.326     0.043
 106.7      35.0       -0.385     0.013
 96.6       40.0       -0.438     0.011
 90.0       43.3       -0.450     0.014
 86.5       45.0       -0.492     0.014
 76.6       50.0       -0.502     0.016
 66.8       55.0       -0.500     0.015
ENDDATA             11
ENDSUBENT           23
";
"SUBENT        E1627005   20080131   20080131   20080131       E051
BIB                  5          7
REACTION   (1-H-1(D,EL)1-H-1,SS,POL/DA,,ANA)
EN-SEC     ANG-CM is polar angle between beam and deuteron in
           center of mass system
ERR-ANALYS (ERR-S) Statistical uncertainty
ADD-RES    (COMP) Faddeev method
STATUS     (TABLE) Data (Fig.1, p62 in main reference) taken from
                   doctor thesis of N.Sakamoto
ENDBIB               7
NOCOMMON             0          0
DATA                 4         10
ANG-CM     MISC       DATA       ERR-S
ADEG       ADEG       NO-DIM     NO-DIM
 137.8      20.0       0.656      0.150
 127.3      25.0       0.566      0.072
 116.9      30.0       0.581      0.093
 106.7      35.0       0.360      0.033
 96.6       40.0       0.463      0.043
 90.0       43.3       0.481      0.032
 86.5       45.0       0.377      0.038
 76.6       50.0       0.339      0.040
 66.8       55.0       0.311      0.039
 57.0       60.0       0.152       2.400E-02
ENDDATA             12
ENDSUBENT           24
";
"SUBENT        E1627006   20080131   20080131   20080131       E051
BIB                  3          4
REACTION   (1-H-1(D,EL)1-H-1,,DA)
EN-SEC     ANG-CM is polar angle between beam and deuteron in
           center of mass system
HISTORY    (20070317D) On. Data from another work
ENDBIB               4
NOCOMMON             0          0
NODATA               0          0
ENDSUBENT            8
";
"SUBENT        E1627007   20080131   20080131   20080131       E051
BIB                  3          4
REACTION   (1-H-1(D,EL)1-H-1,,DA)
EN-SEC     ANG-CM is polar angle between beam and deuteron in
           center of mass system
HISTORY    (20070317D) On. Data from another work
ENDBIB               4
NOCOMMON             0          0
NODATA               0          0
ENDSUBENT            8
";
"SUBENT        E1627008   20080131   20080131   20080131       E051
BIB                  5          7
REACTION   (1-H-1(D,EL)1-H-1,,DA)
EN-SEC     ANG-CM is polar angle between beam and deuteron in
           center of mass system
ERR-ANALYS (ERR-S) Statistical uncertainty
ADD-RES    (COMP) Faddeev method
STATUS     (TABLE) Data (Fig.2, p63 in main reference) taken from
                   doctor thesis of N.Sakamoto
ENDBIB               7
NOCOMMON             0          0
DATA                 4         10
ANG-CM     MISC       DATA-CM    ERR-S
ADEG       ADEG       MB/SR      MB/SR
 137.8      20.0       0.233      0.003
 127.3      25.0       0.227      0.002
 116.9      30.0       0.228      0.004
 106.7      35.0       0.240      0.003
 96.6       40.0       0.288      0.005
 90.0       43.3       0.357      0.003
 86.5       45.0       0.401      0.003
 76.6       50.0       0.541      0.004
 66.8       55.0       0.766      0.006
 57.0       60.0       1.088      0.011
ENDDATA             12
ENDSUBENT           24
"].

Definition eE2008 : list string := ["SUBENT        E2008001   20070712   20070719   20070712       E045
BIB                  9         26
TITLE      Absolute calibration of the deuteron beam polarization
           at intermediate energies via the 12C(d,alpha)10B*[2+]
           reaction
AUTHOR     (K.Suda, H.Okamura, T.Uesaka, J.Nishikawa, H.Kumasaka,
           R.Suzuki, H.Sakai, A.Tamii, T.Ohnishi, K.Sekiguchi,
           K.Yako, S.Sakoda, H.Kato, M.Hatano, Y.Maeda, T.Saito,
           T.Ishida, N.Sakamoto, Y.Satou, K.Hatanaka, T.Wakasa,
           J.Kamiya)
INSTITUTE  (2JPNTOK) Center for Nuclear Study
           (2JPNOSA) Research Center for Nuclear Physics
           (2JPNSUU) Department of Physics
           (2JPNTOK) Department of Physics
           (2JPNIPC)
           (2JPNTIT) Department of Physics
           (2JPNKYU) Department of Physics
           (2JPNJAE)
REFERENCE  (J,NIM/A,572,(2),745,200703)
INC-SOURCE (POLIS)
SAMPLE     - Chemical-form of target is CH2.
           - Physical-form of target is solid.
           - Target-thickness is 3 mg/cm**2.
FACILITY   (CYCLO,2JPNIPC) RIKEN Accelerator Research Facility
DETECTOR   Solid angle of detector is about 0.75 msr.
           (SCIN) To detect scattered deuterons and recoiled
                  protons
HISTORY    (20070402C) Tt + On
ENDBIB              26
COMMON               1          3
ANG-RSL
ADEG
 1.
ENDCOMMON            3
ENDSUBENT           33
";
"SUBENT        E2008002   20070712   20070719   20070712       E045
BIB                  6          8
REACTION   (1-H-1(D,EL)1-H-1,,POL/DA,,ANA)
PART-DET   (D,P)
EN-SEC     ANG-CM is polar angle between beam and deuteron in
           center of mass system
METHOD     (COINC) Detect deuteron and proton in coincidence.
ERR-ANALYS (ERR-S) Statistical uncertainty
           (ERR-SYS) Total systematic uncertainty
STATUS     (TABLE) Taken from Table 7, p751 in reference
ENDBIB               8
COMMON               1          3
EN
MEV
 270.
ENDCOMMON            3
DATA                 4          6
ANG-CM     DATA       ERR-S      ERR-SYS
ADEG       NO-DIM     NO-DIM     NO-DIM
 80.6       -0.345     0.001      0.011
 83.6       -0.374     0.001      0.011
 86.6       -0.393     0.001      0.012
 89.6       -0.413     0.001      0.013
 92.6       -0.420     0.001      0.013
 117.7      -0.346     0.002      0.012
ENDDATA              8
ENDSUBENT           25
";
"SUBENT        E2008003   20070712   20070719   20070712       E045
BIB                  6          8
REACTION   (1-H-1(D,EL)1-H-1,NN,POL/DA,,ANA)
PART-DET   (D,P)
EN-SEC     ANG-CM is polar angle between beam and deuteron in
           center of mass system
METHOD     (COINC) Detect deuteron and proton in coincidence.
ERR-ANALYS (ERR-S) Statistical uncertainty
           (ERR-SYS) Total systematic uncertainty
STATUS     (TABLE) Taken from Table 7, p751 in reference
ENDBIB               8
COMMON               1          3
EN
MEV
 270.
ENDCOMMON            3
DATA                 4          6
ANG-CM     DATA       ERR-S      ERR-SYS
ADEG       NO-DIM     NO-DIM     NO-DIM
 80.6       0.398      0.001      0.012
 83.6       0.424      0.001      0.013
 86.6       0.446      0.001      0.013
 89.6       0.469      0.001      0.014
 92.6       0.498      0.001      0.015
 117.7      0.628      0.002      0.018
ENDDATA              8
ENDSUBENT           25
";
"SUBENT        E2008004   20070712   20070719   20070712       E045
BIB                  6          8
REACTION   (1-H-1(D,EL)1-H-1,SS,POL/DA,,ANA)
PART-DET   (D,P)
EN-SEC     ANG-CM is polar angle between beam and deuteron in
           center of mass system
METHOD     (COINC) Detect deuteron and proton in coincidence.
ERR-ANALYS (ERR-S) Statistical uncertainty
           (ERR-SYS) Total systematic uncertainty
STATUS     (TABLE) Taken from Table 7, p751 in reference
ENDBIB               8
COMMON               1          3
EN
MEV
 270.
ENDCOMMON            3
DATA                 4          6
ANG-CM     DATA       ERR-S      ERR-SYS
ADEG       NO-DIM     NO-DIM     NO-DIM
 80.6       -0.494     0.001      0.015
 83.6       -0.481     0.001      0.014
 86.6       -0.471     0.001      0.014
 89.6       -0.457     0.001      0.014
 92.6       -0.442     0.001      0.013
 117.7      -0.327     0.002      0.010
ENDDATA              8
ENDSUBENT           25
";
"SUBENT        E2008005   20070712   20070719   20070712       E045
BIB                  6          8
REACTION   (1-H-1(D,EL)1-H-1,SL,POL/DA,,ANA)
PART-DET   (D,P)
EN-SEC     ANG-CM is polar angle between beam and deuteron in
           center of mass system
METHOD     (COINC) Detect deuteron and proton in coincidence.
ERR-ANALYS (ERR-S) Statistical uncertainty
           (ERR-SYS) Total systematic uncertainty
STATUS     (TABLE) Taken from Table 7, p751 in reference
ENDBIB               8
COMMON               1          3
EN
MEV
 270.
ENDCOMMON            3
DATA                 4          6
ANG-CM     DATA       ERR-S      ERR-SYS
ADEG       NO-DIM     NO-DIM     NO-DIM
 80.6       0.405      0.005      0.036
 83.6       0.433      0.005      0.039
 86.6       0.449      0.005      0.040
 89.6       0.454      0.005      0.041
 92.6       0.460      0.006      0.041
 117.7      0.478      0.008      0.043
ENDDATA              8
ENDSUBENT           25
";
"SUBENT        E2008006   20070712   20070719   20070712       E045
BIB                  6          8
REACTION   (1-H-1(D,EL)1-H-1,,POL/DA,,ANA)
PART-DET   (D,P)
EN-SEC     ANG-CM is polar angle between beam and deuteron in
           center of mass system
METHOD     (COINC) Detect deuteron and proton in coincidence.
ERR-ANALYS (ERR-S) Statistical uncertainty
           (ERR-SYS) Total systematic uncertainty
STATUS     (TABLE) Taken from Table 8, p751 in reference
ENDBIB               8
COMMON               1          3
EN
MEV
 140.
ENDCOMMON            3
DATA                 4          6
ANG-CM     DATA       ERR-S      ERR-SYS
ADEG       NO-DIM     NO-DIM     NO-DIM
 82.0       -0.309     0.001      0.008
 88.0       -0.403     0.001      0.010
 94.0       -0.477     0.001      0.012
 100.0      -0.514     0.001      0.013
 110.0      -0.488     0.002      0.012
 119.1      -0.383     0.002      0.011
ENDDATA              8
ENDSUBENT           25
";
"SUBENT        E2008007   20070712   20070719   20070712       E045
BIB                  6          8
REACTION   (1-H-1(D,EL)1-H-1,NN,POL/DA,,ANA)
PART-DET   (D,P)
EN-SEC     ANG-CM is polar angle between beam and deuteron in
           center of mass system
METHOD     (COINC) Detect deuteron and proton in coincidence.
ERR-ANALYS (ERR-S) Statistical uncertainty
           (ERR-SYS) Total systematic uncertainty
STATUS     (TABLE) Taken from Table 8, p751 in reference
ENDBIB               8
COMMON               1          3
EN
MEV
 140.
ENDCOMMON            3
DATA                 4          6
ANG-CM     DATA       ERR-S      ERR-SYS
ADEG       NO-DIM     NO-DIM     NO-DIM
 82.0       0.246      0.001      0.006
 88.0       0.312      0.001      0.008
 94.0       0.383      0.001      0.009
 100.0      0.452      0.001      0.011
 110.0      0.542      0.002      0.013
 119.1      0.578      0.002      0.017
ENDDATA              8
ENDSUBENT           25
";
"SUBENT        E2008008   20070712   20070719   20070712       E045
BIB                  6          8
REACTION   (1-H-1(D,EL)1-H-1,SS,POL/DA,,ANA)
PART-DET   (D,P)
EN-SEC     ANG-CM is polar angle between beam and deuteron in
           center of mass system
METHOD     (COINC) Detect deuteron and proton in coincidence.
ERR-ANALYS (ERR-S) Statistical uncertainty
           (ERR-SYS) Total systematic uncertainty
STATUS     (TABLE) Taken from Table 8, p751 in reference
ENDBIB               8
COMMON               1          3
EN
MEV
 140.
ENDCOMMON            3
DATA                 4          6
ANG-CM     DATA       ERR-S      ERR-SYS
ADEG       NO-DIM     NO-DIM     NO-DIM
 82.0       -0.225     0.001      0.006
 88.0       -0.207     0.001      0.005
 94.0       -0.168     0.001      0.004
 100.0      -0.111     0.001      0.003
 110.0      -0.001     0.002      0.001
 119.1      0.067      0.002      0.004
ENDDATA              8
ENDSUBENT           25
";
"SUBENT        E2008009   20070712   20070719   20070712       E045
BIB                  6          8
REACTION   (1-H-1(D,EL)1-H-1,SL,POL/DA,,ANA)
PART-DET   (D,P)
EN-SEC     ANG-CM is polar angle between beam and deuteron in
           center of mass system
METHOD     (COINC) Detect deuteron and proton in coincidence.
ERR-ANALYS (ERR-S) Statistical uncertainty
           (ERR-SYS) Total systematic uncertainty
STATUS     (TABLE) Taken from Table 8, p751 in reference
ENDBIB               8
COMMON               1          3
EN
MEV
 140.
ENDCOMMON            3
DATA                 4          6
ANG-CM     DATA       ERR-S      ERR-SYS
ADEG       NO-DIM     NO-DIM     NO-DIM
 82.0       0.253      0.013      0.029
 88.0       0.320      0.014      0.037
 94.0       0.377      0.015      0.044
 100.0      0.407      0.017      0.047
 110.0      0.366      0.026      0.043
 119.1      0.213      0.028      0.047
ENDDATA              8
ENDSUBENT           25
"].

Definition eE2052 : list string := ["SUBENT        E2052001   20080131   20080131   20080131       E050
BIB                 12         25
TITLE      Precision measurement of vector and tensor analyzing
           powers in elastic deuteron-proton scattering
AUTHOR     (H.Mardanpour, H.R.Amir-Ahmadi, A.Deltuva, K.Itoh,
           N.Kalantar-Nayestanaki, T.Kawabata, H.Kuboki, Y.Maeda,
           J.G.Messchendorp, S.Sakaguchi, H.Sakai, N.Sakamoto,
           Y.Sasamoto, M.Sasano, K.Sekiguchi, K.Suda,
           Y.Takahashi, T.Uesaka, H.Witala, K.Yako)
INSTITUTE  (2NEDKVI)
           (2PRTLIS) Centro de Fisica Nuclear
           (2JPNSUU) Department of Physics
           (2JPNTOK) Center for Nuclear Study
           (2JPNTOK) Department of Physics
           (2JPNIPC) Nishina Center
           (3POLITJ) M. Smoluchowski Institute of Physics
REFERENCE  (J,EPJ/A,31,(3),383,200703)
PART-DET   (D,P)
INC-SOURCE (POLIS)
SAMPLE     - Chemical-form of target is CH2.
           - Physical-form of target is solid.
METHOD     (COINC) Detect deuteron and proton in coincidence.
FACILITY   (CYCLO,2JPNIPC)
DETECTOR   (SCIN) To measure polarization asymmetries in d-p
                  elastic scattering
ADD-RES    (COMP) Faddeev method
HISTORY    (20070510C) On + Yt
ENDBIB              25
COMMON               2          3
POL-BM-MIN POL-BM-MAX
NO-DIM     NO-DIM
 0.6        0.8
ENDCOMMON            3
ENDSUBENT           32
";
"SUBENT        E2052002   20080131   20080131   20080131       E050
BIB                  4          6
REACTION   (1-H-1(D,EL)1-H-1,,POL/DA,,VAP)
EN-SEC     ANG-CM is polar angle between beam and deuteron in
           center of mass system
ERR-ANALYS (ERR-S) Statistical uncertainty
           (ERR-SYS) Uncertainty in polarization axis mainly
STATUS     (TABLE) Taken from Table 1, p387 in reference
ENDBIB               6
COMMON               1          3
EN
MEV
 130.
ENDCOMMON            3
DATA                 4          8
ANG-CM     DATA       ERR-S      ERR-SYS
ADEG       NO-DIM     NO-DIM     NO-DIM
 70.        -0.075     0.006      0.003
 76.        -0.186     0.022      0.007
 83.        -0.275     0.004      0.011
 89.        -0.359     0.003      0.014
 95.        -0.418     0.004      0.016
 101.       -0.439     0.003      0.017
 111.       -0.418     0.003      0.016
 119.       -0.326     0.003      0.013
ENDDATA             10
ENDSUBENT           25
";
"SUBENT        E2052003   20080131   20080131   20080131       E050
BIB                  4          6
REACTION   (1-H-1(D,EL)1-H-1,22,POL/DA,,TAP)
EN-SEC     ANG-CM is polar angle between beam and deuteron in
           center of mass system
ERR-ANALYS (ERR-S) Statistical uncertainty
           (ERR-SYS) Uncertainty in polarization axis mainly
STATUS     (TABLE) Taken from Table 1, p387 in reference
ENDBIB               6
COMMON               1          3
EN
MEV
 130.
ENDCOMMON            3
DATA                 4          8
ANG-CM     DATA       ERR-S      ERR-SYS
ADEG       NO-DIM     NO-DIM     NO-DIM
 70.        -0.102     0.003      0.004
 76.        -0.124     0.005      0.005
 83.        -0.136     0.002      0.006
 89.        -0.149     0.001      0.006
 95.        -0.158     0.004      0.006
 101.       -0.153     0.001      0.006
 111.       -0.145     0.001      0.006
 119.       -0.128     0.002      0.005
ENDDATA             10
ENDSUBENT           25
";
"SUBENT        E2052004   20080131   20080131   20080131       E050
BIB                  4          6
REACTION   (1-H-1(D,EL)1-H-1,20,POL/DA,,TAP)
EN-SEC     ANG-CM is polar angle between beam and deuteron in
           center of mass system
ERR-ANALYS (ERR-S) Statistical uncertainty
           (ERR-SYS) Uncertainty in polarization axis mainly
STATUS     (TABLE) Taken from Table 1, p387 in reference
ENDBIB               6
COMMON               1          3
EN
MEV
 130.
ENDCOMMON            3
DATA                 4          8
ANG-CM     DATA       ERR-S      ERR-SYS
ADEG       NO-DIM     NO-DIM     NO-DIM
 70.        0.049      0.014      0.002
 76.        0.013      0.004      0.001
 83.        -0.048     0.004      0.002
 89.        -0.121     0.005      0.005
 95.        -0.204     0.006      0.008
 101.       -0.301     0.005      0.012
 111.       -0.443     0.005      0.018
 119.       -0.49      0.006      0.02
ENDDATA             10
ENDSUBENT           25
";
"SUBENT        E2052005   20080131   20080131   20080131       E050
BIB                  4          6
REACTION   (1-H-1(D,EL)1-H-1,21,POL/DA,,TAP)
EN-SEC     ANG-CM is polar angle between beam and deuteron in
           center of mass system
ERR-ANALYS (ERR-S) Statistical uncertainty
           (ERR-SYS) Uncertainty in polarization axis mainly
STATUS     (TABLE) Taken from Table 1, p387 in reference
ENDBIB               6
COMMON               1          3
EN
MEV
 130.
ENDCOMMON            3
DATA                 4          8
ANG-CM     DATA       ERR-S      ERR-SYS
ADEG       NO-DIM     NO-DIM     NO-DIM
 70.        -0.124     0.01       0.009
 76.        -0.144     0.014      0.011
 83.        -0.216     0.004      0.016
 89.        -0.238     0.006      0.018
 95.        -0.267     0.006      0.02
 101.       -0.254     0.004      0.019
 111.       -0.214     0.004      0.016
 119.       -0.151     0.003      0.011
ENDDATA             10
ENDSUBENT           25
";
"SUBENT        E2052006   20080131   20080131   20080131       E050
BIB                  4          6
REACTION   (1-H-1(D,EL)1-H-1,,POL/DA,,VAP)
EN-SEC     ANG-CM is polar angle between beam and deuteron in
           center of mass system
ERR-ANALYS (ERR-S) Statistical uncertainty
           (ERR-SYS) Uncertainty in polarization axis mainly
STATUS     (TABLE) Taken from Table 2, p388 in reference
ENDBIB               6
COMMON               1          3
EN
MEV
 180.
ENDCOMMON            3
DATA                 4          8
ANG-CM     DATA       ERR-S      ERR-SYS
ADEG       NO-DIM     NO-DIM     NO-DIM
 77.        -0.192     0.007      0.008
 83.        -0.273     0.009      0.011
 84.        -0.29      0.002      0.011
 89.        -0.352     0.003      0.014
 95.        -0.393     0.003      0.015
 101.       -0.394     0.003      0.015
 111.       -0.35      0.003      0.014
 119.       -0.28      0.003      0.011
ENDDATA             10
ENDSUBENT           25
";
"SUBENT        E2052007   20080131   20080131   20080131       E050
BIB                  4          6
REACTION   (1-H-1(D,EL)1-H-1,22,POL/DA,,TAP)
EN-SEC     ANG-CM is polar angle between beam and deuteron in
           center of mass system
ERR-ANALYS (ERR-S) Statistical uncertainty
           (ERR-SYS) Uncertainty in polarization axis mainly
STATUS     (TABLE) Taken from Table 2, p388 in reference
ENDBIB               6
COMMON               1          3
EN
MEV
 180.
ENDCOMMON            3
DATA                 4          8
ANG-CM     DATA       ERR-S      ERR-SYS
ADEG       NO-DIM     NO-DIM     NO-DIM
 77.        -0.134     0.003      0.005
 83.        -0.15      0.004      0.006
 84.        -0.152     0.001      0.006
 89.        -0.168     0.001      0.007
 95.        -0.185     0.001      0.007
 101.       -0.192     0.001      0.008
 111.       -0.192     0.002      0.008
 119.       -0.188     0.002      0.008
ENDDATA             10
ENDSUBENT           25
";
"SUBENT        E2052008   20080131   20080131   20080131       E050
BIB                  4          6
REACTION   (1-H-1(D,EL)1-H-1,20,POL/DA,,TAP)
EN-SEC     ANG-CM is polar angle between beam and deuteron in
           center of mass system
ERR-ANALYS (ERR-S) Statistical uncertainty
           (ERR-SYS) Uncertainty in polarization axis mainly
STATUS     (TABLE) Taken from Table 2, p388 in reference
ENDBIB               6
COMMON               1          3
EN
MEV
 180.
ENDCOMMON            3
DATA                 4          8
ANG-CM     DATA       ERR-S      ERR-SYS
ADEG       NO-DIM     NO-DIM     NO-DIM
 77.        0.045      0.007      0.002
 83.        0.004      0.008      0.001
 84.        -0.006     0.001      0.001
 89.        -0.065     0.001      0.003
 95.        -0.14      0.002      0.006
 101.       -0.214     0.003      0.009
 111.       -0.306     0.003      0.013
 119.       -0.342     0.004      0.014
ENDDATA             10
ENDSUBENT           25
";
"SUBENT        E2052009   20080131   20080131   20080131       E050
BIB                  4          6
REACTION   (1-H-1(D,EL)1-H-1,21,POL/DA,,TAP)
EN-SEC     ANG-CM is polar angle between beam and deuteron in
           center of mass system
ERR-ANALYS (ERR-S) Statistical uncertainty
           (ERR-SYS) Uncertainty in polarization axis mainly
STATUS     (TABLE) Taken from Table 2, p388 in reference
ENDBIB               6
COMMON               1          3
EN
MEV
 180.
ENDCOMMON            3
DATA                 4          8
ANG-CM     DATA       ERR-S      ERR-SYS
ADEG       NO-DIM     NO-DIM     NO-DIM
 77.        -0.159     0.009      0.01
 83.        -0.184     0.012      0.012
 84.        -0.19      0.003      0.012
 89.        -0.199     0.003      0.013
 95.        -0.193     0.003      0.013
 101.       -0.192     0.003      0.013
 111.       -0.182     0.007      0.012
 119.       -0.161     0.004      0.011
ENDDATA             10
ENDSUBENT           25
"].

Definition eE2159 : list string := ["SUBENT        E2159001   20100816   20100915   20100816       E063
BIB                 10         28
TITLE      Tensor analyzing powers of pd radiative capture
AUTHOR     (Y.Tameshige, K.Hatanaka, K.Sagara, M.Dozono, K.Fujita,
           E.Ihara, T.Kaneda, M.Kato, T.Kawabata, S.Kuroita,
           Y.Maeda, H.Matsubara, H.Okamura, Y.Sakemi,
           K.Sekiguchi, Y.Shimizu, T.Sugimoto, A.Tamii,
           T.Wakasa)
INSTITUTE  (2JPNOSA) Research Center for Nuclear Physics
           (2JPNKYU) Department of Physics
           (2JPNTOK) Center for Nuclear Study
           (2JPNTOH) Cyclotron and Radioisotope Center
           (2JPNIPC)
REFERENCE  (C,2007TOKYO,2,458,200706)
           Main reference. See also TITLE and AUTHOR.
           (T,TAMESHIGE,200805) Y.Tameshige, Doctor Dissertation
PART-DET   (HE3)
INC-SOURCE (POLIS) POL-BM: Monitored by using p-d elastic
                   scattering
SAMPLE     - Physical-form of target is liquid.
           - Target-thickness is 9.6 mg/cm**2. 1.2 mm thickness
           - Backing: thin aramide window foils
           - Backing-thickness is 0.82 mg/cm**2. 6 micro meters
             thickness
FACILITY   (CYCLO,2JPNOSA)
DETECTOR   (MAGSP,MWDC,SCIN) Large acceptance spectrograph(LAS).
                             3He recoils were detected by four
                             sets of multi-wire vertical drift
                             chambers(VDC)
HISTORY    (20091126C) Compiled by Ayano Makinaga
ENDBIB              28
NOCOMMON             0          0
ENDSUBENT           31
";
"SUBENT        E2159002   20100816   20100915   20100816       E063
BIB                  4          4
REACTION   (1-H-1(D,EL)1-H-1,,DA)
EN-SEC     ANG-CM is polar angle (c.m.) between beam and 3He
ERR-ANALYS (DATA-ERR) No information on source of uncertainties
STATUS     (TABLE) Table A.1 of Tameshige's Thesis
ENDBIB               4
COMMON               1          3
EN
MEV
 196.
ENDCOMMON            3
DATA                 3         33
ANG-CM     DATA-CM    DATA-ERR
ADEG       MB/SR      MB/SR
 15.37      15.2269    0.1054
 23.12      11.5713    0.0589
 30.96      8.4206     0.0276
 37.32      5.9901     0.0210
 43.79      3.8739     0.0111
 50.41      2.5394     0.0089
 57.21      1.7463     0.0074
 64.27      1.2470     0.0064
 71.68      0.9377     0.0054
 81.50      0.6628     0.0075
 85.48      0.5878     0.0068
 89.47      0.5581     0.0062
 93.48      0.5402     0.0062
 97.50      0.4878     0.0055
 101.53     0.4908     0.0055
 105.58     0.4619     0.0051
 109.63     0.4693     0.0044
 113.70     0.4415     0.0049
 117.78     0.4351     0.0047
 119.83     0.4582     0.0048
 121.87     0.4477     0.0049
 123.92     0.4536     0.0048
 125.98     0.4720     0.0044
 130.09     0.4626     0.0048
 134.21     0.4903     0.0051
 138.34     0.4842     0.0054
 142.48     0.5395     0.0062
 146.63     0.6011     0.0061
 150.79     0.7520     0.0071
 154.95     0.9538     0.0078
 159.11     1.0913     0.0090
 164.33     1.5532     0.0107
 169.55     2.0597     0.0111
ENDDATA             35
ENDSUBENT           48
";
"SUBENT        E2159003   20100816   20100915   20100816       E063
BIB                  4          4
REACTION   (1-H-1(D,EL)1-H-1,,POL/DA,,ANA)
EN-SEC     ANG-CM is polar angle (c.m.) between beam and 3He
ERR-ANALYS (DATA-ERR) No information on source of uncertainties
STATUS     (TABLE) Table A.1 of Tameshige's Thesis
ENDBIB               4
COMMON               1          3
EN
MEV
 196.
ENDCOMMON            3
DATA                 3         33
ANG-CM     DATA       DATA-ERR
ADEG       NO-DIM     NO-DIM
 15.37      0.1341     0.0258
 23.12      0.2049     0.0090
 30.96      0.2267     0.0132
 37.32      0.2522     0.0139
 43.79      0.2607     0.0096
 50.41      0.1981     0.0075
 57.21      0.1122     0.0050
 64.27      -0.0173    0.0036
 71.68      -0.1617    0.0066
 81.50      -0.3264    0.0122
 85.48      -0.3978    0.0140
 89.47      -0.4162    0.0140
 93.48      -0.4348    0.0152
 97.50      -0.4588    0.0146
 101.53     -0.4659    0.0152
 105.58     -0.4673    0.0158
 109.63     -0.4273    0.0131
 113.70     -0.3818    0.0134
 117.78     -0.3691    0.0135
 119.83     -0.3108    0.0118
 121.87     -0.2967    0.0116
 123.92     -0.2375    0.0097
 125.98     -0.2059    0.0087
 130.09     -0.1249    0.0080
 134.21     -0.0379    0.0072
 138.34     0.0252     0.0079
 142.48     0.1543     0.0098
 146.63     0.2080     0.0101
 150.79     0.2308     0.0108
 154.95     0.2251     0.0102
 159.11     0.1761     0.0090
 164.33     0.1513     0.0077
 169.55     0.1060     0.0053
ENDDATA             35
ENDSUBENT           48
";
"SUBENT        E2159004   20100816   20100915   20100816       E063
BIB                  4          9
REACTION   (1-H-1(D,G)2-HE-3,SS,POL/DA,HE3,ANA)
EN-SEC     ANG is polar angle (lab.) between beam and 3He
ERR-ANALYS (ERR-T) Total uncertainty
           (ERR-SYS) Total systematic uncertainty
           (ERR-1) Analyzing power of deuteron polarimeter
                   (D-POL)
           (ERR-2) Yield of deuteron polarimeter (D-POL)
           (ERR-3) Efficiency of vertical drift chamber (VDC)
STATUS     (TABLE) Tables B.1 and B.3 of Tameshige's thesis
ENDBIB               9
COMMON               4          3
ERR-SYS    ERR-1      ERR-2      ERR-3
PER-CENT   PER-CENT   PER-CENT   PER-CENT
 2.0        1.8        0.3        0.3
ENDCOMMON            3
DATA                 4         20
EN         ANG        DATA       ERR-T
MEV        ADEG       NO-DIM     NO-DIM
 137.       0.0        0.1591     0.0196
 137.       40.5       -0.1189    0.0221
 137.       70.5       -0.2293    0.0218
 137.       88.5       -0.2413    0.0203
 137.       100.5      -0.2909    0.0151
 137.       115.5      -0.2722    0.0177
 137.       130.5      -0.2210    0.0160
 137.       145.5      -0.2040    0.0151
 137.       160.5      -0.1569    0.0130
 137.       180.0      -0.0183    0.0172
 196.       0.         0.018      0.045
 196.       22.5       -0.209     0.043
 196.       41.        -0.158     0.042
 196.       59.        -0.247     0.041
 196.       78.        -0.385     0.040
 196.       96.        -0.315     0.035
 196.       115.       -0.283     0.029
 196.       133.       -0.411     0.028
 196.       151.       -0.214     0.023
 196.       180.       -0.054     0.026
ENDDATA             22
ENDSUBENT           40
";
"SUBENT        E2159005   20100816   20100915   20100816       E063
BIB                  4          9
REACTION   (1-H-1(D,G)2-HE-3,NN,POL/DA,HE3,ANA)
EN-SEC     ANG is polar angle (lab.) between beam and 3He
ERR-ANALYS (ERR-T) Total uncertainty
           (ERR-SYS) Total systematic uncertainty
           (ERR-1) Analyzing power of deuteron polarimeter
                   (D-POL)
           (ERR-2) Yield of deuteron polarimeter (D-POL)
           (ERR-3) Efficiency of vertical drift chamber (VDC)
STATUS     (TABLE) Tables B.2 and B.4 of Tameshige's thesis
ENDBIB               9
COMMON               4          3
ERR-SYS    ERR-1      ERR-2      ERR-3
PER-CENT   PER-CENT   PER-CENT   PER-CENT
 1.9        1.8        0.2        0.5
ENDCOMMON            3
DATA                 4         22
EN         ANG        DATA       ERR-T
MEV        ADEG       NO-DIM     NO-DIM
 137.       30.        0.1250     0.0450
 137.       40.        -0.0417    0.0454
 137.       50.        -0.0902    0.0410
 137.       60.        -0.1805    0.0381
 137.       70.        -0.1917    0.0359
 137.       80.        -0.2351    0.0324
 137.       90.        -0.2103    0.0289
 137.       100.       -0.2337    0.0286
 137.       110.       -0.2272    0.0256
 137.       120.       -0.1579    0.0254
 137.       130.       -0.1280    0.0229
 137.       140.       -0.0922    0.0232
 137.       150.       -0.0398    0.0282
 137.       160.       -0.0479    0.0266
 196.       30.        -0.010     0.041
 196.       47.        -0.059     0.041
 196.       64.        -0.170     0.040
 196.       81.        -0.233     0.038
 196.       99.        -0.319     0.035
 196.       116.       -0.286     0.030
 196.       133.       -0.286     0.027
 196.       150.       -0.273     0.023
ENDDATA             24
ENDSUBENT           42
";
"SUBENT        E2159006   20100816   20100915   20100816       E063
BIB                  4         13
REACTION  1(1-H-1(D,G)2-HE-3,LL,POL/DA,HE3,ANA)
           Measured with inclined slit
          2(1-H-1(D,G)2-HE-3,LL,POL/DA,HE3,ANA)
           Measured with longitudinal polarized beam
EN-SEC     ANG is polar angle (lab.) between beam and 3He
ERR-ANALYS (ERR-T) Total uncertainty
           (ERR-SYS) Total systematic uncertainty
           (ERR-1) Analyzing power of deuteron polarimeter
                   (D-POL)
           (ERR-2) Yield of deuteron polarimeter (D-POL)
           (ERR-3) Efficiency of vertical drift chamber (VDC)
           (DATA-ERR) No information on source of uncertainties
STATUS     (TABLE) Tables B.5 and B.6 of Tameshige's thesis
ENDBIB              13
COMMON               4          3
ERR-SYS    ERR-1      ERR-2      ERR-3
PER-CENT   PER-CENT   PER-CENT   PER-CENT
 1.8        1.8        0.3        0.3
ENDCOMMON            3
DATA                 6         12
EN         ANG        DATA      1DATA-ERR  1DATA      2ERR-T     2
MEV        ADEG       NO-DIM     NO-DIM     NO-DIM     NO-DIM
 196.       30.0       0.238      0.031
 196.       43.3       0.354      0.032
 196.       56.7       0.334      0.031
 196.       70.0       0.490      0.030
 196.       83.3       0.491      0.026
 196.       96.7       0.548      0.025
 196.       110.0      0.567      0.023
 196.       123.3      0.595      0.020
 196.       136.7      0.468      0.017
 196.       143.                             0.2893     0.28
 196.       150.0      0.429      0.015
 196.       162.                             0.124      0.223
ENDDATA             14
ENDSUBENT           36
"].

Definition eE2346 : list string := ["SUBENT        E2346001   20120130   20120207   20120130       E067
BIB                 11         33
TITLE      Three nucleon force effects in intermediate-energy
           deuteron analyzing powers for d p elastic scattering
AUTHOR     (K.Sekiguchi, H.Okamura, N.Sakamoto, H.Suzuki,
            M.Dozono, Y.Maeda, T.Saito, S.Sakaguchi, H.Sakai,
            M.Sasano, Y.Shimizu, T.Wakasa, K.Yako, H.Witala,
            W.Glockle, J.Golak, H.Kamada, A.Nogga)
INSTITUTE  (2JPNTOH) Department of Physics
           (2JPNOSA) Research Center for Nuclear Physics
           (2JPNIPC)
           (2JPNTSU) Graduate School of Pure and Applied Sciences
           (2JPNKYU) Department of Physics
           (2JPNMZK) Faculty of Engineering
           (2JPNTOK) Department of Physics
           (2JPNTOK) Center for Nuclear Study
           (3POLUJK) Institute of Physics
           (2GERBOC) Institut fur theoretische Physik II
           (2JPNJPN) Department of Physics, Kyushu Institute of
                     Technology
           (2GERJUL) Institut fur Kernphysik
REFERENCE  (J,PR/C,83,(6),061001,201106)
PART-DET   (P,D)
SAMPLE     - Target is natural.
           - Chemical-form of target is CH2.
           - Physical-form of target is solid.
           - Target-thickness is 330 mg/cm**2.
METHOD     (COINC) Detect proton and deuteron in coincidence.
FACILITY   (CYCLO,2JPNIPC) Super conducting cyclotron SRC
DETECTOR   Solid angle: +-1 degree
           (SCIN) Four pairs of plastic scintillators
STATUS     (APRVD) Proofread by K.Sekiguchi (2011.09.26)
           (TABLE) Plotted in Fig.2 of J,PR/C,83,061001,2011
HISTORY    (20110924R) Received by e-mail from K.Sekiguchi
           (20110926C) MO and MA
ENDBIB              33
COMMON               1          3
EN
MEV/A
 250.
ENDCOMMON            3
ENDSUBENT           40
";
"SUBENT        E2346002   20120130   20120207   20120130       E067
BIB                  3          3
REACTION   (1-H-1(D,EL)1-H-1,,POL/DA,,VAP)
EN-SEC     ANG-CM is polar angle (c.m.) between beam and deuteron
ERR-ANALYS (ERR-S) Statistical uncertainty
ENDBIB               3
NOCOMMON             0          0
DATA                 3         25
ANG-CM     DATA       ERR-S
ADEG       NO-DIM     NO-DIM
       36.2      0.277      0.007
       39.9      0.216      0.003
       45.4      0.114      0.003
       50.1      0.040      0.005
       54.8     -0.037      0.004
       59.5     -0.100      0.006
       64.3     -0.165      0.004
       69.1     -0.218      0.006
       74.0     -0.235      0.003
       78.9     -0.248      0.004
       84.8     -0.258      0.006
       91.2     -0.250      0.005
       93.9     -0.236      0.008
       99.0     -0.211      0.006
      104.1     -0.199      0.005
      114.5     -0.197      0.009
      119.8     -0.205      0.019
      125.1     -0.181      0.005
      130.5     -0.151      0.006
      135.9     -0.126      0.005
      141.3     -0.087      0.006
      146.8     -0.053      0.005
      152.3     -0.011      0.006
      157.8      0.016      0.006
      161.1      0.043      0.006
ENDDATA             27
ENDSUBENT           35
";
"SUBENT        E2346003   20120130   20120207   20120130       E067
BIB                  3          3
REACTION   (1-H-1(D,EL)1-H-1,20,POL/DA,,TAP)
EN-SEC     ANG-CM is polar angle (c.m.) between beam and deuteron
ERR-ANALYS (ERR-S) Statistical uncertainty
ENDBIB               3
NOCOMMON             0          0
DATA                 3         25
ANG-CM     DATA       ERR-S
ADEG       NO-DIM     NO-DIM
       36.2      0.086      0.009
       39.9      0.092      0.006
       45.4      0.128      0.005
       50.1      0.161      0.010
       54.8      0.178      0.008
       59.5      0.223      0.011
       64.3      0.241      0.008
       69.1      0.254      0.011
       74.0      0.233      0.006
       78.9      0.207      0.008
       84.8      0.182      0.011
       91.2      0.130      0.008
       93.9      0.138      0.011
       99.0      0.108      0.012
      104.1      0.155      0.010
      114.5      0.154      0.007
      119.8      0.173      0.016
      125.1      0.183      0.009
      130.5      0.123      0.011
      135.9     -0.004      0.009
      141.3     -0.122      0.010
      146.8     -0.242      0.010
      152.3     -0.382      0.011
      157.8     -0.462      0.011
      161.1     -0.527      0.011
ENDDATA             27
ENDSUBENT           35
";
"SUBENT        E2346004   20120130   20120207   20120130       E067
BIB                  3          3
REACTION   (1-H-1(D,EL)1-H-1,21,POL/DA,,TAP)
EN-SEC     ANG-CM is polar angle (c.m.) between beam and deuteron
ERR-ANALYS (ERR-S) Statistical uncertainty
ENDBIB               3
NOCOMMON             0          0
DATA                 3         17
ANG-CM     DATA       ERR-S
ADEG       NO-DIM     NO-DIM
       36.2      0.001      0.005
       39.9      0.000      0.004
       45.4     -0.018      0.005
       54.8     -0.065      0.007
       64.3     -0.169      0.012
       74.0     -0.272      0.015
       78.9     -0.330      0.018
       91.2     -0.345      0.018
       93.9     -0.323      0.018
      104.1     -0.278      0.023
      114.5     -0.220      0.019
      125.1     -0.240      0.014
      135.9     -0.355      0.020
      146.8     -0.443      0.024
      152.3     -0.450      0.023
      157.8     -0.478      0.027
      161.1     -0.427      0.024
ENDDATA             19
ENDSUBENT           27
";
"SUBENT        E2346005   20120130   20120207   20120130       E067
BIB                  3          3
REACTION   (1-H-1(D,EL)1-H-1,22,POL/DA,,TAP)
EN-SEC     ANG-CM is polar angle (c.m.) between beam and deuteron
ERR-ANALYS (ERR-S) Statistical uncertainty
ENDBIB               3
NOCOMMON             0          0
DATA                 3         25
ANG-CM     DATA       ERR-S
ADEG       NO-DIM     NO-DIM
       36.2     -0.183      0.004
       39.9     -0.214      0.003
       45.4     -0.260      0.002
       50.1     -0.294      0.004
       54.8     -0.323      0.003
       59.5     -0.354      0.005
       64.3     -0.391      0.003
       69.1     -0.385      0.004
       74.0     -0.364      0.002
       78.9     -0.341      0.003
       84.8     -0.297      0.005
       91.2     -0.233      0.003
       93.9     -0.161      0.004
       99.0     -0.107      0.005
      104.1     -0.059      0.004
      114.5      0.003      0.003
      119.8      0.018      0.007
      125.1     -0.005      0.004
      130.5     -0.027      0.004
      135.9     -0.043      0.004
      141.3     -0.060      0.004
      146.8     -0.066      0.004
      152.3     -0.075      0.004
      157.8     -0.071      0.005
      161.1     -0.081      0.004
ENDDATA             27
ENDSUBENT           35
"].

Definition eO1434 : list string := ["SUBENT        O1434001   20080114   20080407   20080403       O034
BIB                 13         58
TITLE      Vector and tensor analyzing powers of elastic deuteron
           proton scattering at 130 MeV deuteron beam energy.
AUTHOR     (E.Stephan, St.Kistryn, R.Sworst, A.Biegun, K.Bodek,
           I.Ciepal, A.Deltuva, E.Epelbaum, A.Fonseca, W.Gloeckle,
           J.Golak, N.Kalantar-Nayestanaki, H.Kamada, M.Kis,
           A.Kozela, M.Mahjour-Shafiei, A.Micherdzinska, A.Nogga,
           P.U.Sauer, R.Skibinski, H.Witala, J.Zejma, W.Zipper)
INSTITUTE  (3POLPOL) University of Silesia, Katowice, Poland
           (3POLUJK)
           (2PRTLIS)
           (2GERJUL)
           (2GERBOC)
           (2NEDKVI)
           (2JPNJPN) Kyushu Institute of Technology, Kitakyushu,
            Japan.
           (3POLIFJ)
           (2GERUH)
REFERENCE  (J,PR/C,76,057001,2007)
           (J,PL/B,641,23,2006)    It is O1450
           (J,PR/C,72,044006,2005) It is O1518
           More detailed experimental information.
SAMPLE     A liquid hydrogen target of 6-mm thickness.
INC-SOURCE (POLIS) The atomic-beam-type polarized ion source.
DETECTOR   (SPEC) The SALAD(small angle large detector,
           consisting of a three-plane multiwire proportional
           chamber (MWPC) and a segmented scintillator hodoscope
            (PSH)-transmission delta-E and stopping E-detector.
           (MWPC) The active area of the MWPC is 380*380-mm**2
           with exclusion of the central hole of 97.2-mm in
           diameter.
           (SCIN) The PSH consists of 24 transmission detectors-
           delta-E strips(plastic scintillator BC-408 2-mm
           thick and 60-mm wide) and 24 stopping detectors-E slabs
            (plastic scintillator BC-400, 113-mm thick and 60-mm
            wide). The strips and slabs are arranged
            perpendicularly to one another.
            The thickness of the E-counters is sufficient to stop
            protons with  energies up to 130-MeV.
            The  energy  resolution  of  the  E-counters is about
            5%.
            Within the acceptance of the SALAD detector
             three-classes of the elastic scattering events can
             be distinguished-
            -proton-deuteron coincidences when both particles are
             fully identified,
            -proton-deuteron coincidences when deuterons have
             energies too low to reach the stopping detector, i.e.
             to be identified,
            -single deuterons.
FACILITY   (CYCLO,2NEDKVI) Agor-cyclotron
METHOD     (EDE)
           (COINC)
ERR-ANALYS (ERR-S).Statistical error.
           (ERR-SYS).Total systematic error.
STATUS     (TABLE) The data were received from S.Kistyn
           (APRVD) By S.Kistryn 14.01.2008
CORRECTION Correction for dead time losses was applaid.
HISTORY    (20080105C) SB
ENDBIB              58
COMMON               1          3
EN
MEV
       130.
ENDCOMMON            3
ENDSUBENT           65
";
"SUBENT        O1434002   20080114   20080407   20080403       O034
BIB                  1          1
REACTION   (1-H-1(D,EL)1-H-1,20,POL/DA,,TAP)
ENDBIB               1
NOCOMMON             0          0
DATA                 4         30
ANG-CM     DATA       ERR-S      ERR-SYS
ADEG       NO-DIM     NO-DIM     NO-DIM
  46.78      0.0185      0.0153      0.0360
  50.09      0.0171      0.0152      0.0377
  53.45      0.0154      0.0153      0.0381
  56.86      0.0154      0.0156      0.0373
  60.34      0.0422      0.0157      0.0382
  63.90      0.0370      0.0158      0.0380
  67.54      0.0317      0.0161      0.0395
  71.29      0.0372      0.0161      0.0333
  75.18      0.0013      0.0177      0.0373
  79.23     -0.0173      0.0169      0.0229
  83.49     -0.0220      0.0165      0.0252
  88.04     -0.0701      0.0162      0.0389
  93.00     -0.1505      0.0168      0.0415
  98.62     -0.2483      0.0175      0.0446
 118.50     -0.4899      0.0160      0.0514
 120.53     -0.4975      0.0160      0.0516
 122.56     -0.4896      0.0160      0.0514
 124.60     -0.4753      0.0159      0.0509
 126.63     -0.4520      0.0157      0.0502
 128.67     -0.4026      0.0153      0.0487
 130.71     -0.3542      0.0149      0.0473
 132.75     -0.2924      0.0146      0.0453
 134.79     -0.2089      0.0143      0.0427
 136.84     -0.1092      0.0144      0.0395
 138.88     -0.0234      0.0145      0.0319
 140.93      0.0601      0.0150      0.0395
 142.98      0.1364      0.0156      0.0441
 145.03      0.1916      0.0162      0.0475
 147.08      0.2288      0.0166      0.0497
 149.13      0.2484      0.0169      0.0509
ENDDATA             32
ENDSUBENT           38
";
"SUBENT        O1434003   20080114   20080407   20080403       O034
BIB                  1          1
REACTION   (1-H-1(D,EL)1-H-1,22,POL/DA,,TAP)
ENDBIB               1
NOCOMMON             0          0
DATA                 4         30
ANG-CM     DATA       ERR-S      ERR-SYS
ADEG       NO-DIM     NO-DIM     NO-DIM
  46.78     -0.0482      0.0028      0.0030
  50.09     -0.0607      0.0029      0.0038
  53.45     -0.0642      0.0031      0.0040
  56.86     -0.0744      0.0035      0.0046
  60.34     -0.0818      0.0035      0.0051
  63.90     -0.0844      0.0038      0.0052
  67.54     -0.0977      0.0043      0.0061
  71.29     -0.1055      0.0045      0.0065
  75.18     -0.1264      0.0054      0.0078
  79.23     -0.1207      0.0056      0.0075
  83.49     -0.1231      0.0056      0.0076
  88.04     -0.1397      0.0053      0.0087
  93.00     -0.1441      0.0065      0.0089
  98.62     -0.1418      0.0072      0.0088
 118.50     -0.1280      0.0043      0.0080
 120.53     -0.1287      0.0038      0.0080
 122.56     -0.1305      0.0040      0.0081
 124.60     -0.1368      0.0041      0.0085
 126.63     -0.1466      0.0044      0.0091
 128.67     -0.1549      0.0044      0.0096
 130.71     -0.1761      0.0046      0.0109
 132.75     -0.1925      0.0049      0.0119
 134.79     -0.2132      0.0053      0.0132
 136.84     -0.2273      0.0056      0.0141
 138.88     -0.2506      0.0060      0.0156
 140.93     -0.2650      0.0063      0.0164
 142.98     -0.2735      0.0065      0.0170
 145.03     -0.2726      0.0065      0.0169
 147.08     -0.2608      0.0062      0.0162
 149.13     -0.2464      0.0059      0.0153
ENDDATA             32
ENDSUBENT           38
";
"SUBENT        O1434004   20080114   20080407   20080403       O034
BIB                  1          1
REACTION   (1-H-1(D,EL)1-H-1,,POL/DA,,VAP)
ENDBIB               1
NOCOMMON             0          0                                O
DATA                 4         30
ANG-CM     DATA       ERR-S      ERR-SYS
ADEG       NO-DIM     NO-DIM     NO-DIM
  46.78      0.1168      0.0034      0.0051
  50.09      0.1201      0.0034      0.0053
  53.45      0.1022      0.0032      0.0044
  56.86      0.0811      0.0035      0.0036
  60.34      0.0362      0.0033      0.0016
  63.90      0.0107      0.0037      0.0005
  67.54     -0.0298      0.0039      0.0012
  71.29     -0.0846      0.0041      0.0037
  75.18     -0.1383      0.0043      0.0060
  79.23     -0.1865      0.0050      0.0082
  83.49     -0.2729      0.0059      0.0120
  88.04     -0.3263      0.0064      0.0144
  93.00     -0.3904      0.0075      0.0172
  98.62     -0.3818      0.0073      0.0169
 118.50     -0.3260      0.0056      0.0144
 120.53     -0.2952      0.0049      0.0131
 122.56     -0.2678      0.0048      0.0118
 124.60     -0.2235      0.0044      0.0098
 126.63     -0.1811      0.0041      0.0079
 128.67     -0.1162      0.0035      0.0050
 130.71     -0.0829      0.0032      0.0036
 132.75     -0.0285      0.0028      0.0012
 134.79      0.0218      0.0028      0.0010
 136.84      0.0806      0.0029      0.0035
 138.88      0.1248      0.0031      0.0055
 140.93      0.1663      0.0032      0.0073
 142.98      0.1941      0.0035      0.0085
 145.03      0.2142      0.0037      0.0094
 147.08      0.2218      0.0037      0.0098
 149.13      0.2224      0.0037      0.0098
ENDDATA             32
ENDSUBENT           38
"].

Definition eO1664 : list string := ["SUBENT        O1664001   20080911   20081219   20081219       O037
BIB                 13         51
TITLE      Elastic proton-deuteron scattering at intermediate
           energies.
AUTHOR     (A.Ramazani-Moghaddam-Arani, H.R.Amir-Ahmadi,
           A.D.Bacher, C.D.Bailey, A.Biegun, M.Eslami-Kalantari,
           I.Gasparic, L.Joulaeizadeh, N.Kalantar-Nayestanaki,
           St.Kistryn, A.Kozela, H.Mardanpour, J.G.Messchendorp,
           A.Micherdzinska, H.Moeini, S.V.Shende, E.Stephan,
           E.J.Stephenson, R.Sworst)
INSTITUTE  (2NEDKVI)
           (3IRNIRN).University of Kashan, Iran
           (1USAINU)
           (3CRORBZ)
           (3POLUJK)
           (3POLIFJ)
           (1CANCAN) University of Winnipeg, Canada
           (3POLPOL) University of Silesia.
REFERENCE  (J,PR/C,78,014006,2008) New data were measured
           (J,PR/C,76,057001,2007) It is O1434
           (J,PL/B,641,23,2006)    It is O1450
           (J,PR/C,72,044006,2005) It is O1518
           More detailed experimental information.
SAMPLE     A liquid deuterium target with a thickness of 3.85 mm,
           with an uncertainty of 5%-for proton beam
           A solid organic CH(2) target with an effective
           thickness of 13.75+-0.24 mg/cm**2 for deuteron beam.
INC-SOURCE (POLIS) The polarization of the beams was measured
            using a Lamb-shift polarimeter in the low-energy beam
           line and by an in-beam polarimeter that was installed
           at the high-energy beam line after acceleration.
DETECTOR   (SPEC) BINA is a setup with a nearly 4-pi geometrical
           acceptance and has been used in various few-nucleon
           scattering experiments to measure the scattering angles
           and energies of proton and deuterons with the
           possibility for particle identification. The detector
           is composed of a forward part and a backward part. The
           forward part consists of a Multi-wire proportional
           chamber (MWPC) and a segmented hodoscope of vertically
           placed thin scintillators with a thickness of 2 mm
           followed by ten horizontally placed scintillators with
           a thickness of 12 cm each.
FACILITY   (CYCLO,2NEDKVI) Agor-cyclotron
METHOD     (EDE)
           (COINC) deuterons were detected in the forward part in
            coincidence with a scattered proton in the backward
            part of BINA.
ERR-ANALYS (ERR-S).Statistical error.
STATUS     (APRVD) The letter about table data was sent to
           A.Ramazani-Moghaddad-Arani 16.10.2008. The data were
           received 22.10.2008.
CORRECTION Correction for dead time losses was applaid.
HISTORY    (20080911C) SB
ENDBIB              51
NOCOMMON             0          0
ENDSUBENT           54
";
"SUBENT        O1664002   20081022   20081219   20081219       O037
BIB                  2          2
REACTION   (1-H-1(D,EL)1-H-1,20,POL/DA,,TAP) fig2
ERR-ANALYS (ERR-SYS).The error is reported by authors in text.
ENDBIB               2
COMMON               2          3
EN         ERR-SYS
MEV        PER-CENT
130.       3.
ENDCOMMON            3
DATA                 3          6
ANG-CM     DATA       ERR-S
ADEG       NO-DIM     NO-DIM
  43.511475   0.013178   0.015838
  50.094601   0.037331   0.012174
  56.870656   0.023449   0.010990
  63.906992   0.032571   0.010918
  71.306964   0.027664   0.010492
  79.245174   0.006003   0.011378
ENDDATA              8
ENDSUBENT           19
";
"SUBENT        O1664003   20081022   20081219   20081219       O037
BIB                  2          2
REACTION   (1-H-1(D,EL)1-H-1,22,POL/DA,,TAP) fig2
ERR-ANALYS (ERR-SYS).The error is reported by authors in text.
ENDBIB               2
COMMON               2          3
EN         ERR-SYS
MEV        PER-CENT
130.       3.
ENDCOMMON            3
DATA                 3          6
ANG-CM     DATA       ERR-S
ADEG       NO-DIM     NO-DIM
  43.511475  -0.049527   0.009378
  50.094601  -0.050688   0.006864
  56.870656  -0.088004   0.007359
  63.906992  -0.082117   0.007128
  71.306964  -0.104423   0.006613
  79.245174  -0.127840   0.007521
ENDDATA              8
ENDSUBENT           19
";
"SUBENT        O1664004   20081022   20081219   20081219       O037
BIB                  2          2
REACTION   (1-H-1(D,EL)1-H-1,,POL/DA,,VAP)
ERR-ANALYS (ERR-SYS).The error is reported by authors in text.
ENDBIB               2
COMMON               2          3
EN         ERR-SYS
MEV        PER-CENT
130.       3.
ENDCOMMON            3
DATA                 3          6
ANG-CM     DATA       ERR-S
ADEG       NO-DIM     NO-DIM
  43.511475   0.116420   0.017681
  50.094601   0.091550   0.013102
  56.870656   0.062414   0.010313
  63.906992  -0.003848   0.008146
  71.306964  -0.113626   0.012028
  79.245174  -0.228209   0.021253
ENDDATA              8
ENDSUBENT           19
";
"SUBENT        O1664005   20081022   20081219   20081219       O037
BIB                  2          2
REACTION   (1-H-1(D,EL)1-H-1,,DA) fig 2
ERR-ANALYS (ERR-SYS).The error is reported by authors in text.
ENDBIB               2
COMMON               2          3
EN         ERR-SYS
MEV        PER-CENT
130.       4.
ENDCOMMON            3
DATA                 3          4
ANG-CM     DATA-CM    ERR-S
ADEG       MB/SR      MB/SR
  56.870656   5.752196    0.13115
  63.906992   3.915833    0.10021
  71.306964   2.922742    0.08189
  79.245174   2.146474    0.06699
ENDDATA              6
ENDSUBENT           17
";
"SUBENT        O1664006   20081022   20081219   20081219       O037
BIB                  2          2
REACTION   (1-H-2(P,EL)1-H-2,,DA) fig 3
ERR-ANALYS (ERR-SYS).The error is reported by authors in text.
ENDBIB               2
COMMON               2          3
EN         ERR-SYS
MEV        PER-CENT
135.       6.
ENDCOMMON            3
DATA                 3          8
ANG-CM     DATA-CM    ERR-S
ADEG       MB/SR      MB/SR
 153.604276  0.4392007  0.0048607
 149.548016  0.3932574  0.0044220
 145.494030  0.3496498  0.0040576
 141.442584  0.3161329  0.0036475
 137.393931  0.2945627  0.0036475
 133.348309  0.2717473  0.0035752
 129.305941  0.2667102  0.0037997
 125.267032  0.2709834  0.0034577
ENDDATA             10
ENDSUBENT           21
";
"SUBENT        O1664007   20081022   20081219   20081219       O037
BIB                  1          1
REACTION   (1-H-2(P,EL)1-H-2,,POL/DA,,ANA) fig 3
ENDBIB               1
COMMON               1          3
EN
MEV
135.
ENDCOMMON            3
DATA                 3         11
ANG-CM     DATA       ERR-S
ADEG       NO-DIM     NO-DIM
 155.632940  0.2092254  0.0135715
 151.575611  0.2319601  0.0096649
 147.520420  0.2162930  0.0085542
 143.467639  0.1725327  0.0078085
 139.417528  0.0547371  0.0083008
 135.370333 -0.0086058  0.0086961
 131.326285 -0.1437178  0.0100480
 127.285597 -0.2375045  0.0106264
 123.248467 -0.3219286  0.0079030
 119.215072 -0.3737689  0.0073199
 115.185573 -0.4541540  0.0099601
ENDDATA             13
ENDSUBENT           23
"].

Definition eO1732 : list string := ["SUBENT        O1732001   20120614   20120921   20120918       O048
BIB                 14         58
TITLE      Cross section and tensor analysing power of the
           d+d-->eta+alpha reaction near threshold.
AUTHOR     (A.Budzanowski, A.Chatterjee, R.Gebel, P.Hawranek,
           R.Jahn, V.Jha, K.Kilian, S.Kliczewski, Da.Kirillov,
           Di.Kirillov, D.Kolev, M.Kravcikova, M.Lesiak, J.Lieb,
           H.Machner, A.Magiera, R.Maier, G.Martinska, S.Nedev,
           N.Piskunov, D.Prasuhn, D.Protic, J.Ritman,
           P.von Rossen, B.J.Roy, I.Sitnik, R.Siudak, R.Tsenov,
           J.Urban, G.Vankova, C.Wilkin,GEM Collaboration)
INSTITUTE  (3POLIFJ)
           (3INDTRM)
           (2GERJUL)
           (3POLUJK)
           (2GERBON)
           (2GERUDE)
           (4ZZZDUB)
           (3BULSOF)
           (3SLKSLK) Technical university, Kosice, Slovakia
           (1USAUSA) George Mason University, Fairfax, VA, USA
           (3SLKSLK) P.J. Safarik University, Kosice, Slovakia
           (3BULBUL) University of chemical technology and
                      Metallurgy, Sofia, Bulgaria
           (2UK UK) Department of physics and Astronomy, UCL,
                    London, UK
REFERENCE  (J,NP/A,821,193,2009)
SAMPLE     The target was a cell of 6 mm diameter and 4 mm length,
           which contained liquid deuterium or hydrogen. The
           target windows were made of Mylar with a thickness of
           less than 1 mum.
DETECTOR   (MAGSP) The Big Karl magnetic spectrograph
           (MWDC) Two sets of multi-wire drift chambers for
            position measurement and track reconstruction.
           (SCIN) Scintillating hodoscopes, 4.5 m apart, led to
           a more accurate TOF measurements and provided the
           energy-loss information necessary for particle
           identification.
REL-REF    (I,A0645001,M.Drochner+,J,NP/A,643,55,1998)
           (I,,J.Bojowald+,J,NIM/A,487,314,2002)
            The Big Karl magnetic spectrograph description
FACILITY   (SYNCH,2GERJUL) Cooler Synchrotron = COSY with deuteron
            beam momentum 2390 MeV/c corresponds to deuteron
            kinetic energy= 1160 MeV, excess energy Q=16.6 MeV.
METHOD     (TOF)
COMMENT    *By authors*.The experiment was carried out in two
           stages, first using an unpolarised beam.In order to
           extract an analyzing power, the beam polarisation had
           to be established and then used in the measurement of
           analyzing power.
CORRECTION  The peak areas were corrected for acceptance and
           converted into differential cross sections using the
           known luminosity.
PART-DET   (ETA)
           (A)
STATUS     (TABLE) Table data were received from Dr.H.Machner
                   28.04.2009
           (APRVD).By H.Machner
HISTORY    (20090410C) SB
           (20120614U) SD:GEM Collaboration added to author's list
ENDBIB              58
NOCOMMON             0          0
ENDSUBENT           61
";
"SUBENT        O1732002   20090410   20090724   20090723       O039
BIB                  2          6
REACTION   (1-H-2(D,ETA)2-HE-4,,DA) fig.5
            unpolarised incident deuterons
ERR-ANALYS (ERR-S).The statistical uncertainty is reported by
            authors.
           (ERR-SYS).The systematic uncertainty is reported by
            authors.
ENDBIB               6
COMMON               1          3
MOM
GEV/C
2.39
ENDCOMMON            3
DATA                 4          6
COS        DATA       ERR-S      ERR-SYS
NO-DIM     NB/SR      NB/SR      NB/SR
0.45       0.9453803  0.1734789  0.05732484
0.55       0.7352958  0.1559718  0.04458599
0.65       0.5236197  0.1289155  0.03184713
0.75       0.5681831  0.1225493  0.03423567
0.85       0.9979014  0.1257324  0.06130573
0.95       1.892352   0.1432394  0.116242
ENDDATA              8
ENDSUBENT           23
";
"SUBENT        O1732003   20090410   20090724   20090723       O039
BIB                  4          5
REACTION   (6-C-12(D,EL)6-C-12,,POL/DA,,VAP)
FLAG       (1.).p(zz) =+1 and p(z)=-1/3
           (2.).p(zz) =-1 and p(z)=-1/3
STATUS     (TABLE).Table 1  in text
ERR-ANALYS (ERR-S).The error is reported by authors in table.
ENDBIB               5
COMMON               2          3
EN-MIN     ANG
MEV        ADEG
76.        90.
ENDCOMMON            3
DATA                 3          2
DATA       ERR-S      FLAG
NO-DIM     NO-DIM     NO-DIM
-0.32      0.02       1.
-0.33      0.02       2.
ENDDATA              4
ENDSUBENT           18
";
"SUBENT        O1732004   20090410   20090724   20090723       O039
BIB                  4          7
REACTION   (1-H-1(D,EL)1-H-1,20,POL/DA,,TAP)
FLAG       (1.).p(zz) =+1 and p(z)=-1/3
           (2.).p(zz) =-1 and p(z)=-1/3
STATUS     (TABLE).Table 1 in text
ERR-ANALYS (ERR-S).The error is reported by authors in table.
           (DATA-ERR).Systematic error, arising from the
            calibration polarisations.
ENDBIB               7
COMMON               2          3
MOM        ANG
GEV/C      ADEG
2.39       180.
ENDCOMMON            3
DATA                 4          2
DATA       ERR-S      DATA-ERR   FLAG
NO-DIM     NO-DIM     NO-DIM     NO-DIM
0.91       0.14       0.01       1.
-0.87      0.11       0.01       2.
ENDDATA              4
ENDSUBENT           20
";
"SUBENT        O1732005   20090422   20090724   20090723       O039
BIB                  4         10
REACTION   (1-H-2(D,ETA)2-HE-4,,POL/DA,,ANA) fig 9
COMMENT    *By author*.We employed the vector and tensor polarised
           deuteron beam incident on the deuteron target to
           measure the analyzing power.
ERR-ANALYS (ERR-S).The statistical uncertainty is reported by
            authors.
           (ERR-SYS).The systematic uncertainty is reported by
            authors.
STATUS     (DEP,O1732003)
           (DEP,O1732004)
ENDBIB              10
COMMON               1          3
MOM
GEV/C
2.39
ENDCOMMON            3
DATA                 4          6
COS        DATA       ERR-S      ERR-SYS
NO-DIM     NO-DIM     NO-DIM     NO-DIM
0.45       -0.723     0.299      0.171
0.55       0.002      0.395      0.151
0.65       -0.179     0.367      0.152
0.75       -0.063     0.348      0.154
0.85       0.491      0.313      0.14
0.95       -0.565     0.271      0.161
ENDDATA              8
ENDSUBENT           27
";
"SUBENT        O1732006   20090422   20090724   20090723       O039
BIB                  3          4
REACTION   (1-H-2(D,ETA)2-HE-4,,DA,,LEG)
ERR-ANALYS (DATA-ERR).The error is reported by authors.
STATUS     (TABLE) Data in text
           (DEP,O1732002)
ENDBIB               4
COMMON               1          3
MOM
GEV/C
2.39
ENDCOMMON            3
DATA                 3          3
NUMBER     DATA       DATA-ERR
NO-DIM     NB/SR      NB/SR
         0.       1.27       0.03
         2.      -0.29       0.06
         4.       1.65       0.07
ENDDATA              5
ENDSUBENT           18
";
"SUBENT        O1732007   20090422   20090724   20090723       O039
BIB                  3          3
REACTION   (1-H-2(D,ETA)2-HE-4,,SIG)
ERR-ANALYS (DATA-ERR).The error is reported by authors on fig.
STATUS     (DEP,O1732006)
ENDBIB               3
NOCOMMON             0          0
DATA                 3          1
MOM        DATA       DATA-ERR
GEV/C      NB         NB
       2.39       16.0        0.4
ENDDATA              3
ENDSUBENT           11
"].

Definition real_entries : list (string * list string) := [
  ("10036", e10036);
  ("10149", e10149);
  ("10187", e10187);
  ("10241", e10241);
  ("10315", e10315);
  ("10316", e10316);
  ("10355", e10355);
  ("10804", e10804);
  ("10862", e10862);
  ("10892", e10892);
  ("10903", e10903);
  ("11036", e11036);
  ("11042", e11042);
  ("11055", e11055);
  ("11066", e11066);
  ("11069", e11069);
  ("11072", e11072);
  ("11078", e11078);
  ("11079", e11079);
  ("11083", e11083);
  ("11084", e11084);
  ("11090", e11090);
  ("11096", e11096);
  ("11109", e11109);
  ("11117", e11117);
  ("11123", e11123);
  ("11124", e11124);
  ("11128", e11128);
  ("11129", e11129);
  ("11131", e11131);
  ("11167", e11167);
  ("11321", e11321);
  ("12326", e12326);
  ("12643", e12643);
  ("12656", e12656);
  ("12780", e12780);
  ("12917", e12917);
  ("13150", e13150);
  ("13623", e13623);
  ("13782", e13782);
  ("13793", e13793);
  ("13795", e13795);
  ("13883", e13883);
  ("13986", e13986);
  ("14017", e14017);
  ("14129", e14129);
  ("14160", e14160);
  ("20287", e20287);
  ("20296", e20296);
  ("20319", e20319);
  ("20360", e20360);
  ("20389", e20389);
  ("20404", e20404);
  ("20778", e20778);
  ("21223", e21223);
  ("21365", e21365);
  ("21367", e21367);
  ("21790", e21790);
  ("21795", e21795);
  ("21800", e21800);
  ("21815", e21815);
  ("21852", e21852);
  ("21971", e21971);
  ("21985", e21985);
  ("21993", e21993);
  ("22207", e22207);
  ("22223", e22223);
  ("22225", e22225);
  ("22277", e22277);
  ("22542", e22542);
  ("22886", e22886);
  ("22914", e22914);
  ("30078", e30078);
  ("30162", e30162);
  ("30327", e30327);
  ("30340", e30340);
  ("30679", e30679);
  ("31048", e31048);
  ("40177", e40177);
  ("40431", e40431);
  ("41202", e41202);
  ("41206", e41206);
  ("41207", e41207);
  ("41209", e41209);
  ("41224", e41224);
  ("41335", e41335);
  ("C1236", eC1236);
  ("C1285", eC1285);
  ("C1560", eC1560);
  ("D0480", eD0480);
  ("E0783", eE0783);
  ("E0839", eE0839);
  ("E1627", eE1627);
  ("E2008", eE2008);
  ("E2052", eE2052);
  ("E2159", eE2159);
  ("E2346", eE2346);
  ("O1434", eO1434);
  ("O1664", eO1664);
  ("O1732", eO1732)].
