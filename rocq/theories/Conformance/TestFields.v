(** x4i3/tests/test_exfor_fields.py: class, what is asked of it, the lines it is built from, what the test
    expects; labelled by the line of the test.  Not included: two tests on keys() and
    subscripts of a monitor field. *)
From Coq Require Import String List Ascii NArith ZArith SpecFloat Bool Arith.
From Verif.Model Require Import Py PyFloat Dicts Particle Pyparsing Grammars Shipped ShippedDicts Reaction Field Section Columns Entry Dataset Csv Repr Print.
From Verif.Conformance Require Import Setup.
Import ListNotations.
Local Open Scope string_scope.
Local Open Scope list_scope.
Local Open Scope nat_scope.

Definition cases (e : env) (nm : names) : list (string * res str * str) := [
  ("test_exfor_fields.py:62", field_value e nm "X4PlainField" "repr" (map lit ["INC-SOURCE  BEAM-INTENSITY IS 0.5NA";
    "            BEAM-POLARIZATION IS NOT GIVEN";
    "           (ATOMI) with a Wien filter"]),
    (text ["INC-SOURCE  BEAM-INTENSITY IS 0.5NA";
    "            BEAM-POLARIZATION IS NOT GIVEN";
    "           (ATOMI) with a Wien filter"]));
  ("test_exfor_fields.py:65", field_value e nm "X4PlainField" "tag" (map lit ["INC-SOURCE  BEAM-INTENSITY IS 0.5NA";
    "            BEAM-POLARIZATION IS NOT GIVEN";
    "           (ATOMI) with a Wien filter"]),
    (text ["INC-SOURCE"]));
  ("test_exfor_fields.py:75", field_value e nm "X4PlainField" "sorted_keys" (map lit ["REACTION  1((30-ZN-64(N,G)30-ZN-65,,RI)/";
    "           (30-ZN-64(N,G)30-ZN-65,,SIG))";
    "          2(30-ZN-64(N,G)30-ZN-65,,RI)";
    "           Reduced resonance integral and ratio to thermal";
    "           absorption cross section"]),
    (text ["1|2"]));
  ("test_exfor_fields.py:80", field_value e nm "X4PlainField" "repr" (map lit ["REACTION  1((30-ZN-64(N,G)30-ZN-65,,RI)/";
    "           (30-ZN-64(N,G)30-ZN-65,,SIG))";
    "          2(30-ZN-64(N,G)30-ZN-65,,RI)";
    "           Reduced resonance integral and ratio to thermal";
    "           absorption cross section"]),
    (text ["REACTION  1((30-ZN-64(N,G)30-ZN-65,,RI)/";
    "           (30-ZN-64(N,G)30-ZN-65,,SIG))";
    "          2(30-ZN-64(N,G)30-ZN-65,,RI)";
    "           Reduced resonance integral and ratio to thermal";
    "           absorption cross section"]));
  ("test_exfor_fields.py:83", field_value e nm "X4PlainField" "tag" (map lit ["REACTION  1((30-ZN-64(N,G)30-ZN-65,,RI)/";
    "           (30-ZN-64(N,G)30-ZN-65,,SIG))";
    "          2(30-ZN-64(N,G)30-ZN-65,,RI)";
    "           Reduced resonance integral and ratio to thermal";
    "           absorption cross section"]),
    (text ["REACTION"]));
  ("test_exfor_fields.py:93", field_value e nm "X4ReactionField" "repr" (map lit ["REACTION   ((30-ZN-64(N,G)30-ZN-65,,RI)/";
    "           (30-ZN-64(N,G)30-ZN-65,,SIG))"]),
    (text ["REACTION   ((30-ZN-64(N,G)30-ZN-65,,RI)/";
    "           (30-ZN-64(N,G)30-ZN-65,,SIG))"]));
  ("test_exfor_fields.py:96", field_value e nm "X4ReactionField" "str" (map lit ["REACTION   ((30-ZN-64(N,G)30-ZN-65,,RI)/";
    "           (30-ZN-64(N,G)30-ZN-65,,SIG))"]),
    (text ["(( Resonance integral for 64Zn(n,gamma)65Zn )/( Cross section for 64Zn(n,gamma)65Zn ))"]));
  ("test_exfor_fields.py:100", field_value e nm "X4ReactionField" "tag" (map lit ["REACTION   ((30-ZN-64(N,G)30-ZN-65,,RI)/";
    "           (30-ZN-64(N,G)30-ZN-65,,SIG))"]),
    (text ["REACTION"]));
  ("test_exfor_fields.py:107", field_value e nm "X4ReactionField" "str" (map lit ["REACTION   ((79-AU-197(N,2N)79-AU-196-M2,,SIG)/";
    "           (79-AU-197(N,2N)79-AU-196-G+M1,,SIG))";
    "           Isomeric ratio sigma(m2)/sigma(g.s.+ m1)"]),
    (text ["(( Cross section for 197Au(n,2n)196m2Au )/( (( Cross section for 197Au(n,2n)196m0Au )+( Cross section for 197Au(n,2n)196mAu )) ))"]));
  ("test_exfor_fields.py:114", field_value e nm "X4ReactionField" "str" (map lit ["REACTION   (48-CD-116(N,2N)48-CD-115-M/G,,SIG/RAT)"]),
    (text ["(( Cross section ratio for 116Cd(n,2n)115mCd )/( Cross section ratio for 116Cd(n,2n)115m0Cd ))"]));
  ("test_exfor_fields.py:122", field_value e nm "X4ReactionField" "str" (map lit ["REACTION  1(40-ZR-88(N,N+P)39-Y-87-M/T,,SIG/RAT)";
    "          2(40-ZR-88(N,N+P)39-Y-87,,SIG)"]),
    (text ["[1] (( Cross section ratio for 88Zr(n,n+p)87mY )/( Cross section ratio for 88Zr(n,n+p)87mY )); [2] Cross section for 88Zr(n,n+p)87Y"]));
  ("test_exfor_fields.py:129", field_value e nm "X4ReactionField" "str" (map lit ["REACTION   (96-CM-248(10-NE-22,5N)106-SG-265-M1+M2,,SIG)"]),
    (text ["(( Cross section for 248Cm(22Ne,5n)265mSg )+( Cross section for 248Cm(22Ne,5n)265m2Sg ))"]));
  ("test_exfor_fields.py:138", field_value e nm "X4ReactionField" "str" (map lit ["REACTION  1(44-RU-OXI(N,THS)44-RU-OXI,BA/COH,AMP)";
    "          2(44-RU-OXI(N,THS)44-RU-OXI,BA/COH,AMP)";
    "          3(44-RU-OXI(N,THS)44-RU-OXI,BA/COH,AMP) Bound molecule";
    "            coherent scattering length at zero neutron energy."]),
    (text ["[1] Bound-atom coherent scattering amplitude for Ruthenium oxide(n,ThermalScattering)Ruthenium oxide; [2] Bound-atom coherent scattering amplitude for Ruthenium oxide(n,ThermalScattering)Ruthenium oxide; [3] Bound-atom coherent scattering amplitude for Ruthenium oxide(n,ThermalScattering)Ruthenium oxide, Bound molecule coherent scattering length at zero neutron energy."]));
  ("test_exfor_fields.py:146", field_value e nm "X4ReactionField" "str" (map lit ["REACTION  1(72-HF-178-M2(N,G)72-HF-179-G,,SIG)";
    "          2(72-HF-178-M2(N,G)72-HF-179-G,,RI)";
    "          3(72-HF-178-M2(N,G)72-HF-179-M2/G,,SIG/RAT)";
    "          4(72-HF-178-M2(N,G)72-HF-179-M2,,SIG)";
    "          5(72-HF-178-M2(N,G)72-HF-179-M2,,RI)"]),
    (text ["[1] Cross section for 178m2Hf(n,gamma)179m0Hf; [2] Resonance integral for 178m2Hf(n,gamma)179m0Hf; [3] (( Cross section ratio for 178m2Hf(n,gamma)179m2Hf )/( Cross section ratio for 178m2Hf(n,gamma)179m0Hf )); [4] Cross section for 178m2Hf(n,gamma)179m2Hf; [5] Resonance integral for 178m2Hf(n,gamma)179m2Hf"]));
  ("test_exfor_fields.py:152", field_value e nm "X4ReactionField" "str" (map lit ["REACTION   (72-HF-178-M2(N,G)72-HF-179-G+M2,,SIG,,RES)    Indivi-";
    "            dual resonance contribution in capture cross-section"]),
    (text ["(( Cross section for 178m2Hf(n,gamma)179m0Hf )+( Cross section for 178m2Hf(n,gamma)179m2Hf ))"]));
  ("test_exfor_fields.py:158", field_value e nm "X4ReactionField" "str" (map lit ["REACTION   ((94-PU-239(N,F),,SIG)/";
    "           (92-U-235(N,F),,SIG))"]),
    (text ["(( Cross section for 239Pu(n,Fission) )/( Cross section for 235U(n,Fission) ))"]));
  ("test_exfor_fields.py:164", field_value e nm "X4ReactionField" "str" (map lit ["REACTION   ((92-U-233(N,F),,SIG)/";
    "           (92-U-235(N,F),,SIG))"]),
    (text ["(( Cross section for 233U(n,Fission) )/( Cross section for 235U(n,Fission) ))"]));
  ("test_exfor_fields.py:176", field_value e nm "X4ReactionField" "repr" (map lit ["REACTION  1((30-ZN-64(N,G)30-ZN-65,,RI)/";
    "           (30-ZN-64(N,G)30-ZN-65,,SIG))";
    "          2(30-ZN-64(N,G)30-ZN-65,,RI)";
    "           Reduced resonance integral and ratio to thermal";
    "           absorption cross section"]),
    (text ["REACTION  1((30-ZN-64(N,G)30-ZN-65,,RI)/";
    "           (30-ZN-64(N,G)30-ZN-65,,SIG))";
    "          2(30-ZN-64(N,G)30-ZN-65,,RI)";
    "           Reduced resonance integral and ratio to thermal";
    "           absorption cross section"]));
  ("test_exfor_fields.py:179", field_value e nm "X4ReactionField" "str" (map lit ["REACTION  1((30-ZN-64(N,G)30-ZN-65,,RI)/";
    "           (30-ZN-64(N,G)30-ZN-65,,SIG))";
    "          2(30-ZN-64(N,G)30-ZN-65,,RI)";
    "           Reduced resonance integral and ratio to thermal";
    "           absorption cross section"]),
    (text ["[1] (( Resonance integral for 64Zn(n,gamma)65Zn )/( Cross section for 64Zn(n,gamma)65Zn )); [2] Resonance integral for 64Zn(n,gamma)65Zn, Reduced resonance integral and ratio to thermal absorption cross section"]));
  ("test_exfor_fields.py:185", field_value e nm "X4ReactionField" "tag" (map lit ["REACTION  1((30-ZN-64(N,G)30-ZN-65,,RI)/";
    "           (30-ZN-64(N,G)30-ZN-65,,SIG))";
    "          2(30-ZN-64(N,G)30-ZN-65,,RI)";
    "           Reduced resonance integral and ratio to thermal";
    "           absorption cross section"]),
    (text ["REACTION"]));
  ("test_exfor_fields.py:195", field_value e nm "X4TitleField" "str" (map lit ["TITLE       ACCELERATION OF PROTONS AND DEUTERONS POLARIZED"]),
    (text ["Acceleration Of Protons And Deuterons Polarized"]));
  ("test_exfor_fields.py:197", field_value e nm "X4TitleField" "repr" (map lit ["TITLE       ACCELERATION OF PROTONS AND DEUTERONS POLARIZED"]),
    (text ["TITLE       ACCELERATION OF PROTONS AND DEUTERONS POLARIZED"]));
  ("test_exfor_fields.py:204", field_value e nm "X4TitleField" "str" (map lit ["TITLE      MEASURED ACTIVATION CROSS SECTIONS BELOW 10 MEV FOR THE";
    "            51-V(N,P)51-TI AND 51-V(N,ALPHA)48-SC REACTIONS."]),
    (text ["Measured Activation Cross Sections Below 10 Mev For The 51-V(N,P)51-Ti And 51-V(N,Alpha)48-Sc Reactions."]));
  ("test_exfor_fields.py:206", field_value e nm "X4TitleField" "repr" (map lit ["TITLE      MEASURED ACTIVATION CROSS SECTIONS BELOW 10 MEV FOR THE";
    "            51-V(N,P)51-TI AND 51-V(N,ALPHA)48-SC REACTIONS."]),
    (text ["TITLE      MEASURED ACTIVATION CROSS SECTIONS BELOW 10 MEV FOR THE";
    "            51-V(N,P)51-TI AND 51-V(N,ALPHA)48-SC REACTIONS."]));
  ("test_exfor_fields.py:245", field_value e nm "X4MonitorField" "repr" (map lit ["MONITOR    (92-U-235(N,F),,SIG)"]),
    (text ["MONITOR    (92-U-235(N,F),,SIG)"]));
  ("test_exfor_fields.py:246", field_value e nm "X4MonitorField" "str reactions" (map lit ["MONITOR    (92-U-235(N,F),,SIG)"]),
    (text ["{' ': [((92-U-235(N,F),SIG), '', None)]}"]));
  ("test_exfor_fields.py:247", field_value e nm "X4MonitorField" "str" (map lit ["MONITOR    (92-U-235(N,F),,SIG)"]),
    (text ["[((92-U-235(N,F),SIG), '', None)]"]));
  ("test_exfor_fields.py:251", field_value e nm "X4MonitorField" "repr" (map lit ["MONITOR   1(79-AU-197(N,2N)79-AU-196,,SIG)"]),
    (text ["MONITOR   1(79-AU-197(N,2N)79-AU-196,,SIG)"]));
  ("test_exfor_fields.py:252", field_value e nm "X4MonitorField" "str reactions" (map lit ["MONITOR   1(79-AU-197(N,2N)79-AU-196,,SIG)"]),
    (text ["{'1': [((79-AU-197(N,2N)79-AU-196,SIG), '', None)]}"]));
  ("test_exfor_fields.py:254", field_value e nm "X4MonitorField" "str" (map lit ["MONITOR   1(79-AU-197(N,2N)79-AU-196,,SIG)"]),
    (text ["[1] [((79-AU-197(N,2N)79-AU-196,SIG), '', None)]"]));
  ("test_exfor_fields.py:258", field_value e nm "X4MonitorField" "repr" (map lit ["MONITOR    (62-SM-147(N,A)60-ND-144,,SIG) Data were normalized";
    "           over the interval 300-2500 eV to the data given";
    "           in monitor reference"]),
    (text ["MONITOR    (62-SM-147(N,A)60-ND-144,,SIG) Data were normalized";
    "           over the interval 300-2500 eV to the data given";
    "           in monitor reference"]));
  ("test_exfor_fields.py:259", field_value e nm "X4MonitorField" "str reactions" (map lit ["MONITOR    (62-SM-147(N,A)60-ND-144,,SIG) Data were normalized";
    "           over the interval 300-2500 eV to the data given";
    "           in monitor reference"]),
    (text ["{' ': [((62-SM-147(N,A)60-ND-144,SIG), 'Data were normalized over the interval 300-2500 eV to the data given in monitor reference', None)]}"]));
  ("test_exfor_fields.py:261", field_value e nm "X4MonitorField" "str" (map lit ["MONITOR    (62-SM-147(N,A)60-ND-144,,SIG) Data were normalized";
    "           over the interval 300-2500 eV to the data given";
    "           in monitor reference"]),
    (text ["[((62-SM-147(N,A)60-ND-144,SIG), 'Data were normalized over the interval 300-2500 eV to the data given in monitor reference', None)]"]));
  ("test_exfor_fields.py:271", field_value e nm "X4MonitorField" "repr" (map lit ["MONITOR    Reactor grade graphite samples with thickness of 7";
    "           cm and 13 cm were useded for monitoring"]),
    (text ["MONITOR    Reactor grade graphite samples with thickness of 7";
    "           cm and 13 cm were useded for monitoring"]));
  ("test_exfor_fields.py:272", field_value e nm "X4MonitorField" "str reactions" (map lit ["MONITOR    Reactor grade graphite samples with thickness of 7";
    "           cm and 13 cm were useded for monitoring"]),
    (text ["{' ': [(None, 'Reactor grade graphite samples with thickness of 7 cm and 13 cm were useded for monitoring', None)]}"]));
  ("test_exfor_fields.py:274", field_value e nm "X4MonitorField" "str" (map lit ["MONITOR    Reactor grade graphite samples with thickness of 7";
    "           cm and 13 cm were useded for monitoring"]),
    (text ["[(None, 'Reactor grade graphite samples with thickness of 7 cm and 13 cm were useded for monitoring', None)]"]));
  ("test_exfor_fields.py:280", field_value e nm "X4MonitorField" "repr" (map lit ["MONITOR    ((MONIT1)79-AU-197(N,G)79-AU-198,,RI)";
    "           ((MONIT2)27-CO-59(N,G)27-CO-60,,RI)"]),
    (text ["MONITOR    ((MONIT1)79-AU-197(N,G)79-AU-198,,RI)";
    "           ((MONIT2)27-CO-59(N,G)27-CO-60,,RI)"]));
  ("test_exfor_fields.py:281", field_value e nm "X4MonitorField" "str reactions" (map lit ["MONITOR    ((MONIT1)79-AU-197(N,G)79-AU-198,,RI)";
    "           ((MONIT2)27-CO-59(N,G)27-CO-60,,RI)"]),
    (text ["{' ': [((79-AU-197(N,G)79-AU-198,RI), '', 'MONIT1'), ((27-CO-59(N,G)27-CO-60,RI), '', 'MONIT2')]}"]));
  ("test_exfor_fields.py:283", field_value e nm "X4MonitorField" "str" (map lit ["MONITOR    ((MONIT1)79-AU-197(N,G)79-AU-198,,RI)";
    "           ((MONIT2)27-CO-59(N,G)27-CO-60,,RI)"]),
    (text ["[((79-AU-197(N,G)79-AU-198,RI), '', 'MONIT1'), ((27-CO-59(N,G)27-CO-60,RI), '', 'MONIT2')]"]));
  ("test_exfor_fields.py:289", field_value e nm "X4MonitorField" "repr" (map lit ["MONITOR    (22-TI-0(D,X)23-V-48,,SIG) 21 MeV";
    "           (13-AL-27(D,X)11-NA-22,,SIG)  40 MeV";
    "           (13-AL-27(D,X)11-NA-24,,SIG)  40 MeV"]),
    (text ["MONITOR    (22-TI-0(D,X)23-V-48,,SIG) 21 MeV";
    "           (13-AL-27(D,X)11-NA-22,,SIG)  40 MeV";
    "           (13-AL-27(D,X)11-NA-24,,SIG)  40 MeV"]));
  ("test_exfor_fields.py:290", field_value e nm "X4MonitorField" "str reactions" (map lit ["MONITOR    (22-TI-0(D,X)23-V-48,,SIG) 21 MeV";
    "           (13-AL-27(D,X)11-NA-22,,SIG)  40 MeV";
    "           (13-AL-27(D,X)11-NA-24,,SIG)  40 MeV"]),
    (text ["{' ': [((22-TI-0(D,X+23-V-48),SIG), '21 MeV', None), ((13-AL-27(D,X+11-NA-22),SIG), '40 MeV', None), ((13-AL-27(D,X+11-NA-24),SIG), '40 MeV', None)]}"]));
  ("test_exfor_fields.py:297", field_value e nm "X4MonitorField" "repr" (map lit ["MONITOR    ((MONIT1)79-AU-197(N,G)79-AU-198,,SIG,,MXW) Monitor in";
    "             form of alloy of 0.134% in thin Al metal foil";
    "           ((MONIT3)27-CO-59(N,G)27-CO-60,,SIG,,MXW) Monitor in";
    "           form of dilute  alloy  of 0.438% in thin Al metal foil"]),
    (text ["MONITOR    ((MONIT1)79-AU-197(N,G)79-AU-198,,SIG,,MXW) Monitor in";
    "             form of alloy of 0.134% in thin Al metal foil";
    "           ((MONIT3)27-CO-59(N,G)27-CO-60,,SIG,,MXW) Monitor in";
    "           form of dilute  alloy  of 0.438% in thin Al metal foil"]));
  ("test_exfor_fields.py:298", field_value e nm "X4MonitorField" "str reactions" (map lit ["MONITOR    ((MONIT1)79-AU-197(N,G)79-AU-198,,SIG,,MXW) Monitor in";
    "             form of alloy of 0.134% in thin Al metal foil";
    "           ((MONIT3)27-CO-59(N,G)27-CO-60,,SIG,,MXW) Monitor in";
    "           form of dilute  alloy  of 0.438% in thin Al metal foil"]),
    (text ["{' ': [((79-AU-197(N,G)79-AU-198,SIG,MXW), 'Monitor in form of alloy of 0.134% in thin Al metal foil', 'MONIT1'), ((27-CO-59(N,G)27-CO-60,SIG,MXW), 'Monitor in form of dilute  alloy  of 0.438% in thin Al metal foil', 'MONIT3')]}"]));
  ("test_exfor_fields.py:302", field_value e nm "X4MonitorField" "str" (map lit ["MONITOR    ((MONIT1)79-AU-197(N,G)79-AU-198,,SIG,,MXW) Monitor in";
    "             form of alloy of 0.134% in thin Al metal foil";
    "           ((MONIT3)27-CO-59(N,G)27-CO-60,,SIG,,MXW) Monitor in";
    "           form of dilute  alloy  of 0.438% in thin Al metal foil"]),
    (text ["[((79-AU-197(N,G)79-AU-198,SIG,MXW), 'Monitor in form of alloy of 0.134% in thin Al metal foil', 'MONIT1'), ((27-CO-59(N,G)27-CO-60,SIG,MXW), 'Monitor in form of dilute  alloy  of 0.438% in thin Al metal foil', 'MONIT3')]"]));
  ("test_exfor_fields.py:308", field_value e nm "X4MonitorField" "str" (map lit ["MONITOR    ((29-CU-63(A,N+P)30-ZN-65,,TTY)+";
    "           (29-CU-63(A,2N)31-GA-65,,TTY))"]),
    (text ["[((( (29-CU-63(A,N+P)30-ZN-65,TTY) )+( (29-CU-63(A,2N)31-GA-65,TTY) )), '', None)]"]));
  ("test_exfor_fields.py:314", field_value e nm "X4MonitorField" "str" (map lit ["MONITOR    No information"]),
    (text ["[(None, 'No information', None)]"]));
  ("test_exfor_fields.py:318", field_value e nm "X4MonitorField" "str" (map lit ["MONITOR    ((MONIT1)(95-AM-241(N,F)42-MO-99,CUM,FY,,SPA)+";
    "           (95-AM-241(N,F)43-TC-99-M,CUM,FY,,SPA)) USED FOR";
    "            NORMALIZATION OF THE LIGHT-MASS PEAK, I.E. A = 91";
    "            TO 105.";
    "           ((MONIT2)95-AM-241(N,F)56-BA-139,CUM,FY,,SPA) USED FOR";
    "            NORMALIZATION OF THE HEAVY-MASS PEAK, I.E. A = 131 TO";
    "            147."]),
    (text ["[((( (95-AM-241(N,F+42-MO-99),CUM,FY,SPA) )+( (95-AM-241(N,F+43-TC-99-M),CUM,FY,SPA) )), 'USED FOR NORMALIZATION OF THE LIGHT-MASS PEAK, I.E. A = 91 TO 105.', 'MONIT1'), ((95-AM-241(N,F+56-BA-139),CUM,FY,SPA), 'USED FOR NORMALIZATION OF THE HEAVY-MASS PEAK, I.E. A = 131 TO 147.', 'MONIT2')]"]));
  ("test_exfor_fields.py:340", field_value e nm "X4AuthorField" "repr" (map lit ["AUTHOR     (D.L.SMITH,J.W.MEADOWS,I.KANNO)"]),
    (text ["AUTHOR     (D.L.SMITH,J.W.MEADOWS,I.KANNO)"]));
  ("test_exfor_fields.py:345", field_value e nm "X4AuthorField" "str" (map lit ["AUTHOR     (D.L.SMITH,J.W.MEADOWS,I.KANNO)"]),
    (text ["D.L.Smith, J.W.Meadows, I.Kanno"]));
  ("test_exfor_fields.py:347", field_value e nm "X4AuthorField" "author_family_names" (map lit ["AUTHOR     (D.L.SMITH,J.W.MEADOWS,I.KANNO)"]),
    (text ["Smith|Meadows|Kanno"]));
  ("test_exfor_fields.py:353", field_value e nm "X4AuthorField" "repr" (map lit ["AUTHOR     (K.HATANAKA,N.MATSUOKA,H.SAKAI,T.SAITO,H.TAMURA,";
    "           K.HOSONO,M.KONDO,K.IMAI,H.SHIMIZU,K.NISHIMURA)"]),
    (text ["AUTHOR     (K.HATANAKA,N.MATSUOKA,H.SAKAI,T.SAITO,H.TAMURA,";
    "           K.HOSONO,M.KONDO,K.IMAI,H.SHIMIZU,K.NISHIMURA)"]));
  ("test_exfor_fields.py:358", field_value e nm "X4AuthorField" "author_family_names" (map lit ["AUTHOR     (K.HATANAKA,N.MATSUOKA,H.SAKAI,T.SAITO,H.TAMURA,";
    "           K.HOSONO,M.KONDO,K.IMAI,H.SHIMIZU,K.NISHIMURA)"]),
    (text ["Hatanaka|Matsuoka|Sakai|Saito|Tamura|Hosono|Kondo|Imai|Shimizu|Nishimura"]));
  ("test_exfor_fields.py:360", field_value e nm "X4AuthorField" "str" (map lit ["AUTHOR     (K.HATANAKA,N.MATSUOKA,H.SAKAI,T.SAITO,H.TAMURA,";
    "           K.HOSONO,M.KONDO,K.IMAI,H.SHIMIZU,K.NISHIMURA)"]),
    (text ["K.Hatanaka, N.Matsuoka, H.Sakai, T.Saito, H.Tamura, K.Hosono, M.Kondo, K.Imai, H.Shimizu, K.Nishimura"]));
  ("test_exfor_fields.py:364", field_value e nm "X4AuthorField" "repr" (map lit ["AUTHOR     (A.Budzanowski, A.Chatterjee, R.Gebel, P.Hawranek,";
    "           R.Jahn, V.Jha, K.Kilian, S.Kliczewski, Da.Kirillov,";
    "           Di.Kirillov, D.Kolev, M.Kravcikova, M.Lesiak, J.Lieb,";
    "           H.Machner, A.Magiera, R.Maier, G.Martinska, S.Nedev,";
    "           N.Piskunov, D.Prasuhn, D.Protic, J.Ritman,";
    "           P.von Rossen, B.J.Roy, I.Sitnik, R.Siudak, R.Tsenov,";
    "           J.Urban, G.Vankova, C.Wilkin) GEM Collaboration"]),
    (text ["AUTHOR     (A.Budzanowski, A.Chatterjee, R.Gebel, P.Hawranek,";
    "           R.Jahn, V.Jha, K.Kilian, S.Kliczewski, Da.Kirillov,";
    "           Di.Kirillov, D.Kolev, M.Kravcikova, M.Lesiak, J.Lieb,";
    "           H.Machner, A.Magiera, R.Maier, G.Martinska, S.Nedev,";
    "           N.Piskunov, D.Prasuhn, D.Protic, J.Ritman,";
    "           P.von Rossen, B.J.Roy, I.Sitnik, R.Siudak, R.Tsenov,";
    "           J.Urban, G.Vankova, C.Wilkin) GEM Collaboration"]));
  ("test_exfor_fields.py:369", field_value e nm "X4AuthorField" "author_family_names" (map lit ["AUTHOR     (A.Budzanowski, A.Chatterjee, R.Gebel, P.Hawranek,";
    "           R.Jahn, V.Jha, K.Kilian, S.Kliczewski, Da.Kirillov,";
    "           Di.Kirillov, D.Kolev, M.Kravcikova, M.Lesiak, J.Lieb,";
    "           H.Machner, A.Magiera, R.Maier, G.Martinska, S.Nedev,";
    "           N.Piskunov, D.Prasuhn, D.Protic, J.Ritman,";
    "           P.von Rossen, B.J.Roy, I.Sitnik, R.Siudak, R.Tsenov,";
    "           J.Urban, G.Vankova, C.Wilkin) GEM Collaboration"]),
    (text ["Budzanowski|Chatterjee|Gebel|Hawranek|Jahn|Jha|Kilian|Kliczewski|Kirillov|Kirillov|Kolev|Kravcikova|Lesiak|Lieb|Machner|Magiera|Maier|Martinska|Nedev|Piskunov|Prasuhn|Protic|Ritman|Von Rossen|Roy|Sitnik|Siudak|Tsenov|Urban|Vankova|Wilkin"]));
  ("test_exfor_fields.py:404", field_value e nm "X4AuthorField" "str" (map lit ["AUTHOR     (A.Budzanowski, A.Chatterjee, R.Gebel, P.Hawranek,";
    "           R.Jahn, V.Jha, K.Kilian, S.Kliczewski, Da.Kirillov,";
    "           Di.Kirillov, D.Kolev, M.Kravcikova, M.Lesiak, J.Lieb,";
    "           H.Machner, A.Magiera, R.Maier, G.Martinska, S.Nedev,";
    "           N.Piskunov, D.Prasuhn, D.Protic, J.Ritman,";
    "           P.von Rossen, B.J.Roy, I.Sitnik, R.Siudak, R.Tsenov,";
    "           J.Urban, G.Vankova, C.Wilkin) GEM Collaboration"]),
    (text ["A.Budzanowski, A.Chatterjee, R.Gebel, P.Hawranek, R.Jahn, V.Jha, K.Kilian, S.Kliczewski, Da.Kirillov, Di.Kirillov, D.Kolev, M.Kravcikova, M.Lesiak, J.Lieb, H.Machner, A.Magiera, R.Maier, G.Martinska, S.Nedev, N.Piskunov, D.Prasuhn, D.Protic, J.Ritman, P.Von Rossen, B.J.Roy, I.Sitnik, R.Siudak, R.Tsenov, J.Urban, G.Vankova, C.Wilkin"]));
  ("test_exfor_fields.py:434", field_value e nm "X4InstituteField" "repr" (map lit ["INSTITUTE  (1USAANL)"]),
    (text ["INSTITUTE  (1USAANL)"]));
  ("test_exfor_fields.py:439", field_value e nm "X4InstituteField" "str" (map lit ["INSTITUTE  (1USAANL)"]),
    (text ["Argonne National Laboratory, Argonne, IL"]));
  ("test_exfor_fields.py:443", field_value e nm "X4InstituteField" "repr" (map lit ["INSTITUTE  (2JPNOSA) RESEARCH CENTER FOR NUCLEAR PHYSICS, OSAKA";
    "            UNIV.";
    "           (2JPNKTO)"]),
    (text ["INSTITUTE  (2JPNOSA) RESEARCH CENTER FOR NUCLEAR PHYSICS, OSAKA";
    "            UNIV.";
    "           (2JPNKTO)"]));
  ("test_exfor_fields.py:448", field_value e nm "X4InstituteField" "str" (map lit ["INSTITUTE  (2JPNOSA) RESEARCH CENTER FOR NUCLEAR PHYSICS, OSAKA";
    "            UNIV.";
    "           (2JPNKTO)"]),
    (text ["Osaka Univ., Osaka (Research Center For Nuclear Physics, Osaka Univ.); Kyoto Univ."]));
  ("test_exfor_fields.py:452", field_value e nm "X4InstituteField" "repr" (map lit ["INSTITUTE  (3POLIFJ)";
    "           (3INDTRM)";
    "           (2GERJUL)";
    "           (3POLUJK)";
    "           (2GERBON)";
    "           (2GERUDE)";
    "           (4ZZZDUB)";
    "           (3BULSOF)";
    "           (3SLKSLK) Technical university, Kosice, Slovakia";
    "           (1USAUSA) George Mason University, Fairfax, VA, USA";
    "           (3SLKSLK) P.J. Safarik University, Kosice, Slovakia";
    "           (3BULBUL) University of chemical technology and";
    "                      Metallurgy, Sofia, Bulgaria";
    "           (2UK UK) Department of physics and Astronomy, UCL,";
    "                    London, UK"]),
    (text ["INSTITUTE  (3POLIFJ)";
    "           (3INDTRM)";
    "           (2GERJUL)";
    "           (3POLUJK)";
    "           (2GERBON)";
    "           (2GERUDE)";
    "           (4ZZZDUB)";
    "           (3BULSOF)";
    "           (3SLKSLK) Technical university, Kosice, Slovakia";
    "           (1USAUSA) George Mason University, Fairfax, VA, USA";
    "           (3SLKSLK) P.J. Safarik University, Kosice, Slovakia";
    "           (3BULBUL) University of chemical technology and";
    "                      Metallurgy, Sofia, Bulgaria";
    "           (2UK UK) Department of physics and Astronomy, UCL,";
    "                    London, UK"]));
  ("test_exfor_fields.py:457", field_value e nm "X4InstituteField" "str" (map lit ["INSTITUTE  (3POLIFJ)";
    "           (3INDTRM)";
    "           (2GERJUL)";
    "           (3POLUJK)";
    "           (2GERBON)";
    "           (2GERUDE)";
    "           (4ZZZDUB)";
    "           (3BULSOF)";
    "           (3SLKSLK) Technical university, Kosice, Slovakia";
    "           (1USAUSA) George Mason University, Fairfax, VA, USA";
    "           (3SLKSLK) P.J. Safarik University, Kosice, Slovakia";
    "           (3BULBUL) University of chemical technology and";
    "                      Metallurgy, Sofia, Bulgaria";
    "           (2UK UK) Department of physics and Astronomy, UCL,";
    "                    London, UK"]),
    (text ["Inst.Fiz.Jadr., Krakow; Bhabha Atomic Res. Centre, Trombay; Kernforschungsanlage Juelich; Krakow, Jagellonian Univ; Univ. of Bonn; 2GERUDE; Joint Inst.for Nucl.Res., Dubna; Univ.of Sofia; Slovakia (Technical University, Kosice, Slovakia); United States of America (George Mason University, Fairfax, Va, Usa); Slovakia (P.J. Safarik University, Kosice, Slovakia); Bulgaria (University Of Chemical Technology And Metallurgy, Sofia, Bulgaria); 2UK (Department Of Physics And Astronomy, Ucl, London, Uk)"]));
  ("test_exfor_fields.py:496", field_value e nm "X4ReferenceField" "repr" (map lit ["REFERENCE  (J,NIM,217,397,1983)"]),
    (text ["REFERENCE  (J,NIM,217,397,1983)"]));
  ("test_exfor_fields.py:501", field_value e nm "X4ReferenceField" "str" (map lit ["REFERENCE  (J,NIM,217,397,1983)"]),
    (text ["Nuclear Instrum.and Methods in Physics Res. 217, 397 (1983)"]));
  ("test_exfor_fields.py:505", field_value e nm "X4ReferenceField" "repr" (map lit ["REFERENCE  (J,PR/C,72,034302,2005)";
    "           #DOi=10.1103/PhysRevC.72.034302"]),
    (text ["REFERENCE  (J,PR/C,72,034302,2005)";
    "           #DOi=10.1103/PhysRevC.72.034302"]));
  ("test_exfor_fields.py:510", field_value e nm "X4ReferenceField" "str" (map lit ["REFERENCE  (J,PR/C,72,034302,2005)";
    "           #DOi=10.1103/PhysRevC.72.034302"]),
    (text ["Physical Review, Part C, Nuclear Physics 72, 034302 (2005)"]));
  ("test_exfor_fields.py:514", field_value e nm "X4ReferenceField" "repr" (map lit ["REFERENCE  (J,ANE,11,623,8412)";
    "           (P,ANL-NDM-85,8406)"]),
    (text ["REFERENCE  (J,ANE,11,623,8412)";
    "           (P,ANL-NDM-85,8406)"]));
  ("test_exfor_fields.py:519", field_value e nm "X4ReferenceField" "str" (map lit ["REFERENCE  (J,ANE,11,623,8412)";
    "           (P,ANL-NDM-85,8406)"]),
    (text ["Annals of Nuclear Energy 11, 623 (1984); Progress report: ANL-NDM-85  (1984)"]));
  ("test_exfor_fields.py:523", field_value e nm "X4ReferenceField" "repr" (map lit ["REFERENCE  (J,APP/B,2,489,1971) Full information";
    "           (P,INR-1318,29,197104)Partial,total sigmas cfd theory";
    "           (P,INDC(SEC)-18,120,197108) Identical to INR-1318";
    "           (R,INR-1224,197009)Experim.set-up described.Full paper";
    "           (P,INR-1197,26,197005)Small reprt.Same info as INR-1224";
    "           (J,CJP,47,2849,196912) Theo. Calculation of (n,g) sigma"]),
    (text ["REFERENCE  (J,APP/B,2,489,1971) Full information";
    "           (P,INR-1318,29,197104)Partial,total sigmas cfd theory";
    "           (P,INDC(SEC)-18,120,197108) Identical to INR-1318";
    "           (R,INR-1224,197009)Experim.set-up described.Full paper";
    "           (P,INR-1197,26,197005)Small reprt.Same info as INR-1224";
    "           (J,CJP,47,2849,196912) Theo. Calculation of (n,g) sigma"]));
  ("test_exfor_fields.py:528", field_value e nm "X4ReferenceField" "str" (map lit ["REFERENCE  (J,APP/B,2,489,1971) Full information";
    "           (P,INR-1318,29,197104)Partial,total sigmas cfd theory";
    "           (P,INDC(SEC)-18,120,197108) Identical to INR-1318";
    "           (R,INR-1224,197009)Experim.set-up described.Full paper";
    "           (P,INR-1197,26,197005)Small reprt.Same info as INR-1224";
    "           (J,CJP,47,2849,196912) Theo. Calculation of (n,g) sigma"]),
    (text ["Acta Physica Polonica, Part B 2, 489 (1971); Progress report: INR-1318 29 (1971); Progress report: INDC(SEC)-18 120 (1971); Report other than progress report: INR-1224  (1970); Progress report: INR-1197 26 (1970); Canadian Journal of Physics 47, 2849 (1969)"]));
  ("test_exfor_fields.py:532", field_value e nm "X4ReferenceField" "repr" (map lit ["REFERENCE  ((W,KOBAYASHI,73)=(R,KURRI-TR-6,1,73))";
    "            ANNU.REP.RES.REACTOR INST., KYOTO UNIV.";
    "           (P,EANDC(J)-26,39,7208) PROG.REP. FOR NP-237 AND TH-232"]),
    (text ["REFERENCE  ((W,KOBAYASHI,73)=(R,KURRI-TR-6,1,73))";
    "            ANNU.REP.RES.REACTOR INST., KYOTO UNIV.";
    "           (P,EANDC(J)-26,39,7208) PROG.REP. FOR NP-237 AND TH-232"]));
  ("test_exfor_fields.py:537", field_value e nm "X4ReferenceField" "str" (map lit ["REFERENCE  ((W,KOBAYASHI,73)=(R,KURRI-TR-6,1,73))";
    "            ANNU.REP.RES.REACTOR INST., KYOTO UNIV.";
    "           (P,EANDC(J)-26,39,7208) PROG.REP. FOR NP-237 AND TH-232"]),
    (text ["Private communication: Kobayashi  (1973); Report other than progress report: KURRI-TR-6 1 (1973); Progress report: EANDC(J)-26 39 (1972)"]));
  ("test_exfor_fields.py:541", field_value e nm "X4ReferenceField" "repr" (map lit ["REFERENCE  (J,NP,70,421,6508)";
    "           ((R,JAERI-1078,6507)=(R,EANDC(J)-5S,6507))";
    "           (W,NISHIMURA,7110)"]),
    (text ["REFERENCE  (J,NP,70,421,6508)";
    "           ((R,JAERI-1078,6507)=(R,EANDC(J)-5S,6507))";
    "           (W,NISHIMURA,7110)"]));
  ("test_exfor_fields.py:546", field_value e nm "X4ReferenceField" "str" (map lit ["REFERENCE  (J,NP,70,421,6508)";
    "           ((R,JAERI-1078,6507)=(R,EANDC(J)-5S,6507))";
    "           (W,NISHIMURA,7110)"]),
    (text ["Nuclear Physics 70, 421 (1965); Report other than progress report: JAERI-1078  (1965); Report other than progress report: EANDC(J)-5S  (1965); Private communication: Nishimura  (1971)"]));
  ("test_exfor_fields.py:550", field_value e nm "X4ReferenceField" "repr" (map lit ["REFERENCE  ((R,CEA-N-1459,7108)=(R,EANDC(E)-142L,7108)=";
    "           (R,INDC(FR)-4L,7108)) INTERNAL REPT,EXP.DESCR.,RES.PAR.";
    "            RESONANCE PARAMETERS CODED IN ENTRY 20121.";
    "           (W,TELLIER,7110)     DATA ON TAPES."]),
    (text ["REFERENCE  ((R,CEA-N-1459,7108)=(R,EANDC(E)-142L,7108)=";
    "           (R,INDC(FR)-4L,7108)) INTERNAL REPT,EXP.DESCR.,RES.PAR.";
    "            RESONANCE PARAMETERS CODED IN ENTRY 20121.";
    "           (W,TELLIER,7110)     DATA ON TAPES."]));
  ("test_exfor_fields.py:555", field_value e nm "X4ReferenceField" "str" (map lit ["REFERENCE  ((R,CEA-N-1459,7108)=(R,EANDC(E)-142L,7108)=";
    "           (R,INDC(FR)-4L,7108)) INTERNAL REPT,EXP.DESCR.,RES.PAR.";
    "            RESONANCE PARAMETERS CODED IN ENTRY 20121.";
    "           (W,TELLIER,7110)     DATA ON TAPES."]),
    (text ["Report other than progress report: CEA-N-1459  (1971); Report other than progress report: EANDC(E)-142L  (1971); Report other than progress report: INDC(FR)-4L  (1971); Private communication: Tellier  (1971)"]));
  ("test_exfor_fields.py:559", field_value e nm "X4ReferenceField" "repr" (map lit ["REFERENCE  (J,NST,31,1239,199412)  Main reference, data are given";
    "           ((S,JAERI-M-94-019,171,199311)=";
    "           (S,INDC(JPN)-169/L,171,199311))"]),
    (text ["REFERENCE  (J,NST,31,1239,199412)  Main reference, data are given";
    "           ((S,JAERI-M-94-019,171,199311)=";
    "           (S,INDC(JPN)-169/L,171,199311))"]));
  ("test_exfor_fields.py:564", field_value e nm "X4ReferenceField" "str" (map lit ["REFERENCE  (J,NST,31,1239,199412)  Main reference, data are given";
    "           ((S,JAERI-M-94-019,171,199311)=";
    "           (S,INDC(JPN)-169/L,171,199311))"]),
    (text ["J. of Nuclear Science and Technology, Tokyo 31, 1239 (1994); Report containing conference proc.: JAERI-M-94-019 171 (1993); Report containing conference proc.: INDC(JPN)-169/L 171 (1993)"]));
  ("test_exfor_fields.py:568", field_value e nm "X4ReferenceField" "repr" (map lit ["REFERENCE  ((R,YK-5(49),17,198211)=";
    "           (J,YK,1982,(5),17,198211))  Main Reference"]),
    (text ["REFERENCE  ((R,YK-5(49),17,198211)=";
    "           (J,YK,1982,(5),17,198211))  Main Reference"]));
  ("test_exfor_fields.py:573", field_value e nm "X4ReferenceField" "str" (map lit ["REFERENCE  ((R,YK-5(49),17,198211)=";
    "           (J,YK,1982,(5),17,198211))  Main Reference"]),
    (text ["Report other than progress report: YK-5(49) 17 (1982); Vop. At.Nauki i Tekhn.,Ser.Yadernye Konstanty 1982, (5), 17 (1982)"]));
  ("test_exfor_fields.py:577", field_value e nm "X4ReferenceField" "repr" (map lit ["REFERENCE  (P,NEANDC(E)-232,(3),5,198203) Main reference,";
    "                                        DATA ARE GIVEN.";
    "           (P,NEANDC(E)-222,(3),3,198103)";
    "           ((R,ANL-83-4,1983)=";
    "           (R,NEANDC(US)-214,1983))  ANL-83-4 report.";
    "                                     Data are given";
    "           (P,NEANDC(E)-212,(3),10,198006)"]),
    (text ["REFERENCE  (P,NEANDC(E)-232,(3),5,198203) Main reference,";
    "                                        DATA ARE GIVEN.";
    "           (P,NEANDC(E)-222,(3),3,198103)";
    "           ((R,ANL-83-4,1983)=";
    "           (R,NEANDC(US)-214,1983))  ANL-83-4 report.";
    "                                     Data are given";
    "           (P,NEANDC(E)-212,(3),10,198006)"]));
  ("test_exfor_fields.py:582", field_value e nm "X4ReferenceField" "str" (map lit ["REFERENCE  (P,NEANDC(E)-232,(3),5,198203) Main reference,";
    "                                        DATA ARE GIVEN.";
    "           (P,NEANDC(E)-222,(3),3,198103)";
    "           ((R,ANL-83-4,1983)=";
    "           (R,NEANDC(US)-214,1983))  ANL-83-4 report.";
    "                                     Data are given";
    "           (P,NEANDC(E)-212,(3),10,198006)"]),
    (text ["Progress report: NEANDC(E)-232 (3), 5 (1982); Progress report: NEANDC(E)-222 (3), 3 (1981); Report other than progress report: ANL-83-4  (1983); Report other than progress report: NEANDC(US)-214  (1983); Progress report: NEANDC(E)-212 (3), 10 (1980)"]));
  ("test_exfor_fields.py:586", field_value e nm "X4ReferenceField" "repr" (map lit ["REFERENCE  (J,NSTS,2,(1),204,200208)  Main referene, Graphs Given";
    "           (J,NSTS,1,683,2000)        Details of Experiment";
    "           (J,NIM/A,446,(3),536,2000) Graphs and Experimental";
    "                                      details";
    "           ((S,JAERI-C-2000-005,243,19991119)=";
    "           (S,INDC(JPN)-185/U,243,19991119)) Graphs and";
    "                                        Experimental Details";
    "           ((S,JAERI-C-99-002,153,19981120)=";
    "           (S,INDC(JPN)-182/U,153,19981120)) Graphs and";
    "                                        Experimental Details"]),
    (text ["REFERENCE  (J,NSTS,2,(1),204,200208)  Main referene, Graphs Given";
    "           (J,NSTS,1,683,2000)        Details of Experiment";
    "           (J,NIM/A,446,(3),536,2000) Graphs and Experimental";
    "                                      details";
    "           ((S,JAERI-C-2000-005,243,19991119)=";
    "           (S,INDC(JPN)-185/U,243,19991119)) Graphs and";
    "                                        Experimental Details";
    "           ((S,JAERI-C-99-002,153,19981120)=";
    "           (S,INDC(JPN)-182/U,153,19981120)) Graphs and";
    "                                        Experimental Details"]));
  ("test_exfor_fields.py:591", field_value e nm "X4ReferenceField" "str" (map lit ["REFERENCE  (J,NSTS,2,(1),204,200208)  Main referene, Graphs Given";
    "           (J,NSTS,1,683,2000)        Details of Experiment";
    "           (J,NIM/A,446,(3),536,2000) Graphs and Experimental";
    "                                      details";
    "           ((S,JAERI-C-2000-005,243,19991119)=";
    "           (S,INDC(JPN)-185/U,243,19991119)) Graphs and";
    "                                        Experimental Details";
    "           ((S,JAERI-C-99-002,153,19981120)=";
    "           (S,INDC(JPN)-182/U,153,19981120)) Graphs and";
    "                                        Experimental Details"]),
    (text ["J.Nucl.Science and Technol.Tokyo,Supplement 2, (1), 204 (2002); J.Nucl.Science and Technol.Tokyo,Supplement 1, 683 (2000); Nucl. Instrum. Methods in Physics Res., Sect.A 446, (3), 536 (2000); Report containing conference proc.: JAERI-C-2000-005 243 (1999); Report containing conference proc.: INDC(JPN)-185/U 243 (1999); Report containing conference proc.: JAERI-C-99-002 153 (1998); Report containing conference proc.: INDC(JPN)-182/U 153 (1998)"]))].

Definition all_cases (_ : unit) := let ds := dicts tt in failures (cases (the_env ds) (the_names ds)).
Check (@eq_refl (list string) [] <: all_cases tt = []).
