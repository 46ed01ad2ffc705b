(** x4i3/tests/test_exfor_reaction.py: class, what is asked of it, the lines it is built from, what the test
    expects; labelled by the line of the test.  Not included: asList, and the two assertRaises (below). *)
From Coq Require Import String List Ascii NArith ZArith SpecFloat Bool Arith.
From Verif.Model Require Import Py PyFloat Dicts Particle Pyparsing Grammars Shipped ShippedDicts Reaction Field Section Columns Entry Dataset Csv Repr Print.
From Verif.Conformance Require Import Setup.
Import ListNotations.
Local Open Scope string_scope.
Local Open Scope list_scope.
Local Open Scope nat_scope.

Definition cases (e : env) (nm : names) : list (string * res str * str) := [
  ("test_exfor_reaction.py:40", reaction_value e nm "X4Nucleus" "str" (map lit ["94-PU-240"]),
    (text ["240Pu"]));
  ("test_exfor_reaction.py:42", reaction_value e nm "X4Nucleus" "repr" (map lit ["94-PU-240"]),
    (text ["94-PU-240"]));
  ("test_exfor_reaction.py:43", reaction_value e nm "X4Nucleus" "endlZAStyle" (map lit ["94-PU-240"]),
    (text ["za094240"]));
  ("test_exfor_reaction.py:44", reaction_value e nm "X4Nucleus" "exforStyle" (map lit ["94-PU-240"]),
    (text ["94-PU-240"]));
  ("test_exfor_reaction.py:45", reaction_value e nm "X4Nucleus" "prettyStyle" (map lit ["94-PU-240"]),
    (text ["240Pu"]));
  ("test_exfor_reaction.py:47", reaction_value e nm "X4Nucleus" "str" (map lit ["94-Pu-240"]),
    (text ["240Pu"]));
  ("test_exfor_reaction.py:49", reaction_value e nm "X4Nucleus" "repr" (map lit ["94-Pu-240"]),
    (text ["94-PU-240"]));
  ("test_exfor_reaction.py:50", reaction_value e nm "X4Nucleus" "endlZAStyle" (map lit ["94-Pu-240"]),
    (text ["za094240"]));
  ("test_exfor_reaction.py:51", reaction_value e nm "X4Nucleus" "exforStyle" (map lit ["94-Pu-240"]),
    (text ["94-PU-240"]));
  ("test_exfor_reaction.py:52", reaction_value e nm "X4Nucleus" "prettyStyle" (map lit ["94-Pu-240"]),
    (text ["240Pu"]));
  ("test_exfor_reaction.py:54", reaction_value e nm "X4Nucleus" "str" (map lit ["94-Pu-240-"]),
    (text ["240Pu"]));
  ("test_exfor_reaction.py:56", reaction_value e nm "X4Nucleus" "repr" (map lit ["94-Pu-240-"]),
    (text ["94-PU-240"]));
  ("test_exfor_reaction.py:57", reaction_value e nm "X4Nucleus" "endlZAStyle" (map lit ["94-Pu-240-"]),
    (text ["za094240"]));
  ("test_exfor_reaction.py:58", reaction_value e nm "X4Nucleus" "exforStyle" (map lit ["94-Pu-240-"]),
    (text ["94-PU-240"]));
  ("test_exfor_reaction.py:59", reaction_value e nm "X4Nucleus" "prettyStyle" (map lit ["94-Pu-240-"]),
    (text ["240Pu"]));
  ("test_exfor_reaction.py:63", reaction_value e nm "X4Isomer" "str" (map lit ["94-PU-240-M"]),
    (text ["240mPu"]));
  ("test_exfor_reaction.py:64", reaction_value e nm "X4Isomer" "repr" (map lit ["94-PU-240-M"]),
    (text ["94-PU-240-M"]));
  ("test_exfor_reaction.py:66", reaction_value e nm "X4Isomer" "endlZAStyle" (map lit ["94-PU-240-M"]),
    (text ["za094240m"]));
  ("test_exfor_reaction.py:67", reaction_value e nm "X4Isomer" "exforStyle" (map lit ["94-PU-240-M"]),
    (text ["94-PU-240-M"]));
  ("test_exfor_reaction.py:68", reaction_value e nm "X4Isomer" "prettyStyle" (map lit ["94-PU-240-M"]),
    (text ["240mPu"]));
  ("test_exfor_reaction.py:70", reaction_value e nm "X4Isomer" "str" (map lit ["94-Pu-240-M2"]),
    (text ["240m2Pu"]));
  ("test_exfor_reaction.py:71", reaction_value e nm "X4Isomer" "repr" (map lit ["94-Pu-240-M2"]),
    (text ["94-PU-240-M2"]));
  ("test_exfor_reaction.py:73", reaction_value e nm "X4Isomer" "endlZAStyle" (map lit ["94-Pu-240-M2"]),
    (text ["za094240m2"]));
  ("test_exfor_reaction.py:74", reaction_value e nm "X4Isomer" "exforStyle" (map lit ["94-Pu-240-M2"]),
    (text ["94-PU-240-M2"]));
  ("test_exfor_reaction.py:75", reaction_value e nm "X4Isomer" "prettyStyle" (map lit ["94-Pu-240-M2"]),
    (text ["240m2Pu"]));
  ("test_exfor_reaction.py:90", reaction_value e nm "X4Particle" "str" (map lit ["PIP"]),
    (text ["pi+"]));
  ("test_exfor_reaction.py:93", reaction_value e nm "X4Particle" "str" (map lit ["N"]),
    (text ["n"]));
  ("test_exfor_reaction.py:96", reaction_value e nm "X4Particle" "str" (map lit ["A"]),
    (text ["alpha"]));
  ("test_exfor_reaction.py:99", reaction_value e nm "X4Particle" "str" (map lit ["HE3"]),
    (text ["He3"]));
  ("test_exfor_reaction.py:108", reaction_value e nm "X4ChemicalCompound" "str" (map lit ["19-K-CMP"]),
    (text ["Potassium compound"]));
  ("test_exfor_reaction.py:110", reaction_value e nm "X4ChemicalCompound" "Z" (map lit ["19-K-CMP"]),
    (text ["19"]));
  ("test_exfor_reaction.py:115", reaction_value e nm "X4Process" "str" (map lit ["94-PU-240(N,2n)"]),
    (text ["240Pu(n,2n)239Pu"]));
  ("test_exfor_reaction.py:119", reaction_value e nm "X4Process" "str" (map lit ["94-PU-240(N,N)94-PU-240"]),
    (text ["240Pu(n,n)240Pu"]));
  ("test_exfor_reaction.py:123", reaction_value e nm "X4Process" "str" (map lit ["94-PU-240(N,TOT)"]),
    (text ["240Pu(n,Total)"]));
  ("test_exfor_reaction.py:127", reaction_value e nm "X4Process" "str" (map lit ["94-PU-240(N,F)"]),
    (text ["240Pu(n,Fission)"]));
  ("test_exfor_reaction.py:131", reaction_value e nm "X4Process" "str" (map lit ["94-PU-240(0,F)"]),
    (text ["240Pu(None,Fission)"]));
  ("test_exfor_reaction.py:135", reaction_value e nm "X4Process" "str" (map lit ["94-PU-240(P,2p+4n)"]),
    (text ["240Pu(p,2p+4n)235Np"]));
  ("test_exfor_reaction.py:139", reaction_value e nm "X4Process" "str" (map lit ["94-PU-240(94-PU-240,X)"]),
    (text ["240Pu(240Pu,Unspecified)"]));
  ("test_exfor_reaction.py:143", reaction_value e nm "X4Process" "str" (map lit ["94-PU-240(P,A+6-C-14+4N)"]),
    (text ["240Pu(p,alpha+14C+4n)219Fr"]));
  ("test_exfor_reaction.py:147", reaction_value e nm "X4Process" "str" (map lit ["94-PU-240(P,A+6-C-14+4N+X)"]),
    (text ["240Pu(p,alpha+14C+4n+Unspecified)"]));
  ("test_exfor_reaction.py:151", reaction_value e nm "X4Process" "str" (map lit ["94-PU-240-M(N,2n)"]),
    (text ["240mPu(n,2n)239Pu"]));
  ("test_exfor_reaction.py:155", reaction_value e nm "X4Process" "str" (map lit ["94-PU-239(N,2N)94-PU-238"]),
    (text ["239Pu(n,2n)238Pu"]));
  ("test_exfor_reaction.py:168", reaction_value e nm "X4Process" "str" (map lit ["19-K-CMP(N,TOT)"]),
    (text ["Potassium compound(n,Total)"]));
  ("test_exfor_reaction.py:170", reaction_value e nm "X4Process" "repr" (map lit ["19-K-CMP(N,TOT)"]),
    (text ["19-K-CMP(N,TOT)"]));
  ("test_exfor_reaction.py:178", reaction_value e nm "X4Reaction" "str" (map lit ["(94-PU-239(N,F),,SIG)"]),
    (text ["Cross section for 239Pu(n,Fission)"]));
  ("test_exfor_reaction.py:182", reaction_value e nm "X4Reaction" "str" (map lit ["(94-PU-239(P,A+6-C-14+4N),,SIG)"]),
    (text ["Cross section for 239Pu(p,alpha+14C+4n)218Fr"]));
  ("test_exfor_reaction.py:186", reaction_value e nm "X4Reaction" "str" (map lit ["(94-PU-239(N,ABS),,SIG,,MXW)"]),
    (text ["Maxwellian average Cross section for 239Pu(n,Absorption)"]));
  ("test_exfor_reaction.py:190", reaction_value e nm "X4Reaction" "str" (map lit ["(92-U-238-M(0,F),TER,AKE,LCP)"]),
    (text ["Avg. kin.energy light chg. part., ternary fiss. for 238mU(None,Fission)"]));
  ("test_exfor_reaction.py:194", reaction_value e nm "X4Reaction" "str" (map lit ["(94-PU-240(N,0),,EN)"]),
    (text [".Resonance energy for 240Pu(n,None)"]));
  ("test_exfor_reaction.py:198", reaction_value e nm "X4Reaction" "str" (map lit ["(1-H-1(D,EL)1-H-1,SL,POL/DA,,ANA)"]),
    (text ["Vector analyzing power, A(y), for incident beam Spin-polarization probability d/dA for 1H(d,Elastic)1H"]));
  ("test_exfor_reaction.py:204", reaction_value e nm "X4ReactionCombination" "str" (map lit ["((92-U-235(N,G)92-U-236,,SIG)+(92-U-235(N,F),,SIG))"]),
    (text ["(( Cross section for 235U(n,gamma)236U )+( Cross section for 235U(n,Fission) ))"]));
  ("test_exfor_reaction.py:210", reaction_value e nm "X4ReactionCombination" "str" (map lit ["((92-U-234(N,F),,SIG)/(92-U-235(N,F),,SIG))"]),
    (text ["(( Cross section for 234U(n,Fission) )/( Cross section for 235U(n,Fission) ))"]));
  ("test_exfor_reaction.py:216", reaction_value e nm "X4ReactionCombination" "str" (map lit ["((19-K-CMP(N,TOT),,SIG)=(17-CL-CMP(N,TOT),,SIG))"]),
    (text ["(( Cross section for Potassium compound(n,Total) )=( Cross section for Chlorine compound(n,Total) ))"]));
  ("test_exfor_reaction.py:220", reaction_value e nm "X4ReactionCombination" "str" (map lit ["((98-CF-252(0,F),PR,DE,N)//(92-U-235(N,F),PR,DE,N,MXW))"]),
    (text ["(( Energy spectrum of prompt fission neutrons for 252Cf(None,Fission) )//( Maxwellian average Energy spectrum of outgoing particles for 235U(n,Fission) ))"]));
  ("test_exfor_reaction.py:224", reaction_value e nm "X4ReactionCombination" "str" (map lit ["(((94-PU-239(N,F),,SIG)-(92-U-238-M(0,F),TER,AKE,LCP))/(94-PU-239(N,ABS),,SIG,,MXW))"]),
    (text ["((( Cross section for 239Pu(n,Fission) )-( Avg. kin.energy light chg. part., ternary fiss. for 238mU(None,Fission) ))/( Maxwellian average Cross section for 239Pu(n,Absorption) ))"]));
  ("test_exfor_reaction.py:228", reaction_value e nm "X4ReactionCombination" "str" (map lit ["((79-AU-197(N,2N)79-AU-196-G,,SIG)+(79-AU-197(N,2N)79-AU-196-M1,,SIG))"]),
    (text ["(( Cross section for 197Au(n,2n)196m0Au )+( Cross section for 197Au(n,2n)196mAu ))"]));
  ("test_exfor_reaction.py:234", reaction_value e nm "X4ReactionCombination" "str" (map lit ["((79-AU-197(N,2N)79-AU-196-M2,,SIG)/(79-AU-197(N,2N)79-AU-196-G+M1,,SIG))"]),
    (text ["(( Cross section for 197Au(n,2n)196m2Au )/( (( Cross section for 197Au(n,2n)196m0Au )+( Cross section for 197Au(n,2n)196mAu )) ))"]))].

(** test_exfor_reaction.py:77-85 *)
Definition raises : list (res particle) :=
  map (fun x => X4Isomer (x4grammars shipped) false (PTok (lit x))) ["94-Pu-240-G+M"; "94-Pu-240-M1+M2"].
Check (@eq_refl (list (res particle)) [Raise IsomerMathParsingError; Raise IsomerMathParsingError] <:
       raises = [Raise IsomerMathParsingError; Raise IsomerMathParsingError]).

Definition all_cases (_ : unit) := let ds := dicts tt in failures (cases (the_env ds) (the_names ds)).
Check (@eq_refl (list string) [] <: all_cases tt = []).
