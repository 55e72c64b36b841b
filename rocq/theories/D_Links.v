(* GENERATED by tools/gen_tables.py from /repo/OpenNTN/models -- do not edit.
   One definition per JSON file; entries in file order, literals kept exactly. *)
From Coq Require Import ZArith List String.
From Verif Require Import M_Json.
Import ListNotations.
Open Scope string_scope.
Open Scope Z_scope.

(* /repo/OpenNTN/models/CDL-A.json *)
Definition tab_CDL_A : json_obj :=
  [ ("los", JInt (0));
    ("num_clusters", JInt (3));
    ("cASD", JNum (0) 1);
    ("cASA", JNum (150) 1);
    ("cZSD", JNum (0) 1);
    ("cZSA", JNum (70) 1);
    ("xpr", JNum (100) 1);
    ("delays", JList [JNum (0) 1; JNum (10811) 4; JNum (28416) 4]);
    ("powers", JList [JNum (0) 1; JNum (-4675) 3; JNum (-6482) 3]);
    ("aod", JList [JNum (0) 1; JNum (0) 1; JNum (0) 1]);
    ("aoa", JList [JNum (1788) 1; JNum (-1157) 1; JNum (1115) 1]);
    ("zod", JList [JNum (1400) 1; JNum (1400) 1; JNum (1400) 1]);
    ("zoa", JList [JNum (356) 1; JNum (229) 1; JNum (1274) 1]) ].

(* /repo/OpenNTN/models/CDL-B.json *)
Definition tab_CDL_B : json_obj :=
  [ ("los", JInt (0));
    ("num_clusters", JInt (4));
    ("cASD", JNum (0) 1);
    ("cASA", JNum (150) 1);
    ("cZSD", JNum (0) 1);
    ("cZSA", JNum (70) 1);
    ("xpr", JNum (100) 1);
    ("delays", JList [JNum (0) 4; JNum (7249) 4; JNum (7410) 4; JNum (57392) 4]);
    ("powers", JList [JNum (0) 1; JNum (-1973) 3; JNum (-4332) 3; JNum (-11914) 3]);
    ("aod", JList [JNum (0) 1; JNum (0) 1; JNum (0) 1; JNum (0) 1]);
    ("aoa", JList [JNum (-1746) 1; JNum (1449) 1; JNum (-1198) 1; JNum (-888) 1]);
    ("zod", JList [JInt (140); JInt (140); JInt (140); JInt (140)]);
    ("zoa", JList [JNum (422) 1; JNum (634) 1; JNum (897) 1; JNum (1741) 1]) ].

(* /repo/OpenNTN/models/CDL-C.json *)
Definition tab_CDL_C : json_obj :=
  [ ("los", JInt (1));
    ("num_clusters", JInt (2));
    ("cASD", JNum (0) 1);
    ("cASA", JNum (110) 1);
    ("cZSD", JNum (0) 1);
    ("cZSA", JNum (70) 1);
    ("xpr", JNum (160) 1);
    ("delays", JList [JNum (0) 1; JNum (0) 1; JNum (148124) 4]);
    ("powers", JList [JNum (-394) 3; JNum (-10618) 3; JNum (-23373) 3]);
    ("aod", JList [JNum (0) 1; JNum (0) 1; JNum (0) 1]);
    ("aoa", JList [JNum (-1800) 1; JNum (-1800) 1; JNum (-759) 1]);
    ("zod", JList [JNum (1400) 1; JNum (1400) 1; JNum (1400) 1]);
    ("zoa", JList [JNum (400) 1; JNum (400) 1; JNum (871) 1]) ].

(* /repo/OpenNTN/models/CDL-D.json *)
Definition tab_CDL_D : json_obj :=
  [ ("los", JInt (1));
    ("num_clusters", JInt (3));
    ("cASD", JNum (0) 1);
    ("cASA", JNum (110) 1);
    ("cZSD", JNum (0) 1);
    ("cZSA", JNum (70) 1);
    ("xpr", JNum (160) 1);
    ("delays", JList [JNum (0) 1; JNum (0) 1; JNum (5596) 4; JNum (73340) 4]);
    ("powers", JList [JNum (-284) 3; JNum (-11991) 3; JNum (-9887) 3; JNum (-16771) 3]);
    ("aod", JList [JNum (0) 1; JNum (0) 1; JNum (0) 1; JNum (0) 1]);
    ("aoa", JList [JNum (-1800) 1; JNum (-1800) 1; JNum (-1354) 1; JNum (-1215) 1]);
    ("zod", JList [JNum (1400) 1; JNum (1400) 1; JNum (1400) 1; JNum (1400) 1]);
    ("zoa", JList [JNum (400) 1; JNum (400) 1; JNum (1462) 1; JNum (1360) 1]) ].

(* /repo/OpenNTN/models/TDL-A.json *)
Definition tab_TDL_A : json_obj :=
  [ ("los", JInt (0));
    ("num_clusters", JInt (3));
    ("scale_delays", JBool true);
    ("delays", JList [JNum (0) 1; JNum (10811) 4; JNum (28416) 4]);
    ("powers", JList [JNum (0) 1; JNum (-4675) 3; JNum (-6482) 3]) ].

(* /repo/OpenNTN/models/TDL-A30.json *)
Definition tab_TDL_A30 : json_obj :=
  [ ("los", JInt (0));
    ("num_clusters", JInt (12));
    ("scale_delays", JBool false);
    ("delays", JList [JNum (0) 1; JNum (100) 1; JNum (150) 1; JNum (200) 1; JNum (250) 1; JNum (500) 1; JNum (650) 1; JNum (750) 1; JNum (1050) 1; JNum (1350) 1; JNum (1500) 1; JNum (2900) 1]);
    ("powers", JList [JNum (-155) 1; JNum (0) 1; JNum (-51) 1; JNum (-51) 1; JNum (-96) 1; JNum (-82) 1; JNum (-131) 1; JNum (-115) 1; JNum (-110) 1; JNum (-162) 1; JNum (-166) 1; JNum (-262) 1]) ].

(* /repo/OpenNTN/models/TDL-B.json *)
Definition tab_TDL_B : json_obj :=
  [ ("los", JInt (0));
    ("num_clusters", JInt (4));
    ("scale_delays", JBool true);
    ("powers", JList [JNum (0) 1; JNum (-1973) 3; JNum (-4332) 3; JNum (-11914) 3]);
    ("delays", JList [JNum (0) 4; JNum (7249) 4; JNum (7410) 4; JNum (57392) 4]) ].

(* /repo/OpenNTN/models/TDL-B100.json *)
Definition tab_TDL_B100 : json_obj :=
  [ ("los", JInt (0));
    ("num_clusters", JInt (12));
    ("scale_delays", JBool false);
    ("powers", JList [JNum (0) 1; JNum (-22) 1; JNum (-6) 1; JNum (-6) 1; JNum (-3) 1; JNum (-12) 1; JNum (-59) 1; JNum (-22) 1; JNum (-8) 1; JNum (-63) 1; JNum (-75) 1; JNum (-71) 1]);
    ("delays", JList [JNum (0) 1; JNum (100) 1; JNum (200) 1; JNum (300) 1; JNum (350) 1; JNum (450) 1; JNum (550) 1; JNum (1200) 1; JNum (1700) 1; JNum (2450) 1; JNum (3300) 1; JNum (4800) 1]) ].

(* /repo/OpenNTN/models/TDL-C.json *)
Definition tab_TDL_C : json_obj :=
  [ ("los", JInt (1));
    ("num_clusters", JInt (2));
    ("scale_delays", JBool true);
    ("powers", JList [JNum (-394) 3; JNum (-10618) 3; JNum (-23373) 3]);
    ("delays", JList [JNum (0) 1; JNum (0) 1; JNum (148124) 4]) ].

(* /repo/OpenNTN/models/TDL-C300.json *)
Definition tab_TDL_C300 : json_obj :=
  [ ("los", JInt (0));
    ("num_clusters", JInt (12));
    ("scale_delays", JBool false);
    ("powers", JList [JNum (-69) 1; JNum (0) 1; JNum (-77) 1; JNum (-25) 1; JNum (-24) 1; JNum (-99) 1; JNum (-80) 1; JNum (-66) 1; JNum (-71) 1; JNum (-130) 1; JNum (-142) 1; JNum (-160) 1]);
    ("delays", JList [JNum (0) 1; JNum (650) 1; JNum (700) 1; JNum (1900) 1; JNum (1950) 1; JNum (2000) 1; JNum (2400) 1; JNum (3250) 1; JNum (5200) 1; JNum (10450) 1; JNum (15100) 1; JNum (25950) 1]) ].

(* /repo/OpenNTN/models/TDL-D.json *)
Definition tab_TDL_D : json_obj :=
  [ ("los", JInt (1));
    ("num_clusters", JInt (3));
    ("scale_delays", JBool true);
    ("powers", JList [JNum (-284) 3; JNum (-11991) 3; JNum (-9887) 3; JNum (-16771) 3]);
    ("delays", JList [JNum (0) 1; JNum (0) 1; JNum (5596) 4; JNum (73340) 4]) ].

