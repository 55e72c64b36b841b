(* GENERATED by tools/gen_tables.py from /repo/OpenNTN/models -- do not edit.
   One definition per JSON file; entries in file order, literals kept exactly. *)
From Coq Require Import ZArith List String.
From Verif Require Import M_Json.
Import ListNotations.
Open Scope string_scope.
Open Scope Z_scope.

(* /repo/OpenNTN/models/Sub_Urban_LOS_Ka_band_DL.json *)
Definition tab_Sub_Urban_LOS_Ka_band_DL : json_obj :=
  [ ("muDS_10", JNum (-807) 2);
    ("muDS_20", JNum (-861) 2);
    ("muDS_30", JNum (-872) 2);
    ("muDS_40", JNum (-863) 2);
    ("muDS_50", JNum (-854) 2);
    ("muDS_60", JNum (-848) 2);
    ("muDS_70", JNum (-842) 2);
    ("muDS_80", JNum (-839) 2);
    ("muDS_90", JNum (-837) 2);
    ("sigmaDS_10", JNum (46) 2);
    ("sigmaDS_20", JNum (45) 2);
    ("sigmaDS_30", JNum (28) 2);
    ("sigmaDS_40", JNum (17) 2);
    ("sigmaDS_50", JNum (14) 2);
    ("sigmaDS_60", JNum (15) 2);
    ("sigmaDS_70", JNum (9) 2);
    ("sigmaDS_80", JNum (5) 2);
    ("sigmaDS_90", JNum (2) 2);
    ("muASD_10", JStr "-inf");
    ("muASD_20", JStr "-inf");
    ("muASD_30", JStr "-inf");
    ("muASD_40", JStr "-inf");
    ("muASD_50", JStr "-inf");
    ("muASD_60", JStr "-inf");
    ("muASD_70", JStr "-inf");
    ("muASD_80", JStr "-inf");
    ("muASD_90", JStr "-inf");
    ("sigmaASD_10", JNum (0) 1);
    ("sigmaASD_20", JNum (0) 1);
    ("sigmaASD_30", JNum (0) 1);
    ("sigmaASD_40", JNum (0) 1);
    ("sigmaASD_50", JNum (0) 1);
    ("sigmaASD_60", JNum (0) 1);
    ("sigmaASD_70", JNum (0) 1);
    ("sigmaASD_80", JNum (0) 1);
    ("sigmaASD_90", JNum (0) 1);
    ("muASA_10", JNum (89) 2);
    ("muASA_20", JNum (31) 2);
    ("muASA_30", JNum (2) 2);
    ("muASA_40", JNum (-10) 2);
    ("muASA_50", JNum (-19) 2);
    ("muASA_60", JNum (-54) 2);
    ("muASA_70", JNum (-24) 2);
    ("muASA_80", JNum (-52) 2);
    ("muASA_90", JNum (-15) 2);
    ("sigmaASA_10", JNum (67) 2);
    ("sigmaASA_20", JNum (78) 2);
    ("sigmaASA_30", JNum (75) 2);
    ("sigmaASA_40", JNum (65) 2);
    ("sigmaASA_50", JNum (55) 2);
    ("sigmaASA_60", JNum (96) 2);
    ("sigmaASA_70", JNum (43) 2);
    ("sigmaASA_80", JNum (93) 2);
    ("sigmaASA_90", JNum (44) 2);
    ("muZSA_10", JNum (63) 2);
    ("muZSA_20", JNum (76) 2);
    ("muZSA_30", JNum (111) 2);
    ("muZSA_40", JNum (137) 2);
    ("muZSA_50", JNum (153) 2);
    ("muZSA_60", JNum (165) 2);
    ("muZSA_70", JNum (174) 2);
    ("muZSA_80", JNum (182) 2);
    ("muZSA_90", JNum (187) 2);
    ("sigmaZSA_10", JNum (35) 2);
    ("sigmaZSA_20", JNum (30) 2);
    ("sigmaZSA_30", JNum (28) 2);
    ("sigmaZSA_40", JNum (23) 2);
    ("sigmaZSA_50", JNum (23) 2);
    ("sigmaZSA_60", JNum (17) 2);
    ("sigmaZSA_70", JNum (11) 2);
    ("sigmaZSA_80", JNum (5) 2);
    ("sigmaZSA_90", JNum (2) 2);
    ("muZSD_10", JStr "-inf");
    ("muZSD_20", JStr "-inf");
    ("muZSD_30", JStr "-inf");
    ("muZSD_40", JStr "-inf");
    ("muZSD_50", JStr "-inf");
    ("muZSD_60", JStr "-inf");
    ("muZSD_70", JStr "-inf");
    ("muZSD_80", JStr "-inf");
    ("muZSD_90", JStr "-inf");
    ("sigmaZSD_10", JNum (0) 1);
    ("sigmaZSD_20", JNum (0) 1);
    ("sigmaZSD_30", JNum (0) 1);
    ("sigmaZSD_40", JNum (0) 1);
    ("sigmaZSD_50", JNum (0) 1);
    ("sigmaZSD_60", JNum (0) 1);
    ("sigmaZSD_70", JNum (0) 1);
    ("sigmaZSD_80", JNum (0) 1);
    ("sigmaZSD_90", JNum (0) 1);
    ("sigmaSF_10", JNum (19) 1);
    ("sigmaSF_20", JNum (16) 1);
    ("sigmaSF_30", JNum (19) 1);
    ("sigmaSF_40", JNum (23) 1);
    ("sigmaSF_50", JNum (27) 1);
    ("sigmaSF_60", JNum (31) 1);
    ("sigmaSF_70", JNum (30) 1);
    ("sigmaSF_80", JNum (36) 1);
    ("sigmaSF_90", JNum (4) 1);
    ("muK_10", JNum (890) 2);
    ("muK_20", JNum (1400) 2);
    ("muK_30", JNum (1130) 2);
    ("muK_40", JNum (900) 2);
    ("muK_50", JNum (750) 2);
    ("muK_60", JNum (660) 2);
    ("muK_70", JNum (590) 2);
    ("muK_80", JNum (550) 2);
    ("muK_90", JNum (540) 2);
    ("sigmaK_10", JNum (440) 2);
    ("sigmaK_20", JNum (460) 2);
    ("sigmaK_30", JNum (370) 2);
    ("sigmaK_40", JNum (350) 2);
    ("sigmaK_50", JNum (300) 2);
    ("sigmaK_60", JNum (260) 2);
    ("sigmaK_70", JNum (170) 2);
    ("sigmaK_80", JNum (70) 2);
    ("sigmaK_90", JNum (30) 2);
    ("muXPR_10", JNum (232) 1);
    ("muXPR_20", JNum (236) 1);
    ("muXPR_30", JNum (235) 1);
    ("muXPR_40", JNum (234) 1);
    ("muXPR_50", JNum (232) 1);
    ("muXPR_60", JNum (233) 1);
    ("muXPR_70", JNum (234) 1);
    ("muXPR_80", JNum (232) 1);
    ("muXPR_90", JNum (231) 1);
    ("sigmaXPR_10", JNum (50) 1);
    ("sigmaXPR_20", JNum (45) 1);
    ("sigmaXPR_30", JNum (47) 1);
    ("sigmaXPR_40", JNum (52) 1);
    ("sigmaXPR_50", JNum (57) 1);
    ("sigmaXPR_60", JNum (59) 1);
    ("sigmaXPR_70", JNum (62) 1);
    ("sigmaXPR_80", JNum (70) 1);
    ("sigmaXPR_90", JNum (76) 1);
    ("rTau_10", JNum (25) 1);
    ("rTau_20", JNum (25) 1);
    ("rTau_30", JNum (25) 1);
    ("rTau_40", JNum (25) 1);
    ("rTau_50", JNum (25) 1);
    ("rTau_60", JNum (25) 1);
    ("rTau_70", JNum (25) 1);
    ("rTau_80", JNum (25) 1);
    ("rTau_90", JNum (25) 1);
    ("numClusters_10", JInt (3));
    ("numClusters_20", JInt (3));
    ("numClusters_30", JInt (3));
    ("numClusters_40", JInt (3));
    ("numClusters_50", JInt (3));
    ("numClusters_60", JInt (3));
    ("numClusters_70", JInt (2));
    ("numClusters_80", JInt (2));
    ("numClusters_90", JInt (2));
    ("zeta_10", JNum (30) 1);
    ("zeta_20", JNum (30) 1);
    ("zeta_30", JNum (30) 1);
    ("zeta_40", JNum (30) 1);
    ("zeta_50", JNum (30) 1);
    ("zeta_60", JNum (30) 1);
    ("zeta_70", JNum (30) 1);
    ("zeta_80", JNum (30) 1);
    ("zeta_90", JNum (30) 1);
    ("cDS_10", JNum (16) 1);
    ("cDS_20", JNum (16) 1);
    ("cDS_30", JNum (16) 1);
    ("cDS_40", JNum (16) 1);
    ("cDS_50", JNum (16) 1);
    ("cDS_60", JNum (16) 1);
    ("cDS_70", JNum (16) 1);
    ("cDS_80", JNum (16) 1);
    ("cDS_90", JNum (16) 1);
    ("cASD_10", JNum (0) 1);
    ("cASD_20", JNum (0) 1);
    ("cASD_30", JNum (0) 1);
    ("cASD_40", JNum (0) 1);
    ("cASD_50", JNum (0) 1);
    ("cASD_60", JNum (0) 1);
    ("cASD_70", JNum (0) 1);
    ("cASD_80", JNum (0) 1);
    ("cASD_90", JNum (0) 1);
    ("cASA_10", JNum (110) 1);
    ("cASA_20", JNum (110) 1);
    ("cASA_30", JNum (110) 1);
    ("cASA_40", JNum (110) 1);
    ("cASA_50", JNum (110) 1);
    ("cASA_60", JNum (110) 1);
    ("cASA_70", JNum (110) 1);
    ("cASA_80", JNum (110) 1);
    ("cASA_90", JNum (110) 1);
    ("cZSA_10", JNum (70) 1);
    ("cZSA_20", JNum (70) 1);
    ("cZSA_30", JNum (70) 1);
    ("cZSA_40", JNum (70) 1);
    ("cZSA_50", JNum (70) 1);
    ("cZSA_60", JNum (70) 1);
    ("cZSA_70", JNum (70) 1);
    ("cZSA_80", JNum (70) 1);
    ("cZSA_90", JNum (70) 1);
    ("LoS_p_10", JNum (782) 3);
    ("LoS_p_20", JNum (869) 3);
    ("LoS_p_30", JNum (919) 3);
    ("LoS_p_40", JNum (929) 3);
    ("LoS_p_50", JNum (935) 3);
    ("LoS_p_60", JNum (94) 2);
    ("LoS_p_70", JNum (949) 3);
    ("LoS_p_80", JNum (952) 3);
    ("LoS_p_90", JNum (998) 3);
    ("CPhiNLoS", JNum (680) 3);
    ("CThetaNLoS", JNum (594) 3);
    ("corrDistDS_10", JNum (300) 1);
    ("corrDistDS_20", JNum (300) 1);
    ("corrDistDS_30", JNum (300) 1);
    ("corrDistDS_40", JNum (300) 1);
    ("corrDistDS_50", JNum (300) 1);
    ("corrDistDS_60", JNum (300) 1);
    ("corrDistDS_70", JNum (300) 1);
    ("corrDistDS_80", JNum (300) 1);
    ("corrDistDS_90", JNum (300) 1);
    ("corrDistASD_10", JNum (180) 1);
    ("corrDistASD_20", JNum (180) 1);
    ("corrDistASD_30", JNum (180) 1);
    ("corrDistASD_40", JNum (180) 1);
    ("corrDistASD_50", JNum (180) 1);
    ("corrDistASD_60", JNum (180) 1);
    ("corrDistASD_70", JNum (180) 1);
    ("corrDistASD_80", JNum (180) 1);
    ("corrDistASD_90", JNum (180) 1);
    ("corrDistASA_10", JNum (150) 1);
    ("corrDistASA_20", JNum (150) 1);
    ("corrDistASA_30", JNum (150) 1);
    ("corrDistASA_40", JNum (150) 1);
    ("corrDistASA_50", JNum (150) 1);
    ("corrDistASA_60", JNum (150) 1);
    ("corrDistASA_70", JNum (150) 1);
    ("corrDistASA_80", JNum (150) 1);
    ("corrDistASA_90", JNum (150) 1);
    ("corrDistSF_10", JNum (370) 1);
    ("corrDistSF_20", JNum (370) 1);
    ("corrDistSF_30", JNum (370) 1);
    ("corrDistSF_40", JNum (370) 1);
    ("corrDistSF_50", JNum (370) 1);
    ("corrDistSF_60", JNum (370) 1);
    ("corrDistSF_70", JNum (370) 1);
    ("corrDistSF_80", JNum (370) 1);
    ("corrDistSF_90", JNum (370) 1);
    ("corrDistK_10", JNum (120) 1);
    ("corrDistK_20", JNum (120) 1);
    ("corrDistK_30", JNum (120) 1);
    ("corrDistK_40", JNum (120) 1);
    ("corrDistK_50", JNum (120) 1);
    ("corrDistK_60", JNum (120) 1);
    ("corrDistK_70", JNum (120) 1);
    ("corrDistK_80", JNum (120) 1);
    ("corrDistK_90", JNum (120) 1);
    ("corrDistZSA_10", JNum (150) 1);
    ("corrDistZSA_20", JNum (150) 1);
    ("corrDistZSA_30", JNum (150) 1);
    ("corrDistZSA_40", JNum (150) 1);
    ("corrDistZSA_50", JNum (150) 1);
    ("corrDistZSA_60", JNum (150) 1);
    ("corrDistZSA_70", JNum (150) 1);
    ("corrDistZSA_80", JNum (150) 1);
    ("corrDistZSA_90", JNum (150) 1);
    ("corrDistZSD_10", JNum (150) 1);
    ("corrDistZSD_20", JNum (150) 1);
    ("corrDistZSD_30", JNum (150) 1);
    ("corrDistZSD_40", JNum (150) 1);
    ("corrDistZSD_50", JNum (150) 1);
    ("corrDistZSD_60", JNum (150) 1);
    ("corrDistZSD_70", JNum (150) 1);
    ("corrDistZSD_80", JNum (150) 1);
    ("corrDistZSD_90", JNum (150) 1);
    ("corrASDvsDS_10", JNum (0) 1);
    ("corrASDvsDS_20", JNum (0) 1);
    ("corrASDvsDS_30", JNum (0) 1);
    ("corrASDvsDS_40", JNum (0) 1);
    ("corrASDvsDS_50", JNum (0) 1);
    ("corrASDvsDS_60", JNum (0) 1);
    ("corrASDvsDS_70", JNum (0) 1);
    ("corrASDvsDS_80", JNum (0) 1);
    ("corrASDvsDS_90", JNum (0) 1);
    ("corrASAvsDS_10", JNum (8) 1);
    ("corrASAvsDS_20", JNum (8) 1);
    ("corrASAvsDS_30", JNum (8) 1);
    ("corrASAvsDS_40", JNum (8) 1);
    ("corrASAvsDS_50", JNum (8) 1);
    ("corrASAvsDS_60", JNum (8) 1);
    ("corrASAvsDS_70", JNum (8) 1);
    ("corrASAvsDS_80", JNum (8) 1);
    ("corrASAvsDS_90", JNum (8) 1);
    ("corrASAvsSF_10", JNum (-5) 1);
    ("corrASAvsSF_20", JNum (-5) 1);
    ("corrASAvsSF_30", JNum (-5) 1);
    ("corrASAvsSF_40", JNum (-5) 1);
    ("corrASAvsSF_50", JNum (-5) 1);
    ("corrASAvsSF_60", JNum (-5) 1);
    ("corrASAvsSF_70", JNum (-5) 1);
    ("corrASAvsSF_80", JNum (-5) 1);
    ("corrASAvsSF_90", JNum (-5) 1);
    ("corrASDvsSF_10", JNum (0) 1);
    ("corrASDvsSF_20", JNum (0) 1);
    ("corrASDvsSF_30", JNum (0) 1);
    ("corrASDvsSF_40", JNum (0) 1);
    ("corrASDvsSF_50", JNum (0) 1);
    ("corrASDvsSF_60", JNum (0) 1);
    ("corrASDvsSF_70", JNum (0) 1);
    ("corrASDvsSF_80", JNum (0) 1);
    ("corrASDvsSF_90", JNum (0) 1);
    ("corrDSvsSF_10", JNum (-4) 1);
    ("corrDSvsSF_20", JNum (-4) 1);
    ("corrDSvsSF_30", JNum (-4) 1);
    ("corrDSvsSF_40", JNum (-4) 1);
    ("corrDSvsSF_50", JNum (-4) 1);
    ("corrDSvsSF_60", JNum (-4) 1);
    ("corrDSvsSF_70", JNum (-4) 1);
    ("corrDSvsSF_80", JNum (-4) 1);
    ("corrDSvsSF_90", JNum (-4) 1);
    ("corrASDvsASA_10", JNum (0) 1);
    ("corrASDvsASA_20", JNum (0) 1);
    ("corrASDvsASA_30", JNum (0) 1);
    ("corrASDvsASA_40", JNum (0) 1);
    ("corrASDvsASA_50", JNum (0) 1);
    ("corrASDvsASA_60", JNum (0) 1);
    ("corrASDvsASA_70", JNum (0) 1);
    ("corrASDvsASA_80", JNum (0) 1);
    ("corrASDvsASA_90", JNum (0) 1);
    ("corrASDvsK_10", JNum (0) 1);
    ("corrASDvsK_20", JNum (0) 1);
    ("corrASDvsK_30", JNum (0) 1);
    ("corrASDvsK_40", JNum (0) 1);
    ("corrASDvsK_50", JNum (0) 1);
    ("corrASDvsK_60", JNum (0) 1);
    ("corrASDvsK_70", JNum (0) 1);
    ("corrASDvsK_80", JNum (0) 1);
    ("corrASDvsK_90", JNum (0) 1);
    ("corrASAvsK_10", JNum (-2) 1);
    ("corrASAvsK_20", JNum (-2) 1);
    ("corrASAvsK_30", JNum (-2) 1);
    ("corrASAvsK_40", JNum (-2) 1);
    ("corrASAvsK_50", JNum (-2) 1);
    ("corrASAvsK_60", JNum (-2) 1);
    ("corrASAvsK_70", JNum (-2) 1);
    ("corrASAvsK_80", JNum (-2) 1);
    ("corrASAvsK_90", JNum (-2) 1);
    ("corrDSvsK_10", JNum (-4) 1);
    ("corrDSvsK_20", JNum (-4) 1);
    ("corrDSvsK_30", JNum (-4) 1);
    ("corrDSvsK_40", JNum (-4) 1);
    ("corrDSvsK_50", JNum (-4) 1);
    ("corrDSvsK_60", JNum (-4) 1);
    ("corrDSvsK_70", JNum (-4) 1);
    ("corrDSvsK_80", JNum (-4) 1);
    ("corrDSvsK_90", JNum (-4) 1);
    ("corrSFvsK_10", JNum (0) 1);
    ("corrSFvsK_20", JNum (0) 1);
    ("corrSFvsK_30", JNum (0) 1);
    ("corrSFvsK_40", JNum (0) 1);
    ("corrSFvsK_50", JNum (0) 1);
    ("corrSFvsK_60", JNum (0) 1);
    ("corrSFvsK_70", JNum (0) 1);
    ("corrSFvsK_80", JNum (0) 1);
    ("corrSFvsK_90", JNum (0) 1);
    ("corrZSDvsSF_10", JNum (0) 1);
    ("corrZSDvsSF_20", JNum (0) 1);
    ("corrZSDvsSF_30", JNum (0) 1);
    ("corrZSDvsSF_40", JNum (0) 1);
    ("corrZSDvsSF_50", JNum (0) 1);
    ("corrZSDvsSF_60", JNum (0) 1);
    ("corrZSDvsSF_70", JNum (0) 1);
    ("corrZSDvsSF_80", JNum (0) 1);
    ("corrZSDvsSF_90", JNum (0) 1);
    ("corrZSAvsSF_10", JNum (-8) 1);
    ("corrZSAvsSF_20", JNum (-8) 1);
    ("corrZSAvsSF_30", JNum (-8) 1);
    ("corrZSAvsSF_40", JNum (-8) 1);
    ("corrZSAvsSF_50", JNum (-8) 1);
    ("corrZSAvsSF_60", JNum (-8) 1);
    ("corrZSAvsSF_70", JNum (-8) 1);
    ("corrZSAvsSF_80", JNum (-8) 1);
    ("corrZSAvsSF_90", JNum (-8) 1);
    ("corrZSDvsK_10", JNum (0) 1);
    ("corrZSDvsK_20", JNum (0) 1);
    ("corrZSDvsK_30", JNum (0) 1);
    ("corrZSDvsK_40", JNum (0) 1);
    ("corrZSDvsK_50", JNum (0) 1);
    ("corrZSDvsK_60", JNum (0) 1);
    ("corrZSDvsK_70", JNum (0) 1);
    ("corrZSDvsK_80", JNum (0) 1);
    ("corrZSDvsK_90", JNum (0) 1);
    ("corrZSAvsK_10", JNum (0) 1);
    ("corrZSAvsK_20", JNum (0) 1);
    ("corrZSAvsK_30", JNum (0) 1);
    ("corrZSAvsK_40", JNum (0) 1);
    ("corrZSAvsK_50", JNum (0) 1);
    ("corrZSAvsK_60", JNum (0) 1);
    ("corrZSAvsK_70", JNum (0) 1);
    ("corrZSAvsK_80", JNum (0) 1);
    ("corrZSAvsK_90", JNum (0) 1);
    ("corrZSDvsDS_10", JNum (0) 1);
    ("corrZSDvsDS_20", JNum (0) 1);
    ("corrZSDvsDS_30", JNum (0) 1);
    ("corrZSDvsDS_40", JNum (0) 1);
    ("corrZSDvsDS_50", JNum (0) 1);
    ("corrZSDvsDS_60", JNum (0) 1);
    ("corrZSDvsDS_70", JNum (0) 1);
    ("corrZSDvsDS_80", JNum (0) 1);
    ("corrZSDvsDS_90", JNum (0) 1);
    ("corrZSAvsDS_10", JNum (0) 1);
    ("corrZSAvsDS_20", JNum (0) 1);
    ("corrZSAvsDS_30", JNum (0) 1);
    ("corrZSAvsDS_40", JNum (0) 1);
    ("corrZSAvsDS_50", JNum (0) 1);
    ("corrZSAvsDS_60", JNum (0) 1);
    ("corrZSAvsDS_70", JNum (0) 1);
    ("corrZSAvsDS_80", JNum (0) 1);
    ("corrZSAvsDS_90", JNum (0) 1);
    ("corrZSDvsASD_10", JNum (0) 1);
    ("corrZSDvsASD_20", JNum (0) 1);
    ("corrZSDvsASD_30", JNum (0) 1);
    ("corrZSDvsASD_40", JNum (0) 1);
    ("corrZSDvsASD_50", JNum (0) 1);
    ("corrZSDvsASD_60", JNum (0) 1);
    ("corrZSDvsASD_70", JNum (0) 1);
    ("corrZSDvsASD_80", JNum (0) 1);
    ("corrZSDvsASD_90", JNum (0) 1);
    ("corrZSAvsASD_10", JNum (0) 1);
    ("corrZSAvsASD_20", JNum (0) 1);
    ("corrZSAvsASD_30", JNum (0) 1);
    ("corrZSAvsASD_40", JNum (0) 1);
    ("corrZSAvsASD_50", JNum (0) 1);
    ("corrZSAvsASD_60", JNum (0) 1);
    ("corrZSAvsASD_70", JNum (0) 1);
    ("corrZSAvsASD_80", JNum (0) 1);
    ("corrZSAvsASD_90", JNum (0) 1);
    ("corrZSDvsASA_10", JNum (0) 1);
    ("corrZSDvsASA_20", JNum (0) 1);
    ("corrZSDvsASA_30", JNum (0) 1);
    ("corrZSDvsASA_40", JNum (0) 1);
    ("corrZSDvsASA_50", JNum (0) 1);
    ("corrZSDvsASA_60", JNum (0) 1);
    ("corrZSDvsASA_70", JNum (0) 1);
    ("corrZSDvsASA_80", JNum (0) 1);
    ("corrZSDvsASA_90", JNum (0) 1);
    ("corrZSAvsASA_10", JNum (4) 1);
    ("corrZSAvsASA_20", JNum (4) 1);
    ("corrZSAvsASA_30", JNum (4) 1);
    ("corrZSAvsASA_40", JNum (4) 1);
    ("corrZSAvsASA_50", JNum (4) 1);
    ("corrZSAvsASA_60", JNum (4) 1);
    ("corrZSAvsASA_70", JNum (4) 1);
    ("corrZSAvsASA_80", JNum (4) 1);
    ("corrZSAvsASA_90", JNum (4) 1);
    ("corrZSDvsZSA_10", JNum (0) 1);
    ("corrZSDvsZSA_20", JNum (0) 1);
    ("corrZSDvsZSA_30", JNum (0) 1);
    ("corrZSDvsZSA_40", JNum (0) 1);
    ("corrZSDvsZSA_50", JNum (0) 1);
    ("corrZSDvsZSA_60", JNum (0) 1);
    ("corrZSDvsZSA_70", JNum (0) 1);
    ("corrZSDvsZSA_80", JNum (0) 1);
    ("corrZSDvsZSA_90", JNum (0) 1) ].

(* /repo/OpenNTN/models/Sub_Urban_LOS_Ka_band_UL.json *)
Definition tab_Sub_Urban_LOS_Ka_band_UL : json_obj :=
  [ ("muDS_10", JNum (-807) 2);
    ("muDS_20", JNum (-861) 2);
    ("muDS_30", JNum (-872) 2);
    ("muDS_40", JNum (-863) 2);
    ("muDS_50", JNum (-854) 2);
    ("muDS_60", JNum (-848) 2);
    ("muDS_70", JNum (-842) 2);
    ("muDS_80", JNum (-839) 2);
    ("muDS_90", JNum (-837) 2);
    ("sigmaDS_10", JNum (46) 2);
    ("sigmaDS_20", JNum (45) 2);
    ("sigmaDS_30", JNum (28) 2);
    ("sigmaDS_40", JNum (17) 2);
    ("sigmaDS_50", JNum (14) 2);
    ("sigmaDS_60", JNum (15) 2);
    ("sigmaDS_70", JNum (9) 2);
    ("sigmaDS_80", JNum (5) 2);
    ("sigmaDS_90", JNum (2) 2);
    ("muASD_10", JNum (-355) 2);
    ("muASD_20", JNum (-369) 2);
    ("muASD_30", JNum (-359) 2);
    ("muASD_40", JNum (-338) 2);
    ("muASD_50", JNum (-323) 2);
    ("muASD_60", JNum (-319) 2);
    ("muASD_70", JNum (-283) 2);
    ("muASD_80", JNum (-266) 2);
    ("muASD_90", JNum (-122) 2);
    ("sigmaASD_10", JNum (48) 2);
    ("sigmaASD_20", JNum (41) 2);
    ("sigmaASD_30", JNum (41) 2);
    ("sigmaASD_40", JNum (35) 2);
    ("sigmaASD_50", JNum (35) 2);
    ("sigmaASD_60", JNum (43) 2);
    ("sigmaASD_70", JNum (33) 2);
    ("sigmaASD_80", JNum (44) 2);
    ("sigmaASD_90", JNum (31) 2);
    ("muASA_10", JNum (89) 2);
    ("muASA_20", JNum (31) 2);
    ("muASA_30", JNum (2) 2);
    ("muASA_40", JNum (-10) 2);
    ("muASA_50", JNum (-19) 2);
    ("muASA_60", JNum (-54) 2);
    ("muASA_70", JNum (-24) 2);
    ("muASA_80", JNum (-52) 2);
    ("muASA_90", JNum (-15) 2);
    ("sigmaASA_10", JNum (67) 2);
    ("sigmaASA_20", JNum (78) 2);
    ("sigmaASA_30", JNum (75) 2);
    ("sigmaASA_40", JNum (65) 2);
    ("sigmaASA_50", JNum (55) 2);
    ("sigmaASA_60", JNum (96) 2);
    ("sigmaASA_70", JNum (43) 2);
    ("sigmaASA_80", JNum (93) 2);
    ("sigmaASA_90", JNum (44) 2);
    ("muZSA_10", JNum (63) 2);
    ("muZSA_20", JNum (76) 2);
    ("muZSA_30", JNum (111) 2);
    ("muZSA_40", JNum (137) 2);
    ("muZSA_50", JNum (153) 2);
    ("muZSA_60", JNum (165) 2);
    ("muZSA_70", JNum (174) 2);
    ("muZSA_80", JNum (182) 2);
    ("muZSA_90", JNum (187) 2);
    ("sigmaZSA_10", JNum (35) 2);
    ("sigmaZSA_20", JNum (30) 2);
    ("sigmaZSA_30", JNum (28) 2);
    ("sigmaZSA_40", JNum (23) 2);
    ("sigmaZSA_50", JNum (23) 2);
    ("sigmaZSA_60", JNum (17) 2);
    ("sigmaZSA_70", JNum (11) 2);
    ("sigmaZSA_80", JNum (5) 2);
    ("sigmaZSA_90", JNum (2) 2);
    ("muZSD_10", JNum (-337) 2);
    ("muZSD_20", JNum (-328) 2);
    ("muZSD_30", JNum (-304) 2);
    ("muZSD_40", JNum (-288) 2);
    ("muZSD_50", JNum (-283) 2);
    ("muZSD_60", JNum (-286) 2);
    ("muZSD_70", JNum (-295) 2);
    ("muZSD_80", JNum (-321) 2);
    ("muZSD_90", JNum (-349) 2);
    ("sigmaZSD_10", JNum (28) 2);
    ("sigmaZSD_20", JNum (27) 2);
    ("sigmaZSD_30", JNum (26) 2);
    ("sigmaZSD_40", JNum (21) 2);
    ("sigmaZSD_50", JNum (18) 2);
    ("sigmaZSD_60", JNum (17) 2);
    ("sigmaZSD_70", JNum (10) 2);
    ("sigmaZSD_80", JNum (7) 2);
    ("sigmaZSD_90", JNum (24) 2);
    ("sigmaSF_10", JNum (19) 1);
    ("sigmaSF_20", JNum (16) 1);
    ("sigmaSF_30", JNum (19) 1);
    ("sigmaSF_40", JNum (23) 1);
    ("sigmaSF_50", JNum (27) 1);
    ("sigmaSF_60", JNum (31) 1);
    ("sigmaSF_70", JNum (30) 1);
    ("sigmaSF_80", JNum (36) 1);
    ("sigmaSF_90", JNum (4) 1);
    ("muK_10", JNum (890) 2);
    ("muK_20", JNum (1400) 2);
    ("muK_30", JNum (1130) 2);
    ("muK_40", JNum (900) 2);
    ("muK_50", JNum (750) 2);
    ("muK_60", JNum (660) 2);
    ("muK_70", JNum (590) 2);
    ("muK_80", JNum (550) 2);
    ("muK_90", JNum (540) 2);
    ("sigmaK_10", JNum (440) 2);
    ("sigmaK_20", JNum (460) 2);
    ("sigmaK_30", JNum (370) 2);
    ("sigmaK_40", JNum (350) 2);
    ("sigmaK_50", JNum (300) 2);
    ("sigmaK_60", JNum (260) 2);
    ("sigmaK_70", JNum (170) 2);
    ("sigmaK_80", JNum (70) 2);
    ("sigmaK_90", JNum (30) 2);
    ("muXPR_10", JNum (232) 1);
    ("muXPR_20", JNum (236) 1);
    ("muXPR_30", JNum (235) 1);
    ("muXPR_40", JNum (234) 1);
    ("muXPR_50", JNum (232) 1);
    ("muXPR_60", JNum (233) 1);
    ("muXPR_70", JNum (234) 1);
    ("muXPR_80", JNum (232) 1);
    ("muXPR_90", JNum (231) 1);
    ("sigmaXPR_10", JNum (50) 1);
    ("sigmaXPR_20", JNum (45) 1);
    ("sigmaXPR_30", JNum (47) 1);
    ("sigmaXPR_40", JNum (52) 1);
    ("sigmaXPR_50", JNum (57) 1);
    ("sigmaXPR_60", JNum (59) 1);
    ("sigmaXPR_70", JNum (62) 1);
    ("sigmaXPR_80", JNum (70) 1);
    ("sigmaXPR_90", JNum (76) 1);
    ("rTau_10", JNum (25) 1);
    ("rTau_20", JNum (25) 1);
    ("rTau_30", JNum (25) 1);
    ("rTau_40", JNum (25) 1);
    ("rTau_50", JNum (25) 1);
    ("rTau_60", JNum (25) 1);
    ("rTau_70", JNum (25) 1);
    ("rTau_80", JNum (25) 1);
    ("rTau_90", JNum (25) 1);
    ("numClusters_10", JInt (3));
    ("numClusters_20", JInt (3));
    ("numClusters_30", JInt (3));
    ("numClusters_40", JInt (3));
    ("numClusters_50", JInt (3));
    ("numClusters_60", JInt (3));
    ("numClusters_70", JInt (2));
    ("numClusters_80", JInt (2));
    ("numClusters_90", JInt (2));
    ("zeta_10", JNum (30) 1);
    ("zeta_20", JNum (30) 1);
    ("zeta_30", JNum (30) 1);
    ("zeta_40", JNum (30) 1);
    ("zeta_50", JNum (30) 1);
    ("zeta_60", JNum (30) 1);
    ("zeta_70", JNum (30) 1);
    ("zeta_80", JNum (30) 1);
    ("zeta_90", JNum (30) 1);
    ("cDS_10", JNum (16) 1);
    ("cDS_20", JNum (16) 1);
    ("cDS_30", JNum (16) 1);
    ("cDS_40", JNum (16) 1);
    ("cDS_50", JNum (16) 1);
    ("cDS_60", JNum (16) 1);
    ("cDS_70", JNum (16) 1);
    ("cDS_80", JNum (16) 1);
    ("cDS_90", JNum (16) 1);
    ("cASD_10", JNum (0) 1);
    ("cASD_20", JNum (0) 1);
    ("cASD_30", JNum (0) 1);
    ("cASD_40", JNum (0) 1);
    ("cASD_50", JNum (0) 1);
    ("cASD_60", JNum (0) 1);
    ("cASD_70", JNum (0) 1);
    ("cASD_80", JNum (0) 1);
    ("cASD_90", JNum (0) 1);
    ("cASA_10", JNum (110) 1);
    ("cASA_20", JNum (110) 1);
    ("cASA_30", JNum (110) 1);
    ("cASA_40", JNum (110) 1);
    ("cASA_50", JNum (110) 1);
    ("cASA_60", JNum (110) 1);
    ("cASA_70", JNum (110) 1);
    ("cASA_80", JNum (110) 1);
    ("cASA_90", JNum (110) 1);
    ("cZSA_10", JNum (70) 1);
    ("cZSA_20", JNum (70) 1);
    ("cZSA_30", JNum (70) 1);
    ("cZSA_40", JNum (70) 1);
    ("cZSA_50", JNum (70) 1);
    ("cZSA_60", JNum (70) 1);
    ("cZSA_70", JNum (70) 1);
    ("cZSA_80", JNum (70) 1);
    ("cZSA_90", JNum (70) 1);
    ("LoS_p_10", JNum (782) 3);
    ("LoS_p_20", JNum (869) 3);
    ("LoS_p_30", JNum (919) 3);
    ("LoS_p_40", JNum (929) 3);
    ("LoS_p_50", JNum (935) 3);
    ("LoS_p_60", JNum (94) 2);
    ("LoS_p_70", JNum (949) 3);
    ("LoS_p_80", JNum (952) 3);
    ("LoS_p_90", JNum (998) 3);
    ("CPhiNLoS", JNum (680) 3);
    ("CThetaNLoS", JNum (594) 3);
    ("corrDistDS_10", JNum (300) 1);
    ("corrDistDS_20", JNum (300) 1);
    ("corrDistDS_30", JNum (300) 1);
    ("corrDistDS_40", JNum (300) 1);
    ("corrDistDS_50", JNum (300) 1);
    ("corrDistDS_60", JNum (300) 1);
    ("corrDistDS_70", JNum (300) 1);
    ("corrDistDS_80", JNum (300) 1);
    ("corrDistDS_90", JNum (300) 1);
    ("corrDistASD_10", JNum (180) 1);
    ("corrDistASD_20", JNum (180) 1);
    ("corrDistASD_30", JNum (180) 1);
    ("corrDistASD_40", JNum (180) 1);
    ("corrDistASD_50", JNum (180) 1);
    ("corrDistASD_60", JNum (180) 1);
    ("corrDistASD_70", JNum (180) 1);
    ("corrDistASD_80", JNum (180) 1);
    ("corrDistASD_90", JNum (180) 1);
    ("corrDistASA_10", JNum (150) 1);
    ("corrDistASA_20", JNum (150) 1);
    ("corrDistASA_30", JNum (150) 1);
    ("corrDistASA_40", JNum (150) 1);
    ("corrDistASA_50", JNum (150) 1);
    ("corrDistASA_60", JNum (150) 1);
    ("corrDistASA_70", JNum (150) 1);
    ("corrDistASA_80", JNum (150) 1);
    ("corrDistASA_90", JNum (150) 1);
    ("corrDistSF_10", JNum (370) 1);
    ("corrDistSF_20", JNum (370) 1);
    ("corrDistSF_30", JNum (370) 1);
    ("corrDistSF_40", JNum (370) 1);
    ("corrDistSF_50", JNum (370) 1);
    ("corrDistSF_60", JNum (370) 1);
    ("corrDistSF_70", JNum (370) 1);
    ("corrDistSF_80", JNum (370) 1);
    ("corrDistSF_90", JNum (370) 1);
    ("corrDistK_10", JNum (120) 1);
    ("corrDistK_20", JNum (120) 1);
    ("corrDistK_30", JNum (120) 1);
    ("corrDistK_40", JNum (120) 1);
    ("corrDistK_50", JNum (120) 1);
    ("corrDistK_60", JNum (120) 1);
    ("corrDistK_70", JNum (120) 1);
    ("corrDistK_80", JNum (120) 1);
    ("corrDistK_90", JNum (120) 1);
    ("corrDistZSA_10", JNum (150) 1);
    ("corrDistZSA_20", JNum (150) 1);
    ("corrDistZSA_30", JNum (150) 1);
    ("corrDistZSA_40", JNum (150) 1);
    ("corrDistZSA_50", JNum (150) 1);
    ("corrDistZSA_60", JNum (150) 1);
    ("corrDistZSA_70", JNum (150) 1);
    ("corrDistZSA_80", JNum (150) 1);
    ("corrDistZSA_90", JNum (150) 1);
    ("corrDistZSD_10", JNum (150) 1);
    ("corrDistZSD_20", JNum (150) 1);
    ("corrDistZSD_30", JNum (150) 1);
    ("corrDistZSD_40", JNum (150) 1);
    ("corrDistZSD_50", JNum (150) 1);
    ("corrDistZSD_60", JNum (150) 1);
    ("corrDistZSD_70", JNum (150) 1);
    ("corrDistZSD_80", JNum (150) 1);
    ("corrDistZSD_90", JNum (150) 1);
    ("corrASDvsDS_10", JNum (4) 1);
    ("corrASDvsDS_20", JNum (4) 1);
    ("corrASDvsDS_30", JNum (4) 1);
    ("corrASDvsDS_40", JNum (4) 1);
    ("corrASDvsDS_50", JNum (4) 1);
    ("corrASDvsDS_60", JNum (4) 1);
    ("corrASDvsDS_70", JNum (4) 1);
    ("corrASDvsDS_80", JNum (4) 1);
    ("corrASDvsDS_90", JNum (4) 1);
    ("corrASAvsDS_10", JNum (8) 1);
    ("corrASAvsDS_20", JNum (8) 1);
    ("corrASAvsDS_30", JNum (8) 1);
    ("corrASAvsDS_40", JNum (8) 1);
    ("corrASAvsDS_50", JNum (8) 1);
    ("corrASAvsDS_60", JNum (8) 1);
    ("corrASAvsDS_70", JNum (8) 1);
    ("corrASAvsDS_80", JNum (8) 1);
    ("corrASAvsDS_90", JNum (8) 1);
    ("corrASAvsSF_10", JNum (-5) 1);
    ("corrASAvsSF_20", JNum (-5) 1);
    ("corrASAvsSF_30", JNum (-5) 1);
    ("corrASAvsSF_40", JNum (-5) 1);
    ("corrASAvsSF_50", JNum (-5) 1);
    ("corrASAvsSF_60", JNum (-5) 1);
    ("corrASAvsSF_70", JNum (-5) 1);
    ("corrASAvsSF_80", JNum (-5) 1);
    ("corrASAvsSF_90", JNum (-5) 1);
    ("corrASDvsSF_10", JNum (-5) 1);
    ("corrASDvsSF_20", JNum (-5) 1);
    ("corrASDvsSF_30", JNum (-5) 1);
    ("corrASDvsSF_40", JNum (-5) 1);
    ("corrASDvsSF_50", JNum (-5) 1);
    ("corrASDvsSF_60", JNum (-5) 1);
    ("corrASDvsSF_70", JNum (-5) 1);
    ("corrASDvsSF_80", JNum (-5) 1);
    ("corrASDvsSF_90", JNum (-5) 1);
    ("corrDSvsSF_10", JNum (-4) 1);
    ("corrDSvsSF_20", JNum (-4) 1);
    ("corrDSvsSF_30", JNum (-4) 1);
    ("corrDSvsSF_40", JNum (-4) 1);
    ("corrDSvsSF_50", JNum (-4) 1);
    ("corrDSvsSF_60", JNum (-4) 1);
    ("corrDSvsSF_70", JNum (-4) 1);
    ("corrDSvsSF_80", JNum (-4) 1);
    ("corrDSvsSF_90", JNum (-4) 1);
    ("corrASDvsASA_10", JNum (0) 1);
    ("corrASDvsASA_20", JNum (0) 1);
    ("corrASDvsASA_30", JNum (0) 1);
    ("corrASDvsASA_40", JNum (0) 1);
    ("corrASDvsASA_50", JNum (0) 1);
    ("corrASDvsASA_60", JNum (0) 1);
    ("corrASDvsASA_70", JNum (0) 1);
    ("corrASDvsASA_80", JNum (0) 1);
    ("corrASDvsASA_90", JNum (0) 1);
    ("corrASDvsK_10", JNum (0) 1);
    ("corrASDvsK_20", JNum (0) 1);
    ("corrASDvsK_30", JNum (0) 1);
    ("corrASDvsK_40", JNum (0) 1);
    ("corrASDvsK_50", JNum (0) 1);
    ("corrASDvsK_60", JNum (0) 1);
    ("corrASDvsK_70", JNum (0) 1);
    ("corrASDvsK_80", JNum (0) 1);
    ("corrASDvsK_90", JNum (0) 1);
    ("corrASAvsK_10", JNum (-2) 1);
    ("corrASAvsK_20", JNum (-2) 1);
    ("corrASAvsK_30", JNum (-2) 1);
    ("corrASAvsK_40", JNum (-2) 1);
    ("corrASAvsK_50", JNum (-2) 1);
    ("corrASAvsK_60", JNum (-2) 1);
    ("corrASAvsK_70", JNum (-2) 1);
    ("corrASAvsK_80", JNum (-2) 1);
    ("corrASAvsK_90", JNum (-2) 1);
    ("corrDSvsK_10", JNum (-4) 1);
    ("corrDSvsK_20", JNum (-4) 1);
    ("corrDSvsK_30", JNum (-4) 1);
    ("corrDSvsK_40", JNum (-4) 1);
    ("corrDSvsK_50", JNum (-4) 1);
    ("corrDSvsK_60", JNum (-4) 1);
    ("corrDSvsK_70", JNum (-4) 1);
    ("corrDSvsK_80", JNum (-4) 1);
    ("corrDSvsK_90", JNum (-4) 1);
    ("corrSFvsK_10", JNum (0) 1);
    ("corrSFvsK_20", JNum (0) 1);
    ("corrSFvsK_30", JNum (0) 1);
    ("corrSFvsK_40", JNum (0) 1);
    ("corrSFvsK_50", JNum (0) 1);
    ("corrSFvsK_60", JNum (0) 1);
    ("corrSFvsK_70", JNum (0) 1);
    ("corrSFvsK_80", JNum (0) 1);
    ("corrSFvsK_90", JNum (0) 1);
    ("corrZSDvsSF_10", JNum (0) 1);
    ("corrZSDvsSF_20", JNum (0) 1);
    ("corrZSDvsSF_30", JNum (0) 1);
    ("corrZSDvsSF_40", JNum (0) 1);
    ("corrZSDvsSF_50", JNum (0) 1);
    ("corrZSDvsSF_60", JNum (0) 1);
    ("corrZSDvsSF_70", JNum (0) 1);
    ("corrZSDvsSF_80", JNum (0) 1);
    ("corrZSDvsSF_90", JNum (0) 1);
    ("corrZSAvsSF_10", JNum (-8) 1);
    ("corrZSAvsSF_20", JNum (-8) 1);
    ("corrZSAvsSF_30", JNum (-8) 1);
    ("corrZSAvsSF_40", JNum (-8) 1);
    ("corrZSAvsSF_50", JNum (-8) 1);
    ("corrZSAvsSF_60", JNum (-8) 1);
    ("corrZSAvsSF_70", JNum (-8) 1);
    ("corrZSAvsSF_80", JNum (-8) 1);
    ("corrZSAvsSF_90", JNum (-8) 1);
    ("corrZSDvsK_10", JNum (0) 1);
    ("corrZSDvsK_20", JNum (0) 1);
    ("corrZSDvsK_30", JNum (0) 1);
    ("corrZSDvsK_40", JNum (0) 1);
    ("corrZSDvsK_50", JNum (0) 1);
    ("corrZSDvsK_60", JNum (0) 1);
    ("corrZSDvsK_70", JNum (0) 1);
    ("corrZSDvsK_80", JNum (0) 1);
    ("corrZSDvsK_90", JNum (0) 1);
    ("corrZSAvsK_10", JNum (0) 1);
    ("corrZSAvsK_20", JNum (0) 1);
    ("corrZSAvsK_30", JNum (0) 1);
    ("corrZSAvsK_40", JNum (0) 1);
    ("corrZSAvsK_50", JNum (0) 1);
    ("corrZSAvsK_60", JNum (0) 1);
    ("corrZSAvsK_70", JNum (0) 1);
    ("corrZSAvsK_80", JNum (0) 1);
    ("corrZSAvsK_90", JNum (0) 1);
    ("corrZSDvsDS_10", JNum (-2) 1);
    ("corrZSDvsDS_20", JNum (-2) 1);
    ("corrZSDvsDS_30", JNum (-2) 1);
    ("corrZSDvsDS_40", JNum (-2) 1);
    ("corrZSDvsDS_50", JNum (-2) 1);
    ("corrZSDvsDS_60", JNum (-2) 1);
    ("corrZSDvsDS_70", JNum (-2) 1);
    ("corrZSDvsDS_80", JNum (-2) 1);
    ("corrZSDvsDS_90", JNum (-2) 1);
    ("corrZSAvsDS_10", JNum (0) 1);
    ("corrZSAvsDS_20", JNum (0) 1);
    ("corrZSAvsDS_30", JNum (0) 1);
    ("corrZSAvsDS_40", JNum (0) 1);
    ("corrZSAvsDS_50", JNum (0) 1);
    ("corrZSAvsDS_60", JNum (0) 1);
    ("corrZSAvsDS_70", JNum (0) 1);
    ("corrZSAvsDS_80", JNum (0) 1);
    ("corrZSAvsDS_90", JNum (0) 1);
    ("corrZSDvsASD_10", JNum (5) 1);
    ("corrZSDvsASD_20", JNum (5) 1);
    ("corrZSDvsASD_30", JNum (5) 1);
    ("corrZSDvsASD_40", JNum (5) 1);
    ("corrZSDvsASD_50", JNum (5) 1);
    ("corrZSDvsASD_60", JNum (5) 1);
    ("corrZSDvsASD_70", JNum (5) 1);
    ("corrZSDvsASD_80", JNum (5) 1);
    ("corrZSDvsASD_90", JNum (5) 1);
    ("corrZSAvsASD_10", JNum (0) 1);
    ("corrZSAvsASD_20", JNum (0) 1);
    ("corrZSAvsASD_30", JNum (0) 1);
    ("corrZSAvsASD_40", JNum (0) 1);
    ("corrZSAvsASD_50", JNum (0) 1);
    ("corrZSAvsASD_60", JNum (0) 1);
    ("corrZSAvsASD_70", JNum (0) 1);
    ("corrZSAvsASD_80", JNum (0) 1);
    ("corrZSAvsASD_90", JNum (0) 1);
    ("corrZSDvsASA_10", JNum (-3) 1);
    ("corrZSDvsASA_20", JNum (-3) 1);
    ("corrZSDvsASA_30", JNum (-3) 1);
    ("corrZSDvsASA_40", JNum (-3) 1);
    ("corrZSDvsASA_50", JNum (-3) 1);
    ("corrZSDvsASA_60", JNum (-3) 1);
    ("corrZSDvsASA_70", JNum (-3) 1);
    ("corrZSDvsASA_80", JNum (-3) 1);
    ("corrZSDvsASA_90", JNum (-3) 1);
    ("corrZSAvsASA_10", JNum (4) 1);
    ("corrZSAvsASA_20", JNum (4) 1);
    ("corrZSAvsASA_30", JNum (4) 1);
    ("corrZSAvsASA_40", JNum (4) 1);
    ("corrZSAvsASA_50", JNum (4) 1);
    ("corrZSAvsASA_60", JNum (4) 1);
    ("corrZSAvsASA_70", JNum (4) 1);
    ("corrZSAvsASA_80", JNum (4) 1);
    ("corrZSAvsASA_90", JNum (4) 1);
    ("corrZSDvsZSA_10", JNum (0) 1);
    ("corrZSDvsZSA_20", JNum (0) 1);
    ("corrZSDvsZSA_30", JNum (0) 1);
    ("corrZSDvsZSA_40", JNum (0) 1);
    ("corrZSDvsZSA_50", JNum (0) 1);
    ("corrZSDvsZSA_60", JNum (0) 1);
    ("corrZSDvsZSA_70", JNum (0) 1);
    ("corrZSDvsZSA_80", JNum (0) 1);
    ("corrZSDvsZSA_90", JNum (0) 1) ].

(* /repo/OpenNTN/models/Sub_Urban_LOS_S_band_DL.json *)
Definition tab_Sub_Urban_LOS_S_band_DL : json_obj :=
  [ ("muDS_10", JNum (-816) 2);
    ("muDS_20", JNum (-856) 2);
    ("muDS_30", JNum (-872) 2);
    ("muDS_40", JNum (-871) 2);
    ("muDS_50", JNum (-872) 2);
    ("muDS_60", JNum (-866) 2);
    ("muDS_70", JNum (-838) 2);
    ("muDS_80", JNum (-834) 2);
    ("muDS_90", JNum (-834) 2);
    ("sigmaDS_10", JNum (99) 2);
    ("sigmaDS_20", JNum (96) 2);
    ("sigmaDS_30", JNum (79) 2);
    ("sigmaDS_40", JNum (81) 2);
    ("sigmaDS_50", JNum (112) 2);
    ("sigmaDS_60", JNum (123) 2);
    ("sigmaDS_70", JNum (55) 2);
    ("sigmaDS_80", JNum (63) 2);
    ("sigmaDS_90", JNum (63) 2);
    ("muASD_10", JStr "-inf");
    ("muASD_20", JStr "-inf");
    ("muASD_30", JStr "-inf");
    ("muASD_40", JStr "-inf");
    ("muASD_50", JStr "-inf");
    ("muASD_60", JStr "-inf");
    ("muASD_70", JStr "-inf");
    ("muASD_80", JStr "-inf");
    ("muASD_90", JStr "-inf");
    ("sigmaASD_10", JNum (0) 1);
    ("sigmaASD_20", JNum (0) 1);
    ("sigmaASD_30", JNum (0) 1);
    ("sigmaASD_40", JNum (0) 1);
    ("sigmaASD_50", JNum (0) 1);
    ("sigmaASD_60", JNum (0) 1);
    ("sigmaASD_70", JNum (0) 1);
    ("sigmaASD_80", JNum (0) 1);
    ("sigmaASD_90", JNum (0) 1);
    ("muASA_10", JNum (5) 2);
    ("muASA_20", JNum (-38) 2);
    ("muASA_30", JNum (-56) 2);
    ("muASA_40", JNum (-59) 2);
    ("muASA_50", JNum (-58) 2);
    ("muASA_60", JNum (-55) 2);
    ("muASA_70", JNum (-28) 2);
    ("muASA_80", JNum (-17) 2);
    ("muASA_90", JNum (-17) 2);
    ("sigmaASA_10", JNum (184) 2);
    ("sigmaASA_20", JNum (194) 2);
    ("sigmaASA_30", JNum (175) 2);
    ("sigmaASA_40", JNum (182) 2);
    ("sigmaASA_50", JNum (187) 2);
    ("sigmaASA_60", JNum (192) 2);
    ("sigmaASA_70", JNum (116) 2);
    ("sigmaASA_80", JNum (109) 2);
    ("sigmaASA_90", JNum (109) 2);
    ("muZSA_10", JNum (-178) 2);
    ("muZSA_20", JNum (-184) 2);
    ("muZSA_30", JNum (-167) 2);
    ("muZSA_40", JNum (-159) 2);
    ("muZSA_50", JNum (-155) 2);
    ("muZSA_60", JNum (-151) 2);
    ("muZSA_70", JNum (-127) 2);
    ("muZSA_80", JNum (-128) 2);
    ("muZSA_90", JNum (-128) 2);
    ("sigmaZSA_10", JNum (62) 2);
    ("sigmaZSA_20", JNum (81) 2);
    ("sigmaZSA_30", JNum (57) 2);
    ("sigmaZSA_40", JNum (86) 2);
    ("sigmaZSA_50", JNum (105) 2);
    ("sigmaZSA_60", JNum (123) 2);
    ("sigmaZSA_70", JNum (54) 2);
    ("sigmaZSA_80", JNum (67) 2);
    ("sigmaZSA_90", JNum (67) 2);
    ("muZSD_10", JStr "-inf");
    ("muZSD_20", JStr "-inf");
    ("muZSD_30", JStr "-inf");
    ("muZSD_40", JStr "-inf");
    ("muZSD_50", JStr "-inf");
    ("muZSD_60", JStr "-inf");
    ("muZSD_70", JStr "-inf");
    ("muZSD_80", JStr "-inf");
    ("muZSD_90", JStr "-inf");
    ("sigmaZSD_10", JNum (0) 1);
    ("sigmaZSD_20", JNum (0) 1);
    ("sigmaZSD_30", JNum (0) 1);
    ("sigmaZSD_40", JNum (0) 1);
    ("sigmaZSD_50", JNum (0) 1);
    ("sigmaZSD_60", JNum (0) 1);
    ("sigmaZSD_70", JNum (0) 1);
    ("sigmaZSD_80", JNum (0) 1);
    ("sigmaZSD_90", JNum (0) 1);
    ("sigmaSF_10", JNum (179) 2);
    ("sigmaSF_20", JNum (114) 2);
    ("sigmaSF_30", JNum (114) 2);
    ("sigmaSF_40", JNum (92) 2);
    ("sigmaSF_50", JNum (142) 2);
    ("sigmaSF_60", JNum (156) 2);
    ("sigmaSF_70", JNum (85) 2);
    ("sigmaSF_80", JNum (72) 2);
    ("sigmaSF_90", JNum (72) 2);
    ("muK_10", JNum (1140) 2);
    ("muK_20", JNum (1945) 2);
    ("muK_30", JNum (2080) 2);
    ("muK_40", JNum (2120) 2);
    ("muK_50", JNum (2160) 2);
    ("muK_60", JNum (1975) 2);
    ("muK_70", JNum (1200) 2);
    ("muK_80", JNum (1285) 2);
    ("muK_90", JNum (1285) 2);
    ("sigmaK_10", JNum (626) 2);
    ("sigmaK_20", JNum (1032) 2);
    ("sigmaK_30", JNum (1634) 2);
    ("sigmaK_40", JNum (1563) 2);
    ("sigmaK_50", JNum (1422) 2);
    ("sigmaK_60", JNum (1419) 2);
    ("sigmaK_70", JNum (570) 2);
    ("sigmaK_80", JNum (991) 2);
    ("sigmaK_90", JNum (991) 2);
    ("muXPR_10", JNum (213) 1);
    ("muXPR_20", JNum (2100) 2);
    ("muXPR_30", JNum (2120) 2);
    ("muXPR_40", JNum (2110) 2);
    ("muXPR_50", JNum (2070) 2);
    ("muXPR_60", JNum (2060) 2);
    ("muXPR_70", JNum (2030) 2);
    ("muXPR_80", JNum (1980) 2);
    ("muXPR_90", JNum (1910) 2);
    ("sigmaXPR_10", JNum (76) 1);
    ("sigmaXPR_20", JNum (89) 1);
    ("sigmaXPR_30", JNum (85) 1);
    ("sigmaXPR_40", JNum (84) 1);
    ("sigmaXPR_50", JNum (92) 1);
    ("sigmaXPR_60", JNum (98) 1);
    ("sigmaXPR_70", JNum (108) 1);
    ("sigmaXPR_80", JNum (122) 1);
    ("sigmaXPR_90", JInt (13));
    ("rTau_10", JNum (220) 2);
    ("rTau_20", JNum (336) 2);
    ("rTau_30", JNum (350) 2);
    ("rTau_40", JNum (281) 2);
    ("rTau_50", JNum (239) 2);
    ("rTau_60", JNum (273) 2);
    ("rTau_70", JNum (207) 2);
    ("rTau_80", JNum (204) 2);
    ("rTau_90", JNum (204) 2);
    ("numClusters_10", JInt (3));
    ("numClusters_20", JInt (3));
    ("numClusters_30", JInt (3));
    ("numClusters_40", JInt (3));
    ("numClusters_50", JInt (3));
    ("numClusters_60", JInt (3));
    ("numClusters_70", JInt (2));
    ("numClusters_80", JInt (2));
    ("numClusters_90", JInt (2));
    ("zeta_10", JNum (30) 1);
    ("zeta_20", JNum (30) 1);
    ("zeta_30", JNum (30) 1);
    ("zeta_40", JNum (30) 1);
    ("zeta_50", JNum (30) 1);
    ("zeta_60", JNum (30) 1);
    ("zeta_70", JNum (30) 1);
    ("zeta_80", JNum (30) 1);
    ("zeta_90", JNum (30) 1);
    ("cDS_10", JNum (16) 1);
    ("cDS_20", JNum (16) 1);
    ("cDS_30", JNum (16) 1);
    ("cDS_40", JNum (16) 1);
    ("cDS_50", JNum (16) 1);
    ("cDS_60", JNum (16) 1);
    ("cDS_70", JNum (16) 1);
    ("cDS_80", JNum (16) 1);
    ("cDS_90", JNum (16) 1);
    ("cASD_10", JNum (0) 1);
    ("cASD_20", JNum (0) 1);
    ("cASD_30", JNum (0) 1);
    ("cASD_40", JNum (0) 1);
    ("cASD_50", JNum (0) 1);
    ("cASD_60", JNum (0) 1);
    ("cASD_70", JNum (0) 1);
    ("cASD_80", JNum (0) 1);
    ("cASD_90", JNum (0) 1);
    ("cASA_10", JNum (110) 1);
    ("cASA_20", JNum (110) 1);
    ("cASA_30", JNum (110) 1);
    ("cASA_40", JNum (110) 1);
    ("cASA_50", JNum (110) 1);
    ("cASA_60", JNum (110) 1);
    ("cASA_70", JNum (110) 1);
    ("cASA_80", JNum (110) 1);
    ("cASA_90", JNum (110) 1);
    ("cZSA_10", JNum (70) 1);
    ("cZSA_20", JNum (70) 1);
    ("cZSA_30", JNum (70) 1);
    ("cZSA_40", JNum (70) 1);
    ("cZSA_50", JNum (70) 1);
    ("cZSA_60", JNum (70) 1);
    ("cZSA_70", JNum (70) 1);
    ("cZSA_80", JNum (70) 1);
    ("cZSA_90", JNum (70) 1);
    ("LoS_p_10", JNum (782) 3);
    ("LoS_p_20", JNum (869) 3);
    ("LoS_p_30", JNum (919) 3);
    ("LoS_p_40", JNum (929) 3);
    ("LoS_p_50", JNum (935) 3);
    ("LoS_p_60", JNum (94) 2);
    ("LoS_p_70", JNum (949) 3);
    ("LoS_p_80", JNum (952) 3);
    ("LoS_p_90", JNum (998) 3);
    ("CPhiNLoS", JNum (680) 3);
    ("CThetaNLoS", JNum (594) 3);
    ("corrDistDS_10", JNum (300) 1);
    ("corrDistDS_20", JNum (300) 1);
    ("corrDistDS_30", JNum (300) 1);
    ("corrDistDS_40", JNum (300) 1);
    ("corrDistDS_50", JNum (300) 1);
    ("corrDistDS_60", JNum (300) 1);
    ("corrDistDS_70", JNum (300) 1);
    ("corrDistDS_80", JNum (300) 1);
    ("corrDistDS_90", JNum (300) 1);
    ("corrDistASD_10", JNum (180) 1);
    ("corrDistASD_20", JNum (180) 1);
    ("corrDistASD_30", JNum (180) 1);
    ("corrDistASD_40", JNum (180) 1);
    ("corrDistASD_50", JNum (180) 1);
    ("corrDistASD_60", JNum (180) 1);
    ("corrDistASD_70", JNum (180) 1);
    ("corrDistASD_80", JNum (180) 1);
    ("corrDistASD_90", JNum (180) 1);
    ("corrDistASA_10", JNum (150) 1);
    ("corrDistASA_20", JNum (150) 1);
    ("corrDistASA_30", JNum (150) 1);
    ("corrDistASA_40", JNum (150) 1);
    ("corrDistASA_50", JNum (150) 1);
    ("corrDistASA_60", JNum (150) 1);
    ("corrDistASA_70", JNum (150) 1);
    ("corrDistASA_80", JNum (150) 1);
    ("corrDistASA_90", JNum (150) 1);
    ("corrDistSF_10", JNum (370) 1);
    ("corrDistSF_20", JNum (370) 1);
    ("corrDistSF_30", JNum (370) 1);
    ("corrDistSF_40", JNum (370) 1);
    ("corrDistSF_50", JNum (370) 1);
    ("corrDistSF_60", JNum (370) 1);
    ("corrDistSF_70", JNum (370) 1);
    ("corrDistSF_80", JNum (370) 1);
    ("corrDistSF_90", JNum (370) 1);
    ("corrDistK_10", JNum (120) 1);
    ("corrDistK_20", JNum (120) 1);
    ("corrDistK_30", JNum (120) 1);
    ("corrDistK_40", JNum (120) 1);
    ("corrDistK_50", JNum (120) 1);
    ("corrDistK_60", JNum (120) 1);
    ("corrDistK_70", JNum (120) 1);
    ("corrDistK_80", JNum (120) 1);
    ("corrDistK_90", JNum (120) 1);
    ("corrDistZSA_10", JNum (150) 1);
    ("corrDistZSA_20", JNum (150) 1);
    ("corrDistZSA_30", JNum (150) 1);
    ("corrDistZSA_40", JNum (150) 1);
    ("corrDistZSA_50", JNum (150) 1);
    ("corrDistZSA_60", JNum (150) 1);
    ("corrDistZSA_70", JNum (150) 1);
    ("corrDistZSA_80", JNum (150) 1);
    ("corrDistZSA_90", JNum (150) 1);
    ("corrDistZSD_10", JNum (150) 1);
    ("corrDistZSD_20", JNum (150) 1);
    ("corrDistZSD_30", JNum (150) 1);
    ("corrDistZSD_40", JNum (150) 1);
    ("corrDistZSD_50", JNum (150) 1);
    ("corrDistZSD_60", JNum (150) 1);
    ("corrDistZSD_70", JNum (150) 1);
    ("corrDistZSD_80", JNum (150) 1);
    ("corrDistZSD_90", JNum (150) 1);
    ("corrASDvsDS_10", JNum (0) 1);
    ("corrASDvsDS_20", JNum (0) 1);
    ("corrASDvsDS_30", JNum (0) 1);
    ("corrASDvsDS_40", JNum (0) 1);
    ("corrASDvsDS_50", JNum (0) 1);
    ("corrASDvsDS_60", JNum (0) 1);
    ("corrASDvsDS_70", JNum (0) 1);
    ("corrASDvsDS_80", JNum (0) 1);
    ("corrASDvsDS_90", JNum (0) 1);
    ("corrASAvsDS_10", JNum (8) 1);
    ("corrASAvsDS_20", JNum (8) 1);
    ("corrASAvsDS_30", JNum (8) 1);
    ("corrASAvsDS_40", JNum (8) 1);
    ("corrASAvsDS_50", JNum (8) 1);
    ("corrASAvsDS_60", JNum (8) 1);
    ("corrASAvsDS_70", JNum (8) 1);
    ("corrASAvsDS_80", JNum (8) 1);
    ("corrASAvsDS_90", JNum (8) 1);
    ("corrASAvsSF_10", JNum (-5) 1);
    ("corrASAvsSF_20", JNum (-5) 1);
    ("corrASAvsSF_30", JNum (-5) 1);
    ("corrASAvsSF_40", JNum (-5) 1);
    ("corrASAvsSF_50", JNum (-5) 1);
    ("corrASAvsSF_60", JNum (-5) 1);
    ("corrASAvsSF_70", JNum (-5) 1);
    ("corrASAvsSF_80", JNum (-5) 1);
    ("corrASAvsSF_90", JNum (-5) 1);
    ("corrASDvsSF_10", JNum (0) 1);
    ("corrASDvsSF_20", JNum (0) 1);
    ("corrASDvsSF_30", JNum (0) 1);
    ("corrASDvsSF_40", JNum (0) 1);
    ("corrASDvsSF_50", JNum (0) 1);
    ("corrASDvsSF_60", JNum (0) 1);
    ("corrASDvsSF_70", JNum (0) 1);
    ("corrASDvsSF_80", JNum (0) 1);
    ("corrASDvsSF_90", JNum (0) 1);
    ("corrDSvsSF_10", JNum (-4) 1);
    ("corrDSvsSF_20", JNum (-4) 1);
    ("corrDSvsSF_30", JNum (-4) 1);
    ("corrDSvsSF_40", JNum (-4) 1);
    ("corrDSvsSF_50", JNum (-4) 1);
    ("corrDSvsSF_60", JNum (-4) 1);
    ("corrDSvsSF_70", JNum (-4) 1);
    ("corrDSvsSF_80", JNum (-4) 1);
    ("corrDSvsSF_90", JNum (-4) 1);
    ("corrASDvsASA_10", JNum (0) 1);
    ("corrASDvsASA_20", JNum (0) 1);
    ("corrASDvsASA_30", JNum (0) 1);
    ("corrASDvsASA_40", JNum (0) 1);
    ("corrASDvsASA_50", JNum (0) 1);
    ("corrASDvsASA_60", JNum (0) 1);
    ("corrASDvsASA_70", JNum (0) 1);
    ("corrASDvsASA_80", JNum (0) 1);
    ("corrASDvsASA_90", JNum (0) 1);
    ("corrASDvsK_10", JNum (0) 1);
    ("corrASDvsK_20", JNum (0) 1);
    ("corrASDvsK_30", JNum (0) 1);
    ("corrASDvsK_40", JNum (0) 1);
    ("corrASDvsK_50", JNum (0) 1);
    ("corrASDvsK_60", JNum (0) 1);
    ("corrASDvsK_70", JNum (0) 1);
    ("corrASDvsK_80", JNum (0) 1);
    ("corrASDvsK_90", JNum (0) 1);
    ("corrASAvsK_10", JNum (-2) 1);
    ("corrASAvsK_20", JNum (-2) 1);
    ("corrASAvsK_30", JNum (-2) 1);
    ("corrASAvsK_40", JNum (-2) 1);
    ("corrASAvsK_50", JNum (-2) 1);
    ("corrASAvsK_60", JNum (-2) 1);
    ("corrASAvsK_70", JNum (-2) 1);
    ("corrASAvsK_80", JNum (-2) 1);
    ("corrASAvsK_90", JNum (-2) 1);
    ("corrDSvsK_10", JNum (-4) 1);
    ("corrDSvsK_20", JNum (-4) 1);
    ("corrDSvsK_30", JNum (-4) 1);
    ("corrDSvsK_40", JNum (-4) 1);
    ("corrDSvsK_50", JNum (-4) 1);
    ("corrDSvsK_60", JNum (-4) 1);
    ("corrDSvsK_70", JNum (-4) 1);
    ("corrDSvsK_80", JNum (-4) 1);
    ("corrDSvsK_90", JNum (-4) 1);
    ("corrSFvsK_10", JNum (0) 1);
    ("corrSFvsK_20", JNum (0) 1);
    ("corrSFvsK_30", JNum (0) 1);
    ("corrSFvsK_40", JNum (0) 1);
    ("corrSFvsK_50", JNum (0) 1);
    ("corrSFvsK_60", JNum (0) 1);
    ("corrSFvsK_70", JNum (0) 1);
    ("corrSFvsK_80", JNum (0) 1);
    ("corrSFvsK_90", JNum (0) 1);
    ("corrZSDvsSF_10", JNum (0) 1);
    ("corrZSDvsSF_20", JNum (0) 1);
    ("corrZSDvsSF_30", JNum (0) 1);
    ("corrZSDvsSF_40", JNum (0) 1);
    ("corrZSDvsSF_50", JNum (0) 1);
    ("corrZSDvsSF_60", JNum (0) 1);
    ("corrZSDvsSF_70", JNum (0) 1);
    ("corrZSDvsSF_80", JNum (0) 1);
    ("corrZSDvsSF_90", JNum (0) 1);
    ("corrZSAvsSF_10", JNum (-8) 1);
    ("corrZSAvsSF_20", JNum (-8) 1);
    ("corrZSAvsSF_30", JNum (-8) 1);
    ("corrZSAvsSF_40", JNum (-8) 1);
    ("corrZSAvsSF_50", JNum (-8) 1);
    ("corrZSAvsSF_60", JNum (-8) 1);
    ("corrZSAvsSF_70", JNum (-8) 1);
    ("corrZSAvsSF_80", JNum (-8) 1);
    ("corrZSAvsSF_90", JNum (-8) 1);
    ("corrZSDvsK_10", JNum (0) 1);
    ("corrZSDvsK_20", JNum (0) 1);
    ("corrZSDvsK_30", JNum (0) 1);
    ("corrZSDvsK_40", JNum (0) 1);
    ("corrZSDvsK_50", JNum (0) 1);
    ("corrZSDvsK_60", JNum (0) 1);
    ("corrZSDvsK_70", JNum (0) 1);
    ("corrZSDvsK_80", JNum (0) 1);
    ("corrZSDvsK_90", JNum (0) 1);
    ("corrZSAvsK_10", JNum (0) 1);
    ("corrZSAvsK_20", JNum (0) 1);
    ("corrZSAvsK_30", JNum (0) 1);
    ("corrZSAvsK_40", JNum (0) 1);
    ("corrZSAvsK_50", JNum (0) 1);
    ("corrZSAvsK_60", JNum (0) 1);
    ("corrZSAvsK_70", JNum (0) 1);
    ("corrZSAvsK_80", JNum (0) 1);
    ("corrZSAvsK_90", JNum (0) 1);
    ("corrZSDvsDS_10", JNum (0) 1);
    ("corrZSDvsDS_20", JNum (0) 1);
    ("corrZSDvsDS_30", JNum (0) 1);
    ("corrZSDvsDS_40", JNum (0) 1);
    ("corrZSDvsDS_50", JNum (0) 1);
    ("corrZSDvsDS_60", JNum (0) 1);
    ("corrZSDvsDS_70", JNum (0) 1);
    ("corrZSDvsDS_80", JNum (0) 1);
    ("corrZSDvsDS_90", JNum (0) 1);
    ("corrZSAvsDS_10", JNum (0) 1);
    ("corrZSAvsDS_20", JNum (0) 1);
    ("corrZSAvsDS_30", JNum (0) 1);
    ("corrZSAvsDS_40", JNum (0) 1);
    ("corrZSAvsDS_50", JNum (0) 1);
    ("corrZSAvsDS_60", JNum (0) 1);
    ("corrZSAvsDS_70", JNum (0) 1);
    ("corrZSAvsDS_80", JNum (0) 1);
    ("corrZSAvsDS_90", JNum (0) 1);
    ("corrZSDvsASD_10", JNum (0) 1);
    ("corrZSDvsASD_20", JNum (0) 1);
    ("corrZSDvsASD_30", JNum (0) 1);
    ("corrZSDvsASD_40", JNum (0) 1);
    ("corrZSDvsASD_50", JNum (0) 1);
    ("corrZSDvsASD_60", JNum (0) 1);
    ("corrZSDvsASD_70", JNum (0) 1);
    ("corrZSDvsASD_80", JNum (0) 1);
    ("corrZSDvsASD_90", JNum (0) 1);
    ("corrZSAvsASD_10", JNum (0) 1);
    ("corrZSAvsASD_20", JNum (0) 1);
    ("corrZSAvsASD_30", JNum (0) 1);
    ("corrZSAvsASD_40", JNum (0) 1);
    ("corrZSAvsASD_50", JNum (0) 1);
    ("corrZSAvsASD_60", JNum (0) 1);
    ("corrZSAvsASD_70", JNum (0) 1);
    ("corrZSAvsASD_80", JNum (0) 1);
    ("corrZSAvsASD_90", JNum (0) 1);
    ("corrZSDvsASA_10", JNum (0) 1);
    ("corrZSDvsASA_20", JNum (0) 1);
    ("corrZSDvsASA_30", JNum (0) 1);
    ("corrZSDvsASA_40", JNum (0) 1);
    ("corrZSDvsASA_50", JNum (0) 1);
    ("corrZSDvsASA_60", JNum (0) 1);
    ("corrZSDvsASA_70", JNum (0) 1);
    ("corrZSDvsASA_80", JNum (0) 1);
    ("corrZSDvsASA_90", JNum (0) 1);
    ("corrZSAvsASA_10", JNum (4) 1);
    ("corrZSAvsASA_20", JNum (4) 1);
    ("corrZSAvsASA_30", JNum (4) 1);
    ("corrZSAvsASA_40", JNum (4) 1);
    ("corrZSAvsASA_50", JNum (4) 1);
    ("corrZSAvsASA_60", JNum (4) 1);
    ("corrZSAvsASA_70", JNum (4) 1);
    ("corrZSAvsASA_80", JNum (4) 1);
    ("corrZSAvsASA_90", JNum (4) 1);
    ("corrZSDvsZSA_10", JNum (0) 1);
    ("corrZSDvsZSA_20", JNum (0) 1);
    ("corrZSDvsZSA_30", JNum (0) 1);
    ("corrZSDvsZSA_40", JNum (0) 1);
    ("corrZSDvsZSA_50", JNum (0) 1);
    ("corrZSDvsZSA_60", JNum (0) 1);
    ("corrZSDvsZSA_70", JNum (0) 1);
    ("corrZSDvsZSA_80", JNum (0) 1);
    ("corrZSDvsZSA_90", JNum (0) 1) ].

(* /repo/OpenNTN/models/Sub_Urban_LOS_S_band_UL.json *)
Definition tab_Sub_Urban_LOS_S_band_UL : json_obj :=
  [ ("muDS_10", JNum (-816) 2);
    ("muDS_20", JNum (-856) 2);
    ("muDS_30", JNum (-872) 2);
    ("muDS_40", JNum (-871) 2);
    ("muDS_50", JNum (-872) 2);
    ("muDS_60", JNum (-866) 2);
    ("muDS_70", JNum (-838) 2);
    ("muDS_80", JNum (-834) 2);
    ("muDS_90", JNum (-834) 2);
    ("sigmaDS_10", JNum (99) 2);
    ("sigmaDS_20", JNum (96) 2);
    ("sigmaDS_30", JNum (79) 2);
    ("sigmaDS_40", JNum (81) 2);
    ("sigmaDS_50", JNum (112) 2);
    ("sigmaDS_60", JNum (123) 2);
    ("sigmaDS_70", JNum (55) 2);
    ("sigmaDS_80", JNum (63) 2);
    ("sigmaDS_90", JNum (63) 2);
    ("muASD_10", JNum (-357) 2);
    ("muASD_20", JNum (-380) 2);
    ("muASD_30", JNum (-377) 2);
    ("muASD_40", JNum (-357) 2);
    ("muASD_50", JNum (-342) 2);
    ("muASD_60", JNum (-327) 2);
    ("muASD_70", JNum (-308) 2);
    ("muASD_80", JNum (-275) 2);
    ("muASD_90", JNum (-275) 2);
    ("sigmaASD_10", JNum (162) 2);
    ("sigmaASD_20", JNum (174) 2);
    ("sigmaASD_30", JNum (172) 2);
    ("sigmaASD_40", JNum (160) 2);
    ("sigmaASD_50", JNum (149) 2);
    ("sigmaASD_60", JNum (143) 2);
    ("sigmaASD_70", JNum (136) 2);
    ("sigmaASD_80", JNum (126) 2);
    ("sigmaASD_90", JNum (126) 2);
    ("muASA_10", JNum (5) 2);
    ("muASA_20", JNum (-38) 2);
    ("muASA_30", JNum (-56) 2);
    ("muASA_40", JNum (-59) 2);
    ("muASA_50", JNum (-58) 2);
    ("muASA_60", JNum (-55) 2);
    ("muASA_70", JNum (-28) 2);
    ("muASA_80", JNum (-17) 2);
    ("muASA_90", JNum (-17) 2);
    ("sigmaASA_10", JNum (184) 2);
    ("sigmaASA_20", JNum (194) 2);
    ("sigmaASA_30", JNum (175) 2);
    ("sigmaASA_40", JNum (182) 2);
    ("sigmaASA_50", JNum (187) 2);
    ("sigmaASA_60", JNum (192) 2);
    ("sigmaASA_70", JNum (116) 2);
    ("sigmaASA_80", JNum (109) 2);
    ("sigmaASA_90", JNum (109) 2);
    ("muZSA_10", JNum (-178) 2);
    ("muZSA_20", JNum (-184) 2);
    ("muZSA_30", JNum (-167) 2);
    ("muZSA_40", JNum (-159) 2);
    ("muZSA_50", JNum (-155) 2);
    ("muZSA_60", JNum (-151) 2);
    ("muZSA_70", JNum (-127) 2);
    ("muZSA_80", JNum (-128) 2);
    ("muZSA_90", JNum (-128) 2);
    ("sigmaZSA_10", JNum (62) 2);
    ("sigmaZSA_20", JNum (81) 2);
    ("sigmaZSA_30", JNum (57) 2);
    ("sigmaZSA_40", JNum (86) 2);
    ("sigmaZSA_50", JNum (105) 2);
    ("sigmaZSA_60", JNum (123) 2);
    ("sigmaZSA_70", JNum (54) 2);
    ("sigmaZSA_80", JNum (67) 2);
    ("sigmaZSA_90", JNum (67) 2);
    ("muZSD_10", JNum (-106) 2);
    ("muZSD_20", JNum (-121) 2);
    ("muZSD_30", JNum (-128) 2);
    ("muZSD_40", JNum (-132) 2);
    ("muZSD_50", JNum (-139) 2);
    ("muZSD_60", JNum (-136) 2);
    ("muZSD_70", JNum (-108) 2);
    ("muZSD_80", JNum (-131) 2);
    ("muZSD_90", JNum (-131) 2);
    ("sigmaZSD_10", JNum (96) 2);
    ("sigmaZSD_20", JNum (95) 2);
    ("sigmaZSD_30", JNum (49) 2);
    ("sigmaZSD_40", JNum (79) 2);
    ("sigmaZSD_50", JNum (97) 2);
    ("sigmaZSD_60", JNum (117) 2);
    ("sigmaZSD_70", JNum (62) 2);
    ("sigmaZSD_80", JNum (76) 2);
    ("sigmaZSD_90", JNum (76) 2);
    ("sigmaSF_10", JNum (179) 2);
    ("sigmaSF_20", JNum (114) 2);
    ("sigmaSF_30", JNum (114) 2);
    ("sigmaSF_40", JNum (92) 2);
    ("sigmaSF_50", JNum (142) 2);
    ("sigmaSF_60", JNum (156) 2);
    ("sigmaSF_70", JNum (85) 2);
    ("sigmaSF_80", JNum (72) 2);
    ("sigmaSF_90", JNum (72) 2);
    ("muK_10", JNum (1140) 2);
    ("muK_20", JNum (1945) 2);
    ("muK_30", JNum (2080) 2);
    ("muK_40", JNum (2120) 2);
    ("muK_50", JNum (2160) 2);
    ("muK_60", JNum (1975) 2);
    ("muK_70", JNum (1200) 2);
    ("muK_80", JNum (1285) 2);
    ("muK_90", JNum (1285) 2);
    ("sigmaK_10", JNum (626) 2);
    ("sigmaK_20", JNum (1032) 2);
    ("sigmaK_30", JNum (1634) 2);
    ("sigmaK_40", JNum (1563) 2);
    ("sigmaK_50", JNum (1422) 2);
    ("sigmaK_60", JNum (1419) 2);
    ("sigmaK_70", JNum (570) 2);
    ("sigmaK_80", JNum (991) 2);
    ("sigmaK_90", JNum (991) 2);
    ("muXPR_10", JNum (213) 1);
    ("muXPR_20", JNum (2100) 2);
    ("muXPR_30", JNum (2120) 2);
    ("muXPR_40", JNum (2110) 2);
    ("muXPR_50", JNum (2070) 2);
    ("muXPR_60", JNum (2060) 2);
    ("muXPR_70", JNum (2030) 2);
    ("muXPR_80", JNum (1980) 2);
    ("muXPR_90", JNum (1910) 2);
    ("sigmaXPR_10", JNum (76) 1);
    ("sigmaXPR_20", JNum (89) 1);
    ("sigmaXPR_30", JNum (85) 1);
    ("sigmaXPR_40", JNum (84) 1);
    ("sigmaXPR_50", JNum (92) 1);
    ("sigmaXPR_60", JNum (98) 1);
    ("sigmaXPR_70", JNum (108) 1);
    ("sigmaXPR_80", JNum (122) 1);
    ("sigmaXPR_90", JInt (13));
    ("rTau_10", JNum (220) 2);
    ("rTau_20", JNum (336) 2);
    ("rTau_30", JNum (350) 2);
    ("rTau_40", JNum (281) 2);
    ("rTau_50", JNum (239) 2);
    ("rTau_60", JNum (273) 2);
    ("rTau_70", JNum (207) 2);
    ("rTau_80", JNum (204) 2);
    ("rTau_90", JNum (204) 2);
    ("numClusters_10", JInt (3));
    ("numClusters_20", JInt (3));
    ("numClusters_30", JInt (3));
    ("numClusters_40", JInt (3));
    ("numClusters_50", JInt (3));
    ("numClusters_60", JInt (3));
    ("numClusters_70", JInt (2));
    ("numClusters_80", JInt (2));
    ("numClusters_90", JInt (2));
    ("zeta_10", JNum (30) 1);
    ("zeta_20", JNum (30) 1);
    ("zeta_30", JNum (30) 1);
    ("zeta_40", JNum (30) 1);
    ("zeta_50", JNum (30) 1);
    ("zeta_60", JNum (30) 1);
    ("zeta_70", JNum (30) 1);
    ("zeta_80", JNum (30) 1);
    ("zeta_90", JNum (30) 1);
    ("cDS_10", JNum (16) 1);
    ("cDS_20", JNum (16) 1);
    ("cDS_30", JNum (16) 1);
    ("cDS_40", JNum (16) 1);
    ("cDS_50", JNum (16) 1);
    ("cDS_60", JNum (16) 1);
    ("cDS_70", JNum (16) 1);
    ("cDS_80", JNum (16) 1);
    ("cDS_90", JNum (16) 1);
    ("cASD_10", JNum (0) 1);
    ("cASD_20", JNum (0) 1);
    ("cASD_30", JNum (0) 1);
    ("cASD_40", JNum (0) 1);
    ("cASD_50", JNum (0) 1);
    ("cASD_60", JNum (0) 1);
    ("cASD_70", JNum (0) 1);
    ("cASD_80", JNum (0) 1);
    ("cASD_90", JNum (0) 1);
    ("cASA_10", JNum (110) 1);
    ("cASA_20", JNum (110) 1);
    ("cASA_30", JNum (110) 1);
    ("cASA_40", JNum (110) 1);
    ("cASA_50", JNum (110) 1);
    ("cASA_60", JNum (110) 1);
    ("cASA_70", JNum (110) 1);
    ("cASA_80", JNum (110) 1);
    ("cASA_90", JNum (110) 1);
    ("cZSA_10", JNum (70) 1);
    ("cZSA_20", JNum (70) 1);
    ("cZSA_30", JNum (70) 1);
    ("cZSA_40", JNum (70) 1);
    ("cZSA_50", JNum (70) 1);
    ("cZSA_60", JNum (70) 1);
    ("cZSA_70", JNum (70) 1);
    ("cZSA_80", JNum (70) 1);
    ("cZSA_90", JNum (70) 1);
    ("LoS_p_10", JNum (782) 3);
    ("LoS_p_20", JNum (869) 3);
    ("LoS_p_30", JNum (919) 3);
    ("LoS_p_40", JNum (929) 3);
    ("LoS_p_50", JNum (935) 3);
    ("LoS_p_60", JNum (94) 2);
    ("LoS_p_70", JNum (949) 3);
    ("LoS_p_80", JNum (952) 3);
    ("LoS_p_90", JNum (998) 3);
    ("CPhiNLoS", JNum (680) 3);
    ("CThetaNLoS", JNum (594) 3);
    ("corrDistDS_10", JNum (300) 1);
    ("corrDistDS_20", JNum (300) 1);
    ("corrDistDS_30", JNum (300) 1);
    ("corrDistDS_40", JNum (300) 1);
    ("corrDistDS_50", JNum (300) 1);
    ("corrDistDS_60", JNum (300) 1);
    ("corrDistDS_70", JNum (300) 1);
    ("corrDistDS_80", JNum (300) 1);
    ("corrDistDS_90", JNum (300) 1);
    ("corrDistASD_10", JNum (180) 1);
    ("corrDistASD_20", JNum (180) 1);
    ("corrDistASD_30", JNum (180) 1);
    ("corrDistASD_40", JNum (180) 1);
    ("corrDistASD_50", JNum (180) 1);
    ("corrDistASD_60", JNum (180) 1);
    ("corrDistASD_70", JNum (180) 1);
    ("corrDistASD_80", JNum (180) 1);
    ("corrDistASD_90", JNum (180) 1);
    ("corrDistASA_10", JNum (150) 1);
    ("corrDistASA_20", JNum (150) 1);
    ("corrDistASA_30", JNum (150) 1);
    ("corrDistASA_40", JNum (150) 1);
    ("corrDistASA_50", JNum (150) 1);
    ("corrDistASA_60", JNum (150) 1);
    ("corrDistASA_70", JNum (150) 1);
    ("corrDistASA_80", JNum (150) 1);
    ("corrDistASA_90", JNum (150) 1);
    ("corrDistSF_10", JNum (370) 1);
    ("corrDistSF_20", JNum (370) 1);
    ("corrDistSF_30", JNum (370) 1);
    ("corrDistSF_40", JNum (370) 1);
    ("corrDistSF_50", JNum (370) 1);
    ("corrDistSF_60", JNum (370) 1);
    ("corrDistSF_70", JNum (370) 1);
    ("corrDistSF_80", JNum (370) 1);
    ("corrDistSF_90", JNum (370) 1);
    ("corrDistK_10", JNum (120) 1);
    ("corrDistK_20", JNum (120) 1);
    ("corrDistK_30", JNum (120) 1);
    ("corrDistK_40", JNum (120) 1);
    ("corrDistK_50", JNum (120) 1);
    ("corrDistK_60", JNum (120) 1);
    ("corrDistK_70", JNum (120) 1);
    ("corrDistK_80", JNum (120) 1);
    ("corrDistK_90", JNum (120) 1);
    ("corrDistZSA_10", JNum (150) 1);
    ("corrDistZSA_20", JNum (150) 1);
    ("corrDistZSA_30", JNum (150) 1);
    ("corrDistZSA_40", JNum (150) 1);
    ("corrDistZSA_50", JNum (150) 1);
    ("corrDistZSA_60", JNum (150) 1);
    ("corrDistZSA_70", JNum (150) 1);
    ("corrDistZSA_80", JNum (150) 1);
    ("corrDistZSA_90", JNum (150) 1);
    ("corrDistZSD_10", JNum (150) 1);
    ("corrDistZSD_20", JNum (150) 1);
    ("corrDistZSD_30", JNum (150) 1);
    ("corrDistZSD_40", JNum (150) 1);
    ("corrDistZSD_50", JNum (150) 1);
    ("corrDistZSD_60", JNum (150) 1);
    ("corrDistZSD_70", JNum (150) 1);
    ("corrDistZSD_80", JNum (150) 1);
    ("corrDistZSD_90", JNum (150) 1);
    ("corrASDvsDS_10", JNum (4) 1);
    ("corrASDvsDS_20", JNum (4) 1);
    ("corrASDvsDS_30", JNum (4) 1);
    ("corrASDvsDS_40", JNum (4) 1);
    ("corrASDvsDS_50", JNum (4) 1);
    ("corrASDvsDS_60", JNum (4) 1);
    ("corrASDvsDS_70", JNum (4) 1);
    ("corrASDvsDS_80", JNum (4) 1);
    ("corrASDvsDS_90", JNum (4) 1);
    ("corrASAvsDS_10", JNum (8) 1);
    ("corrASAvsDS_20", JNum (8) 1);
    ("corrASAvsDS_30", JNum (8) 1);
    ("corrASAvsDS_40", JNum (8) 1);
    ("corrASAvsDS_50", JNum (8) 1);
    ("corrASAvsDS_60", JNum (8) 1);
    ("corrASAvsDS_70", JNum (8) 1);
    ("corrASAvsDS_80", JNum (8) 1);
    ("corrASAvsDS_90", JNum (8) 1);
    ("corrASAvsSF_10", JNum (-5) 1);
    ("corrASAvsSF_20", JNum (-5) 1);
    ("corrASAvsSF_30", JNum (-5) 1);
    ("corrASAvsSF_40", JNum (-5) 1);
    ("corrASAvsSF_50", JNum (-5) 1);
    ("corrASAvsSF_60", JNum (-5) 1);
    ("corrASAvsSF_70", JNum (-5) 1);
    ("corrASAvsSF_80", JNum (-5) 1);
    ("corrASAvsSF_90", JNum (-5) 1);
    ("corrASDvsSF_10", JNum (-5) 1);
    ("corrASDvsSF_20", JNum (-5) 1);
    ("corrASDvsSF_30", JNum (-5) 1);
    ("corrASDvsSF_40", JNum (-5) 1);
    ("corrASDvsSF_50", JNum (-5) 1);
    ("corrASDvsSF_60", JNum (-5) 1);
    ("corrASDvsSF_70", JNum (-5) 1);
    ("corrASDvsSF_80", JNum (-5) 1);
    ("corrASDvsSF_90", JNum (-5) 1);
    ("corrDSvsSF_10", JNum (-4) 1);
    ("corrDSvsSF_20", JNum (-4) 1);
    ("corrDSvsSF_30", JNum (-4) 1);
    ("corrDSvsSF_40", JNum (-4) 1);
    ("corrDSvsSF_50", JNum (-4) 1);
    ("corrDSvsSF_60", JNum (-4) 1);
    ("corrDSvsSF_70", JNum (-4) 1);
    ("corrDSvsSF_80", JNum (-4) 1);
    ("corrDSvsSF_90", JNum (-4) 1);
    ("corrASDvsASA_10", JNum (0) 1);
    ("corrASDvsASA_20", JNum (0) 1);
    ("corrASDvsASA_30", JNum (0) 1);
    ("corrASDvsASA_40", JNum (0) 1);
    ("corrASDvsASA_50", JNum (0) 1);
    ("corrASDvsASA_60", JNum (0) 1);
    ("corrASDvsASA_70", JNum (0) 1);
    ("corrASDvsASA_80", JNum (0) 1);
    ("corrASDvsASA_90", JNum (0) 1);
    ("corrASDvsK_10", JNum (0) 1);
    ("corrASDvsK_20", JNum (0) 1);
    ("corrASDvsK_30", JNum (0) 1);
    ("corrASDvsK_40", JNum (0) 1);
    ("corrASDvsK_50", JNum (0) 1);
    ("corrASDvsK_60", JNum (0) 1);
    ("corrASDvsK_70", JNum (0) 1);
    ("corrASDvsK_80", JNum (0) 1);
    ("corrASDvsK_90", JNum (0) 1);
    ("corrASAvsK_10", JNum (-2) 1);
    ("corrASAvsK_20", JNum (-2) 1);
    ("corrASAvsK_30", JNum (-2) 1);
    ("corrASAvsK_40", JNum (-2) 1);
    ("corrASAvsK_50", JNum (-2) 1);
    ("corrASAvsK_60", JNum (-2) 1);
    ("corrASAvsK_70", JNum (-2) 1);
    ("corrASAvsK_80", JNum (-2) 1);
    ("corrASAvsK_90", JNum (-2) 1);
    ("corrDSvsK_10", JNum (-4) 1);
    ("corrDSvsK_20", JNum (-4) 1);
    ("corrDSvsK_30", JNum (-4) 1);
    ("corrDSvsK_40", JNum (-4) 1);
    ("corrDSvsK_50", JNum (-4) 1);
    ("corrDSvsK_60", JNum (-4) 1);
    ("corrDSvsK_70", JNum (-4) 1);
    ("corrDSvsK_80", JNum (-4) 1);
    ("corrDSvsK_90", JNum (-4) 1);
    ("corrSFvsK_10", JNum (0) 1);
    ("corrSFvsK_20", JNum (0) 1);
    ("corrSFvsK_30", JNum (0) 1);
    ("corrSFvsK_40", JNum (0) 1);
    ("corrSFvsK_50", JNum (0) 1);
    ("corrSFvsK_60", JNum (0) 1);
    ("corrSFvsK_70", JNum (0) 1);
    ("corrSFvsK_80", JNum (0) 1);
    ("corrSFvsK_90", JNum (0) 1);
    ("corrZSDvsSF_10", JNum (0) 1);
    ("corrZSDvsSF_20", JNum (0) 1);
    ("corrZSDvsSF_30", JNum (0) 1);
    ("corrZSDvsSF_40", JNum (0) 1);
    ("corrZSDvsSF_50", JNum (0) 1);
    ("corrZSDvsSF_60", JNum (0) 1);
    ("corrZSDvsSF_70", JNum (0) 1);
    ("corrZSDvsSF_80", JNum (0) 1);
    ("corrZSDvsSF_90", JNum (0) 1);
    ("corrZSAvsSF_10", JNum (-8) 1);
    ("corrZSAvsSF_20", JNum (-8) 1);
    ("corrZSAvsSF_30", JNum (-8) 1);
    ("corrZSAvsSF_40", JNum (-8) 1);
    ("corrZSAvsSF_50", JNum (-8) 1);
    ("corrZSAvsSF_60", JNum (-8) 1);
    ("corrZSAvsSF_70", JNum (-8) 1);
    ("corrZSAvsSF_80", JNum (-8) 1);
    ("corrZSAvsSF_90", JNum (-8) 1);
    ("corrZSDvsK_10", JNum (0) 1);
    ("corrZSDvsK_20", JNum (0) 1);
    ("corrZSDvsK_30", JNum (0) 1);
    ("corrZSDvsK_40", JNum (0) 1);
    ("corrZSDvsK_50", JNum (0) 1);
    ("corrZSDvsK_60", JNum (0) 1);
    ("corrZSDvsK_70", JNum (0) 1);
    ("corrZSDvsK_80", JNum (0) 1);
    ("corrZSDvsK_90", JNum (0) 1);
    ("corrZSAvsK_10", JNum (0) 1);
    ("corrZSAvsK_20", JNum (0) 1);
    ("corrZSAvsK_30", JNum (0) 1);
    ("corrZSAvsK_40", JNum (0) 1);
    ("corrZSAvsK_50", JNum (0) 1);
    ("corrZSAvsK_60", JNum (0) 1);
    ("corrZSAvsK_70", JNum (0) 1);
    ("corrZSAvsK_80", JNum (0) 1);
    ("corrZSAvsK_90", JNum (0) 1);
    ("corrZSDvsDS_10", JNum (-2) 1);
    ("corrZSDvsDS_20", JNum (-2) 1);
    ("corrZSDvsDS_30", JNum (-2) 1);
    ("corrZSDvsDS_40", JNum (-2) 1);
    ("corrZSDvsDS_50", JNum (-2) 1);
    ("corrZSDvsDS_60", JNum (-2) 1);
    ("corrZSDvsDS_70", JNum (-2) 1);
    ("corrZSDvsDS_80", JNum (-2) 1);
    ("corrZSDvsDS_90", JNum (-2) 1);
    ("corrZSAvsDS_10", JNum (0) 1);
    ("corrZSAvsDS_20", JNum (0) 1);
    ("corrZSAvsDS_30", JNum (0) 1);
    ("corrZSAvsDS_40", JNum (0) 1);
    ("corrZSAvsDS_50", JNum (0) 1);
    ("corrZSAvsDS_60", JNum (0) 1);
    ("corrZSAvsDS_70", JNum (0) 1);
    ("corrZSAvsDS_80", JNum (0) 1);
    ("corrZSAvsDS_90", JNum (0) 1);
    ("corrZSDvsASD_10", JNum (5) 1);
    ("corrZSDvsASD_20", JNum (5) 1);
    ("corrZSDvsASD_30", JNum (5) 1);
    ("corrZSDvsASD_40", JNum (5) 1);
    ("corrZSDvsASD_50", JNum (5) 1);
    ("corrZSDvsASD_60", JNum (5) 1);
    ("corrZSDvsASD_70", JNum (5) 1);
    ("corrZSDvsASD_80", JNum (5) 1);
    ("corrZSDvsASD_90", JNum (5) 1);
    ("corrZSAvsASD_10", JNum (0) 1);
    ("corrZSAvsASD_20", JNum (0) 1);
    ("corrZSAvsASD_30", JNum (0) 1);
    ("corrZSAvsASD_40", JNum (0) 1);
    ("corrZSAvsASD_50", JNum (0) 1);
    ("corrZSAvsASD_60", JNum (0) 1);
    ("corrZSAvsASD_70", JNum (0) 1);
    ("corrZSAvsASD_80", JNum (0) 1);
    ("corrZSAvsASD_90", JNum (0) 1);
    ("corrZSDvsASA_10", JNum (-3) 1);
    ("corrZSDvsASA_20", JNum (-3) 1);
    ("corrZSDvsASA_30", JNum (-3) 1);
    ("corrZSDvsASA_40", JNum (-3) 1);
    ("corrZSDvsASA_50", JNum (-3) 1);
    ("corrZSDvsASA_60", JNum (-3) 1);
    ("corrZSDvsASA_70", JNum (-3) 1);
    ("corrZSDvsASA_80", JNum (-3) 1);
    ("corrZSDvsASA_90", JNum (-3) 1);
    ("corrZSAvsASA_10", JNum (4) 1);
    ("corrZSAvsASA_20", JNum (4) 1);
    ("corrZSAvsASA_30", JNum (4) 1);
    ("corrZSAvsASA_40", JNum (4) 1);
    ("corrZSAvsASA_50", JNum (4) 1);
    ("corrZSAvsASA_60", JNum (4) 1);
    ("corrZSAvsASA_70", JNum (4) 1);
    ("corrZSAvsASA_80", JNum (4) 1);
    ("corrZSAvsASA_90", JNum (4) 1);
    ("corrZSDvsZSA_10", JNum (0) 1);
    ("corrZSDvsZSA_20", JNum (0) 1);
    ("corrZSDvsZSA_30", JNum (0) 1);
    ("corrZSDvsZSA_40", JNum (0) 1);
    ("corrZSDvsZSA_50", JNum (0) 1);
    ("corrZSDvsZSA_60", JNum (0) 1);
    ("corrZSDvsZSA_70", JNum (0) 1);
    ("corrZSDvsZSA_80", JNum (0) 1);
    ("corrZSDvsZSA_90", JNum (0) 1) ].

(* /repo/OpenNTN/models/Sub_Urban_NLOS_Ka_band_DL.json *)
Definition tab_Sub_Urban_NLOS_Ka_band_DL : json_obj :=
  [ ("muDS_10", JNum (-743) 2);
    ("muDS_20", JNum (-763) 2);
    ("muDS_30", JNum (-786) 2);
    ("muDS_40", JNum (-796) 2);
    ("muDS_50", JNum (-798) 2);
    ("muDS_60", JNum (-845) 2);
    ("muDS_70", JNum (-821) 2);
    ("muDS_80", JNum (-869) 2);
    ("muDS_90", JNum (-869) 2);
    ("sigmaDS_10", JNum (50) 2);
    ("sigmaDS_20", JNum (61) 2);
    ("sigmaDS_30", JNum (56) 2);
    ("sigmaDS_40", JNum (58) 2);
    ("sigmaDS_50", JNum (59) 2);
    ("sigmaDS_60", JNum (47) 2);
    ("sigmaDS_70", JNum (36) 2);
    ("sigmaDS_80", JNum (29) 2);
    ("sigmaDS_90", JNum (29) 2);
    ("muASD_10", JStr "-inf");
    ("muASD_20", JStr "-inf");
    ("muASD_30", JStr "-inf");
    ("muASD_40", JStr "-inf");
    ("muASD_50", JStr "-inf");
    ("muASD_60", JStr "-inf");
    ("muASD_70", JStr "-inf");
    ("muASD_80", JStr "-inf");
    ("muASD_90", JStr "-inf");
    ("sigmaASD_10", JNum (0) 1);
    ("sigmaASD_20", JNum (0) 1);
    ("sigmaASD_30", JNum (0) 1);
    ("sigmaASD_40", JNum (0) 1);
    ("sigmaASD_50", JNum (0) 1);
    ("sigmaASD_60", JNum (0) 1);
    ("sigmaASD_70", JNum (0) 1);
    ("sigmaASD_80", JNum (0) 1);
    ("sigmaASD_90", JNum (0) 1);
    ("muASA_10", JNum (149) 2);
    ("muASA_20", JNum (124) 2);
    ("muASA_30", JNum (106) 2);
    ("muASA_40", JNum (91) 2);
    ("muASA_50", JNum (98) 2);
    ("muASA_60", JNum (49) 2);
    ("muASA_70", JNum (73) 2);
    ("muASA_80", JNum (-4) 2);
    ("muASA_90", JNum (-4) 2);
    ("sigmaASA_10", JNum (40) 2);
    ("sigmaASA_20", JNum (82) 2);
    ("sigmaASA_30", JNum (71) 2);
    ("sigmaASA_40", JNum (55) 2);
    ("sigmaASA_50", JNum (58) 2);
    ("sigmaASA_60", JNum (137) 2);
    ("sigmaASA_70", JNum (49) 2);
    ("sigmaASA_80", JNum (148) 2);
    ("sigmaASA_90", JNum (148) 2);
    ("muZSA_10", JNum (81) 2);
    ("muZSA_20", JNum (106) 2);
    ("muZSA_30", JNum (112) 2);
    ("muZSA_40", JNum (114) 2);
    ("muZSA_50", JNum (129) 2);
    ("muZSA_60", JNum (138) 2);
    ("muZSA_70", JNum (136) 2);
    ("muZSA_80", JNum (138) 2);
    ("muZSA_90", JNum (138) 2);
    ("sigmaZSA_10", JNum (36) 2);
    ("sigmaZSA_20", JNum (41) 2);
    ("sigmaZSA_30", JNum (40) 2);
    ("sigmaZSA_40", JNum (39) 2);
    ("sigmaZSA_50", JNum (35) 2);
    ("sigmaZSA_60", JNum (36) 2);
    ("sigmaZSA_70", JNum (29) 2);
    ("sigmaZSA_80", JNum (20) 2);
    ("sigmaZSA_90", JNum (20) 2);
    ("muZSD_10", JStr "-inf");
    ("muZSD_20", JStr "-inf");
    ("muZSD_30", JStr "-inf");
    ("muZSD_40", JStr "-inf");
    ("muZSD_50", JStr "-inf");
    ("muZSD_60", JStr "-inf");
    ("muZSD_70", JStr "-inf");
    ("muZSD_80", JStr "-inf");
    ("muZSD_90", JStr "-inf");
    ("sigmaZSD_10", JNum (0) 1);
    ("sigmaZSD_20", JNum (0) 1);
    ("sigmaZSD_30", JNum (0) 1);
    ("sigmaZSD_40", JNum (0) 1);
    ("sigmaZSD_50", JNum (0) 1);
    ("sigmaZSD_60", JNum (0) 1);
    ("sigmaZSD_70", JNum (0) 1);
    ("sigmaZSD_80", JNum (0) 1);
    ("sigmaZSD_90", JNum (0) 1);
    ("sigmaSF_10", JNum (1070) 2);
    ("sigmaSF_20", JNum (1000) 2);
    ("sigmaSF_30", JNum (1120) 2);
    ("sigmaSF_40", JNum (1160) 2);
    ("sigmaSF_50", JNum (1180) 2);
    ("sigmaSF_60", JNum (1080) 2);
    ("sigmaSF_70", JNum (1080) 2);
    ("sigmaSF_80", JNum (1080) 2);
    ("sigmaSF_90", JNum (1080) 2);
    ("CL_10", JNum (295) 1);
    ("CL_20", JNum (246) 1);
    ("CL_30", JNum (219) 1);
    ("CL_40", JNum (200) 1);
    ("CL_50", JNum (187) 1);
    ("CL_60", JNum (178) 1);
    ("CL_70", JNum (172) 1);
    ("CL_80", JNum (169) 1);
    ("CL_90", JNum (168) 1);
    ("muK_10", JNum (0) 1);
    ("muK_20", JNum (0) 1);
    ("muK_30", JNum (0) 1);
    ("muK_40", JNum (0) 1);
    ("muK_50", JNum (0) 1);
    ("muK_60", JNum (0) 1);
    ("muK_70", JNum (0) 1);
    ("muK_80", JNum (0) 1);
    ("muK_90", JNum (0) 1);
    ("sigmaK_10", JNum (0) 1);
    ("sigmaK_20", JNum (0) 1);
    ("sigmaK_30", JNum (0) 1);
    ("sigmaK_40", JNum (0) 1);
    ("sigmaK_50", JNum (0) 1);
    ("sigmaK_60", JNum (0) 1);
    ("sigmaK_70", JNum (0) 1);
    ("sigmaK_80", JNum (0) 1);
    ("sigmaK_90", JNum (0) 1);
    ("muXPR_10", JNum (225) 1);
    ("muXPR_20", JNum (194) 1);
    ("muXPR_30", JNum (155) 1);
    ("muXPR_40", JNum (139) 1);
    ("muXPR_50", JNum (117) 1);
    ("muXPR_60", JNum (98) 1);
    ("muXPR_70", JNum (103) 1);
    ("muXPR_80", JNum (156) 1);
    ("muXPR_90", JNum (156) 1);
    ("sigmaXPR_10", JNum (50) 1);
    ("sigmaXPR_20", JNum (85) 1);
    ("sigmaXPR_30", JNum (100) 1);
    ("sigmaXPR_40", JNum (106) 1);
    ("sigmaXPR_50", JNum (100) 1);
    ("sigmaXPR_60", JNum (91) 1);
    ("sigmaXPR_70", JNum (91) 1);
    ("sigmaXPR_80", JNum (91) 1);
    ("sigmaXPR_90", JNum (91) 1);
    ("rTau_10", JNum (23) 1);
    ("rTau_20", JNum (23) 1);
    ("rTau_30", JNum (23) 1);
    ("rTau_40", JNum (23) 1);
    ("rTau_50", JNum (23) 1);
    ("rTau_60", JNum (23) 1);
    ("rTau_70", JNum (230) 2);
    ("rTau_80", JNum (230) 2);
    ("rTau_90", JNum (230) 2);
    ("numClusters_10", JInt (4));
    ("numClusters_20", JInt (4));
    ("numClusters_30", JInt (4));
    ("numClusters_40", JInt (4));
    ("numClusters_50", JInt (4));
    ("numClusters_60", JInt (3));
    ("numClusters_70", JInt (3));
    ("numClusters_80", JInt (3));
    ("numClusters_90", JInt (3));
    ("zeta_10", JNum (30) 1);
    ("zeta_20", JNum (30) 1);
    ("zeta_30", JNum (30) 1);
    ("zeta_40", JNum (30) 1);
    ("zeta_50", JNum (30) 1);
    ("zeta_60", JNum (30) 1);
    ("zeta_70", JNum (30) 1);
    ("zeta_80", JNum (30) 1);
    ("zeta_90", JNum (30) 1);
    ("cDS_10", JNum (16) 1);
    ("cDS_20", JNum (16) 1);
    ("cDS_30", JNum (16) 1);
    ("cDS_40", JNum (16) 1);
    ("cDS_50", JNum (16) 1);
    ("cDS_60", JNum (16) 1);
    ("cDS_70", JNum (16) 1);
    ("cDS_80", JNum (16) 1);
    ("cDS_90", JNum (16) 1);
    ("cASD_10", JNum (0) 1);
    ("cASD_20", JNum (0) 1);
    ("cASD_30", JNum (0) 1);
    ("cASD_40", JNum (0) 1);
    ("cASD_50", JNum (0) 1);
    ("cASD_60", JNum (0) 1);
    ("cASD_70", JNum (0) 1);
    ("cASD_80", JNum (0) 1);
    ("cASD_90", JNum (0) 1);
    ("cASA_10", JNum (150) 1);
    ("cASA_20", JNum (150) 1);
    ("cASA_30", JNum (150) 1);
    ("cASA_40", JNum (150) 1);
    ("cASA_50", JNum (150) 1);
    ("cASA_60", JNum (150) 1);
    ("cASA_70", JNum (150) 1);
    ("cASA_80", JNum (150) 1);
    ("cASA_90", JNum (150) 1);
    ("cZSA_10", JNum (70) 1);
    ("cZSA_20", JNum (70) 1);
    ("cZSA_30", JNum (70) 1);
    ("cZSA_40", JNum (70) 1);
    ("cZSA_50", JNum (70) 1);
    ("cZSA_60", JNum (70) 1);
    ("cZSA_70", JNum (70) 1);
    ("cZSA_80", JNum (70) 1);
    ("cZSA_90", JNum (70) 1);
    ("LoS_p_10", JNum (782) 3);
    ("LoS_p_20", JNum (869) 3);
    ("LoS_p_30", JNum (919) 3);
    ("LoS_p_40", JNum (929) 3);
    ("LoS_p_50", JNum (935) 3);
    ("LoS_p_60", JNum (94) 2);
    ("LoS_p_70", JNum (949) 3);
    ("LoS_p_80", JNum (952) 3);
    ("LoS_p_90", JNum (998) 3);
    ("CPhiNLoS", JNum (779) 3);
    ("CThetaNLoS", JNum (697) 3);
    ("corrDistDS_10", JNum (400) 1);
    ("corrDistDS_20", JNum (400) 1);
    ("corrDistDS_30", JNum (400) 1);
    ("corrDistDS_40", JNum (400) 1);
    ("corrDistDS_50", JNum (400) 1);
    ("corrDistDS_60", JNum (400) 1);
    ("corrDistDS_70", JNum (400) 1);
    ("corrDistDS_80", JNum (400) 1);
    ("corrDistDS_90", JNum (400) 1);
    ("corrDistASD_10", JNum (500) 1);
    ("corrDistASD_20", JNum (500) 1);
    ("corrDistASD_30", JNum (500) 1);
    ("corrDistASD_40", JNum (500) 1);
    ("corrDistASD_50", JNum (500) 1);
    ("corrDistASD_60", JNum (500) 1);
    ("corrDistASD_70", JNum (500) 1);
    ("corrDistASD_80", JNum (500) 1);
    ("corrDistASD_90", JNum (500) 1);
    ("corrDistASA_10", JNum (500) 1);
    ("corrDistASA_20", JNum (500) 1);
    ("corrDistASA_30", JNum (500) 1);
    ("corrDistASA_40", JNum (500) 1);
    ("corrDistASA_50", JNum (500) 1);
    ("corrDistASA_60", JNum (500) 1);
    ("corrDistASA_70", JNum (500) 1);
    ("corrDistASA_80", JNum (500) 1);
    ("corrDistASA_90", JNum (500) 1);
    ("corrDistSF_10", JNum (500) 1);
    ("corrDistSF_20", JNum (500) 1);
    ("corrDistSF_30", JNum (500) 1);
    ("corrDistSF_40", JNum (500) 1);
    ("corrDistSF_50", JNum (500) 1);
    ("corrDistSF_60", JNum (500) 1);
    ("corrDistSF_70", JNum (500) 1);
    ("corrDistSF_80", JNum (500) 1);
    ("corrDistSF_90", JNum (500) 1);
    ("corrDistK_10", JNum (10) 1);
    ("corrDistK_20", JNum (10) 1);
    ("corrDistK_30", JNum (10) 1);
    ("corrDistK_40", JNum (10) 1);
    ("corrDistK_50", JNum (10) 1);
    ("corrDistK_60", JNum (10) 1);
    ("corrDistK_70", JNum (10) 1);
    ("corrDistK_80", JNum (10) 1);
    ("corrDistK_90", JNum (10) 1);
    ("corrDistZSA_10", JNum (500) 1);
    ("corrDistZSA_20", JNum (500) 1);
    ("corrDistZSA_30", JNum (500) 1);
    ("corrDistZSA_40", JNum (500) 1);
    ("corrDistZSA_50", JNum (500) 1);
    ("corrDistZSA_60", JNum (500) 1);
    ("corrDistZSA_70", JNum (500) 1);
    ("corrDistZSA_80", JNum (500) 1);
    ("corrDistZSA_90", JNum (500) 1);
    ("corrDistZSD_10", JNum (500) 1);
    ("corrDistZSD_20", JNum (500) 1);
    ("corrDistZSD_30", JNum (500) 1);
    ("corrDistZSD_40", JNum (500) 1);
    ("corrDistZSD_50", JNum (500) 1);
    ("corrDistZSD_60", JNum (500) 1);
    ("corrDistZSD_70", JNum (500) 1);
    ("corrDistZSD_80", JNum (500) 1);
    ("corrDistZSD_90", JNum (500) 1);
    ("corrASDvsDS_10", JNum (0) 1);
    ("corrASDvsDS_20", JNum (0) 1);
    ("corrASDvsDS_30", JNum (0) 1);
    ("corrASDvsDS_40", JNum (0) 1);
    ("corrASDvsDS_50", JNum (0) 1);
    ("corrASDvsDS_60", JNum (0) 1);
    ("corrASDvsDS_70", JNum (0) 1);
    ("corrASDvsDS_80", JNum (0) 1);
    ("corrASDvsDS_90", JNum (0) 1);
    ("corrASAvsDS_10", JNum (6) 1);
    ("corrASAvsDS_20", JNum (6) 1);
    ("corrASAvsDS_30", JNum (6) 1);
    ("corrASAvsDS_40", JNum (6) 1);
    ("corrASAvsDS_50", JNum (6) 1);
    ("corrASAvsDS_60", JNum (6) 1);
    ("corrASAvsDS_70", JNum (6) 1);
    ("corrASAvsDS_80", JNum (6) 1);
    ("corrASAvsDS_90", JNum (6) 1);
    ("corrASAvsSF_10", JNum (0) 1);
    ("corrASAvsSF_20", JNum (0) 1);
    ("corrASAvsSF_30", JNum (0) 1);
    ("corrASAvsSF_40", JNum (0) 1);
    ("corrASAvsSF_50", JNum (0) 1);
    ("corrASAvsSF_60", JNum (0) 1);
    ("corrASAvsSF_70", JNum (0) 1);
    ("corrASAvsSF_80", JNum (0) 1);
    ("corrASAvsSF_90", JNum (0) 1);
    ("corrASDvsSF_10", JNum (0) 1);
    ("corrASDvsSF_20", JNum (0) 1);
    ("corrASDvsSF_30", JNum (0) 1);
    ("corrASDvsSF_40", JNum (0) 1);
    ("corrASDvsSF_50", JNum (0) 1);
    ("corrASDvsSF_60", JNum (0) 1);
    ("corrASDvsSF_70", JNum (0) 1);
    ("corrASDvsSF_80", JNum (0) 1);
    ("corrASDvsSF_90", JNum (0) 1);
    ("corrDSvsSF_10", JNum (-4) 1);
    ("corrDSvsSF_20", JNum (-4) 1);
    ("corrDSvsSF_30", JNum (-4) 1);
    ("corrDSvsSF_40", JNum (-4) 1);
    ("corrDSvsSF_50", JNum (-4) 1);
    ("corrDSvsSF_60", JNum (-4) 1);
    ("corrDSvsSF_70", JNum (-4) 1);
    ("corrDSvsSF_80", JNum (-4) 1);
    ("corrDSvsSF_90", JNum (-4) 1);
    ("corrASDvsASA_10", JNum (0) 1);
    ("corrASDvsASA_20", JNum (0) 1);
    ("corrASDvsASA_30", JNum (0) 1);
    ("corrASDvsASA_40", JNum (0) 1);
    ("corrASDvsASA_50", JNum (0) 1);
    ("corrASDvsASA_60", JNum (0) 1);
    ("corrASDvsASA_70", JNum (0) 1);
    ("corrASDvsASA_80", JNum (0) 1);
    ("corrASDvsASA_90", JNum (0) 1);
    ("corrASDvsK_10", JNum (0) 1);
    ("corrASDvsK_20", JNum (0) 1);
    ("corrASDvsK_30", JNum (0) 1);
    ("corrASDvsK_40", JNum (0) 1);
    ("corrASDvsK_50", JNum (0) 1);
    ("corrASDvsK_60", JNum (0) 1);
    ("corrASDvsK_70", JNum (0) 1);
    ("corrASDvsK_80", JNum (0) 1);
    ("corrASDvsK_90", JNum (0) 1);
    ("corrASAvsK_10", JNum (0) 1);
    ("corrASAvsK_20", JNum (0) 1);
    ("corrASAvsK_30", JNum (0) 1);
    ("corrASAvsK_40", JNum (0) 1);
    ("corrASAvsK_50", JNum (0) 1);
    ("corrASAvsK_60", JNum (0) 1);
    ("corrASAvsK_70", JNum (0) 1);
    ("corrASAvsK_80", JNum (0) 1);
    ("corrASAvsK_90", JNum (0) 1);
    ("corrDSvsK_10", JNum (0) 1);
    ("corrDSvsK_20", JNum (0) 1);
    ("corrDSvsK_30", JNum (0) 1);
    ("corrDSvsK_40", JNum (0) 1);
    ("corrDSvsK_50", JNum (0) 1);
    ("corrDSvsK_60", JNum (0) 1);
    ("corrDSvsK_70", JNum (0) 1);
    ("corrDSvsK_80", JNum (0) 1);
    ("corrDSvsK_90", JNum (0) 1);
    ("corrSFvsK_10", JNum (0) 1);
    ("corrSFvsK_20", JNum (0) 1);
    ("corrSFvsK_30", JNum (0) 1);
    ("corrSFvsK_40", JNum (0) 1);
    ("corrSFvsK_50", JNum (0) 1);
    ("corrSFvsK_60", JNum (0) 1);
    ("corrSFvsK_70", JNum (0) 1);
    ("corrSFvsK_80", JNum (0) 1);
    ("corrSFvsK_90", JNum (0) 1);
    ("corrZSDvsSF_10", JNum (0) 1);
    ("corrZSDvsSF_20", JNum (0) 1);
    ("corrZSDvsSF_30", JNum (0) 1);
    ("corrZSDvsSF_40", JNum (0) 1);
    ("corrZSDvsSF_50", JNum (0) 1);
    ("corrZSDvsSF_60", JNum (0) 1);
    ("corrZSDvsSF_70", JNum (0) 1);
    ("corrZSDvsSF_80", JNum (0) 1);
    ("corrZSDvsSF_90", JNum (0) 1);
    ("corrZSAvsSF_10", JNum (-4) 1);
    ("corrZSAvsSF_20", JNum (-4) 1);
    ("corrZSAvsSF_30", JNum (-4) 1);
    ("corrZSAvsSF_40", JNum (-4) 1);
    ("corrZSAvsSF_50", JNum (-4) 1);
    ("corrZSAvsSF_60", JNum (-4) 1);
    ("corrZSAvsSF_70", JNum (-4) 1);
    ("corrZSAvsSF_80", JNum (-4) 1);
    ("corrZSAvsSF_90", JNum (-4) 1);
    ("corrZSDvsK_10", JNum (0) 1);
    ("corrZSDvsK_20", JNum (0) 1);
    ("corrZSDvsK_30", JNum (0) 1);
    ("corrZSDvsK_40", JNum (0) 1);
    ("corrZSDvsK_50", JNum (0) 1);
    ("corrZSDvsK_60", JNum (0) 1);
    ("corrZSDvsK_70", JNum (0) 1);
    ("corrZSDvsK_80", JNum (0) 1);
    ("corrZSDvsK_90", JNum (0) 1);
    ("corrZSAvsK_10", JNum (0) 1);
    ("corrZSAvsK_20", JNum (0) 1);
    ("corrZSAvsK_30", JNum (0) 1);
    ("corrZSAvsK_40", JNum (0) 1);
    ("corrZSAvsK_50", JNum (0) 1);
    ("corrZSAvsK_60", JNum (0) 1);
    ("corrZSAvsK_70", JNum (0) 1);
    ("corrZSAvsK_80", JNum (0) 1);
    ("corrZSAvsK_90", JNum (0) 1);
    ("corrZSDvsDS_10", JNum (0) 1);
    ("corrZSDvsDS_20", JNum (0) 1);
    ("corrZSDvsDS_30", JNum (0) 1);
    ("corrZSDvsDS_40", JNum (0) 1);
    ("corrZSDvsDS_50", JNum (0) 1);
    ("corrZSDvsDS_60", JNum (0) 1);
    ("corrZSDvsDS_70", JNum (0) 1);
    ("corrZSDvsDS_80", JNum (0) 1);
    ("corrZSDvsDS_90", JNum (0) 1);
    ("corrZSAvsDS_10", JNum (0) 1);
    ("corrZSAvsDS_20", JNum (0) 1);
    ("corrZSAvsDS_30", JNum (0) 1);
    ("corrZSAvsDS_40", JNum (0) 1);
    ("corrZSAvsDS_50", JNum (0) 1);
    ("corrZSAvsDS_60", JNum (0) 1);
    ("corrZSAvsDS_70", JNum (0) 1);
    ("corrZSAvsDS_80", JNum (0) 1);
    ("corrZSAvsDS_90", JNum (0) 1);
    ("corrZSDvsASD_10", JNum (0) 1);
    ("corrZSDvsASD_20", JNum (0) 1);
    ("corrZSDvsASD_30", JNum (0) 1);
    ("corrZSDvsASD_40", JNum (0) 1);
    ("corrZSDvsASD_50", JNum (0) 1);
    ("corrZSDvsASD_60", JNum (0) 1);
    ("corrZSDvsASD_70", JNum (0) 1);
    ("corrZSDvsASD_80", JNum (0) 1);
    ("corrZSDvsASD_90", JNum (0) 1);
    ("corrZSAvsASD_10", JNum (0) 1);
    ("corrZSAvsASD_20", JNum (0) 1);
    ("corrZSAvsASD_30", JNum (0) 1);
    ("corrZSAvsASD_40", JNum (0) 1);
    ("corrZSAvsASD_50", JNum (0) 1);
    ("corrZSAvsASD_60", JNum (0) 1);
    ("corrZSAvsASD_70", JNum (0) 1);
    ("corrZSAvsASD_80", JNum (0) 1);
    ("corrZSAvsASD_90", JNum (0) 1);
    ("corrZSDvsASA_10", JNum (0) 1);
    ("corrZSDvsASA_20", JNum (0) 1);
    ("corrZSDvsASA_30", JNum (0) 1);
    ("corrZSDvsASA_40", JNum (0) 1);
    ("corrZSDvsASA_50", JNum (0) 1);
    ("corrZSDvsASA_60", JNum (0) 1);
    ("corrZSDvsASA_70", JNum (0) 1);
    ("corrZSDvsASA_80", JNum (0) 1);
    ("corrZSDvsASA_90", JNum (0) 1);
    ("corrZSAvsASA_10", JNum (0) 1);
    ("corrZSAvsASA_20", JNum (0) 1);
    ("corrZSAvsASA_30", JNum (0) 1);
    ("corrZSAvsASA_40", JNum (0) 1);
    ("corrZSAvsASA_50", JNum (0) 1);
    ("corrZSAvsASA_60", JNum (0) 1);
    ("corrZSAvsASA_70", JNum (0) 1);
    ("corrZSAvsASA_80", JNum (0) 1);
    ("corrZSAvsASA_90", JNum (0) 1);
    ("corrZSDvsZSA_10", JNum (0) 1);
    ("corrZSDvsZSA_20", JNum (0) 1);
    ("corrZSDvsZSA_30", JNum (0) 1);
    ("corrZSDvsZSA_40", JNum (0) 1);
    ("corrZSDvsZSA_50", JNum (0) 1);
    ("corrZSDvsZSA_60", JNum (0) 1);
    ("corrZSDvsZSA_70", JNum (0) 1);
    ("corrZSDvsZSA_80", JNum (0) 1);
    ("corrZSDvsZSA_90", JNum (0) 1) ].

(* /repo/OpenNTN/models/Sub_Urban_NLOS_Ka_band_UL.json *)
Definition tab_Sub_Urban_NLOS_Ka_band_UL : json_obj :=
  [ ("muDS_10", JNum (-743) 2);
    ("muDS_20", JNum (-763) 2);
    ("muDS_30", JNum (-786) 2);
    ("muDS_40", JNum (-796) 2);
    ("muDS_50", JNum (-798) 2);
    ("muDS_60", JNum (-845) 2);
    ("muDS_70", JNum (-821) 2);
    ("muDS_80", JNum (-869) 2);
    ("muDS_90", JNum (-869) 2);
    ("sigmaDS_10", JNum (50) 2);
    ("sigmaDS_20", JNum (61) 2);
    ("sigmaDS_30", JNum (56) 2);
    ("sigmaDS_40", JNum (58) 2);
    ("sigmaDS_50", JNum (59) 2);
    ("sigmaDS_60", JNum (47) 2);
    ("sigmaDS_70", JNum (36) 2);
    ("sigmaDS_80", JNum (29) 2);
    ("sigmaDS_90", JNum (29) 2);
    ("muASD_10", JNum (-289) 2);
    ("muASD_20", JNum (-276) 2);
    ("muASD_30", JNum (-264) 2);
    ("muASD_40", JNum (-241) 2);
    ("muASD_50", JNum (-242) 2);
    ("muASD_60", JNum (-253) 2);
    ("muASD_70", JNum (-235) 2);
    ("muASD_80", JNum (-231) 2);
    ("muASD_90", JNum (-231) 2);
    ("sigmaASD_10", JNum (41) 2);
    ("sigmaASD_20", JNum (41) 2);
    ("sigmaASD_30", JNum (41) 2);
    ("sigmaASD_40", JNum (52) 2);
    ("sigmaASD_50", JNum (70) 2);
    ("sigmaASD_60", JNum (50) 2);
    ("sigmaASD_70", JNum (58) 2);
    ("sigmaASD_80", JNum (73) 2);
    ("sigmaASD_90", JNum (73) 2);
    ("muASA_10", JNum (149) 2);
    ("muASA_20", JNum (124) 2);
    ("muASA_30", JNum (106) 2);
    ("muASA_40", JNum (91) 2);
    ("muASA_50", JNum (98) 2);
    ("muASA_60", JNum (49) 2);
    ("muASA_70", JNum (73) 2);
    ("muASA_80", JNum (-4) 2);
    ("muASA_90", JNum (-4) 2);
    ("sigmaASA_10", JNum (40) 2);
    ("sigmaASA_20", JNum (82) 2);
    ("sigmaASA_30", JNum (71) 2);
    ("sigmaASA_40", JNum (55) 2);
    ("sigmaASA_50", JNum (58) 2);
    ("sigmaASA_60", JNum (137) 2);
    ("sigmaASA_70", JNum (49) 2);
    ("sigmaASA_80", JNum (148) 2);
    ("sigmaASA_90", JNum (148) 2);
    ("muZSA_10", JNum (81) 2);
    ("muZSA_20", JNum (106) 2);
    ("muZSA_30", JNum (112) 2);
    ("muZSA_40", JNum (114) 2);
    ("muZSA_50", JNum (129) 2);
    ("muZSA_60", JNum (138) 2);
    ("muZSA_70", JNum (136) 2);
    ("muZSA_80", JNum (138) 2);
    ("muZSA_90", JNum (138) 2);
    ("sigmaZSA_10", JNum (36) 2);
    ("sigmaZSA_20", JNum (41) 2);
    ("sigmaZSA_30", JNum (40) 2);
    ("sigmaZSA_40", JNum (39) 2);
    ("sigmaZSA_50", JNum (35) 2);
    ("sigmaZSA_60", JNum (36) 2);
    ("sigmaZSA_70", JNum (29) 2);
    ("sigmaZSA_80", JNum (20) 2);
    ("sigmaZSA_90", JNum (20) 2);
    ("muZSD_10", JNum (-309) 2);
    ("muZSD_20", JNum (-293) 2);
    ("muZSD_30", JNum (-291) 2);
    ("muZSD_40", JNum (-278) 2);
    ("muZSD_50", JNum (-270) 2);
    ("muZSD_60", JNum (-303) 2);
    ("muZSD_70", JNum (-290) 2);
    ("muZSD_80", JNum (-330) 2);
    ("muZSD_90", JNum (-320) 2);
    ("sigmaZSD_10", JNum (32) 2);
    ("sigmaZSD_20", JNum (47) 2);
    ("sigmaZSD_30", JNum (46) 2);
    ("sigmaZSD_40", JNum (54) 2);
    ("sigmaZSD_50", JNum (45) 2);
    ("sigmaZSD_60", JNum (36) 2);
    ("sigmaZSD_70", JNum (42) 2);
    ("sigmaZSD_80", JNum (30) 2);
    ("sigmaZSD_90", JNum (30) 2);
    ("sigmaSF_10", JNum (1070) 2);
    ("sigmaSF_20", JNum (1000) 2);
    ("sigmaSF_30", JNum (1120) 2);
    ("sigmaSF_40", JNum (1160) 2);
    ("sigmaSF_50", JNum (1180) 2);
    ("sigmaSF_60", JNum (1080) 2);
    ("sigmaSF_70", JNum (1080) 2);
    ("sigmaSF_80", JNum (1080) 2);
    ("sigmaSF_90", JNum (1080) 2);
    ("CL_10", JNum (295) 1);
    ("CL_20", JNum (246) 1);
    ("CL_30", JNum (219) 1);
    ("CL_40", JNum (200) 1);
    ("CL_50", JNum (187) 1);
    ("CL_60", JNum (178) 1);
    ("CL_70", JNum (172) 1);
    ("CL_80", JNum (169) 1);
    ("CL_90", JNum (168) 1);
    ("muK_10", JNum (0) 1);
    ("muK_20", JNum (0) 1);
    ("muK_30", JNum (0) 1);
    ("muK_40", JNum (0) 1);
    ("muK_50", JNum (0) 1);
    ("muK_60", JNum (0) 1);
    ("muK_70", JNum (0) 1);
    ("muK_80", JNum (0) 1);
    ("muK_90", JNum (0) 1);
    ("sigmaK_10", JNum (0) 1);
    ("sigmaK_20", JNum (0) 1);
    ("sigmaK_30", JNum (0) 1);
    ("sigmaK_40", JNum (0) 1);
    ("sigmaK_50", JNum (0) 1);
    ("sigmaK_60", JNum (0) 1);
    ("sigmaK_70", JNum (0) 1);
    ("sigmaK_80", JNum (0) 1);
    ("sigmaK_90", JNum (0) 1);
    ("muXPR_10", JNum (225) 1);
    ("muXPR_20", JNum (194) 1);
    ("muXPR_30", JNum (155) 1);
    ("muXPR_40", JNum (139) 1);
    ("muXPR_50", JNum (117) 1);
    ("muXPR_60", JNum (98) 1);
    ("muXPR_70", JNum (103) 1);
    ("muXPR_80", JNum (156) 1);
    ("muXPR_90", JNum (156) 1);
    ("sigmaXPR_10", JNum (50) 1);
    ("sigmaXPR_20", JNum (85) 1);
    ("sigmaXPR_30", JNum (100) 1);
    ("sigmaXPR_40", JNum (106) 1);
    ("sigmaXPR_50", JNum (100) 1);
    ("sigmaXPR_60", JNum (91) 1);
    ("sigmaXPR_70", JNum (91) 1);
    ("sigmaXPR_80", JNum (91) 1);
    ("sigmaXPR_90", JNum (91) 1);
    ("rTau_10", JNum (23) 1);
    ("rTau_20", JNum (23) 1);
    ("rTau_30", JNum (23) 1);
    ("rTau_40", JNum (23) 1);
    ("rTau_50", JNum (23) 1);
    ("rTau_60", JNum (23) 1);
    ("rTau_70", JNum (230) 2);
    ("rTau_80", JNum (230) 2);
    ("rTau_90", JNum (230) 2);
    ("numClusters_10", JInt (4));
    ("numClusters_20", JInt (4));
    ("numClusters_30", JInt (4));
    ("numClusters_40", JInt (4));
    ("numClusters_50", JInt (4));
    ("numClusters_60", JInt (3));
    ("numClusters_70", JInt (3));
    ("numClusters_80", JInt (3));
    ("numClusters_90", JInt (3));
    ("zeta_10", JNum (30) 1);
    ("zeta_20", JNum (30) 1);
    ("zeta_30", JNum (30) 1);
    ("zeta_40", JNum (30) 1);
    ("zeta_50", JNum (30) 1);
    ("zeta_60", JNum (30) 1);
    ("zeta_70", JNum (30) 1);
    ("zeta_80", JNum (30) 1);
    ("zeta_90", JNum (30) 1);
    ("cDS_10", JNum (16) 1);
    ("cDS_20", JNum (16) 1);
    ("cDS_30", JNum (16) 1);
    ("cDS_40", JNum (16) 1);
    ("cDS_50", JNum (16) 1);
    ("cDS_60", JNum (16) 1);
    ("cDS_70", JNum (16) 1);
    ("cDS_80", JNum (16) 1);
    ("cDS_90", JNum (16) 1);
    ("cASD_10", JNum (0) 1);
    ("cASD_20", JNum (0) 1);
    ("cASD_30", JNum (0) 1);
    ("cASD_40", JNum (0) 1);
    ("cASD_50", JNum (0) 1);
    ("cASD_60", JNum (0) 1);
    ("cASD_70", JNum (0) 1);
    ("cASD_80", JNum (0) 1);
    ("cASD_90", JNum (0) 1);
    ("cASA_10", JNum (150) 1);
    ("cASA_20", JNum (150) 1);
    ("cASA_30", JNum (150) 1);
    ("cASA_40", JNum (150) 1);
    ("cASA_50", JNum (150) 1);
    ("cASA_60", JNum (150) 1);
    ("cASA_70", JNum (150) 1);
    ("cASA_80", JNum (150) 1);
    ("cASA_90", JNum (150) 1);
    ("cZSA_10", JNum (70) 1);
    ("cZSA_20", JNum (70) 1);
    ("cZSA_30", JNum (70) 1);
    ("cZSA_40", JNum (70) 1);
    ("cZSA_50", JNum (70) 1);
    ("cZSA_60", JNum (70) 1);
    ("cZSA_70", JNum (70) 1);
    ("cZSA_80", JNum (70) 1);
    ("cZSA_90", JNum (70) 1);
    ("LoS_p_10", JNum (782) 3);
    ("LoS_p_20", JNum (869) 3);
    ("LoS_p_30", JNum (919) 3);
    ("LoS_p_40", JNum (929) 3);
    ("LoS_p_50", JNum (935) 3);
    ("LoS_p_60", JNum (94) 2);
    ("LoS_p_70", JNum (949) 3);
    ("LoS_p_80", JNum (952) 3);
    ("LoS_p_90", JNum (998) 3);
    ("CPhiNLoS", JNum (779) 3);
    ("CThetaNLoS", JNum (697) 3);
    ("corrDistDS_10", JNum (400) 1);
    ("corrDistDS_20", JNum (400) 1);
    ("corrDistDS_30", JNum (400) 1);
    ("corrDistDS_40", JNum (400) 1);
    ("corrDistDS_50", JNum (400) 1);
    ("corrDistDS_60", JNum (400) 1);
    ("corrDistDS_70", JNum (400) 1);
    ("corrDistDS_80", JNum (400) 1);
    ("corrDistDS_90", JNum (400) 1);
    ("corrDistASD_10", JNum (500) 1);
    ("corrDistASD_20", JNum (500) 1);
    ("corrDistASD_30", JNum (500) 1);
    ("corrDistASD_40", JNum (500) 1);
    ("corrDistASD_50", JNum (500) 1);
    ("corrDistASD_60", JNum (500) 1);
    ("corrDistASD_70", JNum (500) 1);
    ("corrDistASD_80", JNum (500) 1);
    ("corrDistASD_90", JNum (500) 1);
    ("corrDistASA_10", JNum (500) 1);
    ("corrDistASA_20", JNum (500) 1);
    ("corrDistASA_30", JNum (500) 1);
    ("corrDistASA_40", JNum (500) 1);
    ("corrDistASA_50", JNum (500) 1);
    ("corrDistASA_60", JNum (500) 1);
    ("corrDistASA_70", JNum (500) 1);
    ("corrDistASA_80", JNum (500) 1);
    ("corrDistASA_90", JNum (500) 1);
    ("corrDistSF_10", JNum (500) 1);
    ("corrDistSF_20", JNum (500) 1);
    ("corrDistSF_30", JNum (500) 1);
    ("corrDistSF_40", JNum (500) 1);
    ("corrDistSF_50", JNum (500) 1);
    ("corrDistSF_60", JNum (500) 1);
    ("corrDistSF_70", JNum (500) 1);
    ("corrDistSF_80", JNum (500) 1);
    ("corrDistSF_90", JNum (500) 1);
    ("corrDistK_10", JNum (10) 1);
    ("corrDistK_20", JNum (10) 1);
    ("corrDistK_30", JNum (10) 1);
    ("corrDistK_40", JNum (10) 1);
    ("corrDistK_50", JNum (10) 1);
    ("corrDistK_60", JNum (10) 1);
    ("corrDistK_70", JNum (10) 1);
    ("corrDistK_80", JNum (10) 1);
    ("corrDistK_90", JNum (10) 1);
    ("corrDistZSA_10", JNum (500) 1);
    ("corrDistZSA_20", JNum (500) 1);
    ("corrDistZSA_30", JNum (500) 1);
    ("corrDistZSA_40", JNum (500) 1);
    ("corrDistZSA_50", JNum (500) 1);
    ("corrDistZSA_60", JNum (500) 1);
    ("corrDistZSA_70", JNum (500) 1);
    ("corrDistZSA_80", JNum (500) 1);
    ("corrDistZSA_90", JNum (500) 1);
    ("corrDistZSD_10", JNum (500) 1);
    ("corrDistZSD_20", JNum (500) 1);
    ("corrDistZSD_30", JNum (500) 1);
    ("corrDistZSD_40", JNum (500) 1);
    ("corrDistZSD_50", JNum (500) 1);
    ("corrDistZSD_60", JNum (500) 1);
    ("corrDistZSD_70", JNum (500) 1);
    ("corrDistZSD_80", JNum (500) 1);
    ("corrDistZSD_90", JNum (500) 1);
    ("corrASDvsDS_10", JNum (4) 1);
    ("corrASDvsDS_20", JNum (4) 1);
    ("corrASDvsDS_30", JNum (4) 1);
    ("corrASDvsDS_40", JNum (4) 1);
    ("corrASDvsDS_50", JNum (4) 1);
    ("corrASDvsDS_60", JNum (4) 1);
    ("corrASDvsDS_70", JNum (4) 1);
    ("corrASDvsDS_80", JNum (4) 1);
    ("corrASDvsDS_90", JNum (4) 1);
    ("corrASAvsDS_10", JNum (6) 1);
    ("corrASAvsDS_20", JNum (6) 1);
    ("corrASAvsDS_30", JNum (6) 1);
    ("corrASAvsDS_40", JNum (6) 1);
    ("corrASAvsDS_50", JNum (6) 1);
    ("corrASAvsDS_60", JNum (6) 1);
    ("corrASAvsDS_70", JNum (6) 1);
    ("corrASAvsDS_80", JNum (6) 1);
    ("corrASAvsDS_90", JNum (6) 1);
    ("corrASAvsSF_10", JNum (0) 1);
    ("corrASAvsSF_20", JNum (0) 1);
    ("corrASAvsSF_30", JNum (0) 1);
    ("corrASAvsSF_40", JNum (0) 1);
    ("corrASAvsSF_50", JNum (0) 1);
    ("corrASAvsSF_60", JNum (0) 1);
    ("corrASAvsSF_70", JNum (0) 1);
    ("corrASAvsSF_80", JNum (0) 1);
    ("corrASAvsSF_90", JNum (0) 1);
    ("corrASDvsSF_10", JNum (-6) 1);
    ("corrASDvsSF_20", JNum (-6) 1);
    ("corrASDvsSF_30", JNum (-6) 1);
    ("corrASDvsSF_40", JNum (-6) 1);
    ("corrASDvsSF_50", JNum (-6) 1);
    ("corrASDvsSF_60", JNum (-6) 1);
    ("corrASDvsSF_70", JNum (-6) 1);
    ("corrASDvsSF_80", JNum (-6) 1);
    ("corrASDvsSF_90", JNum (-6) 1);
    ("corrDSvsSF_10", JNum (-4) 1);
    ("corrDSvsSF_20", JNum (-4) 1);
    ("corrDSvsSF_30", JNum (-4) 1);
    ("corrDSvsSF_40", JNum (-4) 1);
    ("corrDSvsSF_50", JNum (-4) 1);
    ("corrDSvsSF_60", JNum (-4) 1);
    ("corrDSvsSF_70", JNum (-4) 1);
    ("corrDSvsSF_80", JNum (-4) 1);
    ("corrDSvsSF_90", JNum (-4) 1);
    ("corrASDvsASA_10", JNum (4) 1);
    ("corrASDvsASA_20", JNum (4) 1);
    ("corrASDvsASA_30", JNum (4) 1);
    ("corrASDvsASA_40", JNum (4) 1);
    ("corrASDvsASA_50", JNum (4) 1);
    ("corrASDvsASA_60", JNum (4) 1);
    ("corrASDvsASA_70", JNum (4) 1);
    ("corrASDvsASA_80", JNum (4) 1);
    ("corrASDvsASA_90", JNum (4) 1);
    ("corrASDvsK_10", JNum (0) 1);
    ("corrASDvsK_20", JNum (0) 1);
    ("corrASDvsK_30", JNum (0) 1);
    ("corrASDvsK_40", JNum (0) 1);
    ("corrASDvsK_50", JNum (0) 1);
    ("corrASDvsK_60", JNum (0) 1);
    ("corrASDvsK_70", JNum (0) 1);
    ("corrASDvsK_80", JNum (0) 1);
    ("corrASDvsK_90", JNum (0) 1);
    ("corrASAvsK_10", JNum (0) 1);
    ("corrASAvsK_20", JNum (0) 1);
    ("corrASAvsK_30", JNum (0) 1);
    ("corrASAvsK_40", JNum (0) 1);
    ("corrASAvsK_50", JNum (0) 1);
    ("corrASAvsK_60", JNum (0) 1);
    ("corrASAvsK_70", JNum (0) 1);
    ("corrASAvsK_80", JNum (0) 1);
    ("corrASAvsK_90", JNum (0) 1);
    ("corrDSvsK_10", JNum (0) 1);
    ("corrDSvsK_20", JNum (0) 1);
    ("corrDSvsK_30", JNum (0) 1);
    ("corrDSvsK_40", JNum (0) 1);
    ("corrDSvsK_50", JNum (0) 1);
    ("corrDSvsK_60", JNum (0) 1);
    ("corrDSvsK_70", JNum (0) 1);
    ("corrDSvsK_80", JNum (0) 1);
    ("corrDSvsK_90", JNum (0) 1);
    ("corrSFvsK_10", JNum (0) 1);
    ("corrSFvsK_20", JNum (0) 1);
    ("corrSFvsK_30", JNum (0) 1);
    ("corrSFvsK_40", JNum (0) 1);
    ("corrSFvsK_50", JNum (0) 1);
    ("corrSFvsK_60", JNum (0) 1);
    ("corrSFvsK_70", JNum (0) 1);
    ("corrSFvsK_80", JNum (0) 1);
    ("corrSFvsK_90", JNum (0) 1);
    ("corrZSDvsSF_10", JNum (0) 1);
    ("corrZSDvsSF_20", JNum (0) 1);
    ("corrZSDvsSF_30", JNum (0) 1);
    ("corrZSDvsSF_40", JNum (0) 1);
    ("corrZSDvsSF_50", JNum (0) 1);
    ("corrZSDvsSF_60", JNum (0) 1);
    ("corrZSDvsSF_70", JNum (0) 1);
    ("corrZSDvsSF_80", JNum (0) 1);
    ("corrZSDvsSF_90", JNum (0) 1);
    ("corrZSAvsSF_10", JNum (-4) 1);
    ("corrZSAvsSF_20", JNum (-4) 1);
    ("corrZSAvsSF_30", JNum (-4) 1);
    ("corrZSAvsSF_40", JNum (-4) 1);
    ("corrZSAvsSF_50", JNum (-4) 1);
    ("corrZSAvsSF_60", JNum (-4) 1);
    ("corrZSAvsSF_70", JNum (-4) 1);
    ("corrZSAvsSF_80", JNum (-4) 1);
    ("corrZSAvsSF_90", JNum (-4) 1);
    ("corrZSDvsK_10", JNum (0) 1);
    ("corrZSDvsK_20", JNum (0) 1);
    ("corrZSDvsK_30", JNum (0) 1);
    ("corrZSDvsK_40", JNum (0) 1);
    ("corrZSDvsK_50", JNum (0) 1);
    ("corrZSDvsK_60", JNum (0) 1);
    ("corrZSDvsK_70", JNum (0) 1);
    ("corrZSDvsK_80", JNum (0) 1);
    ("corrZSDvsK_90", JNum (0) 1);
    ("corrZSAvsK_10", JNum (0) 1);
    ("corrZSAvsK_20", JNum (0) 1);
    ("corrZSAvsK_30", JNum (0) 1);
    ("corrZSAvsK_40", JNum (0) 1);
    ("corrZSAvsK_50", JNum (0) 1);
    ("corrZSAvsK_60", JNum (0) 1);
    ("corrZSAvsK_70", JNum (0) 1);
    ("corrZSAvsK_80", JNum (0) 1);
    ("corrZSAvsK_90", JNum (0) 1);
    ("corrZSDvsDS_10", JNum (-5) 1);
    ("corrZSDvsDS_20", JNum (-5) 1);
    ("corrZSDvsDS_30", JNum (-5) 1);
    ("corrZSDvsDS_40", JNum (-5) 1);
    ("corrZSDvsDS_50", JNum (-5) 1);
    ("corrZSDvsDS_60", JNum (-5) 1);
    ("corrZSDvsDS_70", JNum (-5) 1);
    ("corrZSDvsDS_80", JNum (-5) 1);
    ("corrZSDvsDS_90", JNum (-5) 1);
    ("corrZSAvsDS_10", JNum (0) 1);
    ("corrZSAvsDS_20", JNum (0) 1);
    ("corrZSAvsDS_30", JNum (0) 1);
    ("corrZSAvsDS_40", JNum (0) 1);
    ("corrZSAvsDS_50", JNum (0) 1);
    ("corrZSAvsDS_60", JNum (0) 1);
    ("corrZSAvsDS_70", JNum (0) 1);
    ("corrZSAvsDS_80", JNum (0) 1);
    ("corrZSAvsDS_90", JNum (0) 1);
    ("corrZSDvsASD_10", JNum (5) 1);
    ("corrZSDvsASD_20", JNum (5) 1);
    ("corrZSDvsASD_30", JNum (5) 1);
    ("corrZSDvsASD_40", JNum (5) 1);
    ("corrZSDvsASD_50", JNum (5) 1);
    ("corrZSDvsASD_60", JNum (5) 1);
    ("corrZSDvsASD_70", JNum (5) 1);
    ("corrZSDvsASD_80", JNum (5) 1);
    ("corrZSDvsASD_90", JNum (5) 1);
    ("corrZSAvsASD_10", JNum (-1) 1);
    ("corrZSAvsASD_20", JNum (-1) 1);
    ("corrZSAvsASD_30", JNum (-1) 1);
    ("corrZSAvsASD_40", JNum (-1) 1);
    ("corrZSAvsASD_50", JNum (-1) 1);
    ("corrZSAvsASD_60", JNum (-1) 1);
    ("corrZSAvsASD_70", JNum (-1) 1);
    ("corrZSAvsASD_80", JNum (-1) 1);
    ("corrZSAvsASD_90", JNum (-1) 1);
    ("corrZSDvsASA_10", JNum (0) 1);
    ("corrZSDvsASA_20", JNum (0) 1);
    ("corrZSDvsASA_30", JNum (0) 1);
    ("corrZSDvsASA_40", JNum (0) 1);
    ("corrZSDvsASA_50", JNum (0) 1);
    ("corrZSDvsASA_60", JNum (0) 1);
    ("corrZSDvsASA_70", JNum (0) 1);
    ("corrZSDvsASA_80", JNum (0) 1);
    ("corrZSDvsASA_90", JNum (0) 1);
    ("corrZSAvsASA_10", JNum (0) 1);
    ("corrZSAvsASA_20", JNum (0) 1);
    ("corrZSAvsASA_30", JNum (0) 1);
    ("corrZSAvsASA_40", JNum (0) 1);
    ("corrZSAvsASA_50", JNum (0) 1);
    ("corrZSAvsASA_60", JNum (0) 1);
    ("corrZSAvsASA_70", JNum (0) 1);
    ("corrZSAvsASA_80", JNum (0) 1);
    ("corrZSAvsASA_90", JNum (0) 1);
    ("corrZSDvsZSA_10", JNum (0) 1);
    ("corrZSDvsZSA_20", JNum (0) 1);
    ("corrZSDvsZSA_30", JNum (0) 1);
    ("corrZSDvsZSA_40", JNum (0) 1);
    ("corrZSDvsZSA_50", JNum (0) 1);
    ("corrZSDvsZSA_60", JNum (0) 1);
    ("corrZSDvsZSA_70", JNum (0) 1);
    ("corrZSDvsZSA_80", JNum (0) 1);
    ("corrZSDvsZSA_90", JNum (0) 1) ].

(* /repo/OpenNTN/models/Sub_Urban_NLOS_S_band_DL.json *)
Definition tab_Sub_Urban_NLOS_S_band_DL : json_obj :=
  [ ("muDS_10", JNum (-791) 2);
    ("muDS_20", JNum (-839) 2);
    ("muDS_30", JNum (-869) 2);
    ("muDS_40", JNum (-859) 2);
    ("muDS_50", JNum (-864) 2);
    ("muDS_60", JNum (-874) 2);
    ("muDS_70", JNum (-898) 2);
    ("muDS_80", JNum (-928) 2);
    ("muDS_90", JNum (-928) 2);
    ("sigmaDS_10", JNum (142) 2);
    ("sigmaDS_20", JNum (146) 2);
    ("sigmaDS_30", JNum (146) 2);
    ("sigmaDS_40", JNum (121) 2);
    ("sigmaDS_50", JNum (118) 2);
    ("sigmaDS_60", JNum (113) 2);
    ("sigmaDS_70", JNum (137) 2);
    ("sigmaDS_80", JNum (150) 2);
    ("sigmaDS_90", JNum (150) 2);
    ("muASD_10", JStr "-inf");
    ("muASD_20", JStr "-inf");
    ("muASD_30", JStr "-inf");
    ("muASD_40", JStr "-inf");
    ("muASD_50", JStr "-inf");
    ("muASD_60", JStr "-inf");
    ("muASD_70", JStr "-inf");
    ("muASD_80", JStr "-inf");
    ("muASD_90", JStr "-inf");
    ("sigmaASD_10", JNum (0) 1);
    ("sigmaASD_20", JNum (0) 1);
    ("sigmaASD_30", JNum (0) 1);
    ("sigmaASD_40", JNum (0) 1);
    ("sigmaASD_50", JNum (0) 1);
    ("sigmaASD_60", JNum (0) 1);
    ("sigmaASD_70", JNum (0) 1);
    ("sigmaASD_80", JNum (0) 1);
    ("sigmaASD_90", JNum (0) 1);
    ("muASA_10", JNum (91) 2);
    ("muASA_20", JNum (70) 2);
    ("muASA_30", JNum (38) 2);
    ("muASA_40", JNum (30) 2);
    ("muASA_50", JNum (28) 2);
    ("muASA_60", JNum (23) 2);
    ("muASA_70", JNum (10) 2);
    ("muASA_80", JNum (4) 2);
    ("muASA_90", JNum (4) 2);
    ("sigmaASA_10", JNum (170) 2);
    ("sigmaASA_20", JNum (133) 2);
    ("sigmaASA_30", JNum (152) 2);
    ("sigmaASA_40", JNum (146) 2);
    ("sigmaASA_50", JNum (144) 2);
    ("sigmaASA_60", JNum (144) 2);
    ("sigmaASA_70", JNum (124) 2);
    ("sigmaASA_80", JNum (104) 2);
    ("sigmaASA_90", JNum (104) 2);
    ("muZSA_10", JNum (-190) 2);
    ("muZSA_20", JNum (-170) 2);
    ("muZSA_30", JNum (-175) 2);
    ("muZSA_40", JNum (-180) 2);
    ("muZSA_50", JNum (-180) 2);
    ("muZSA_60", JNum (-185) 2);
    ("muZSA_70", JNum (-145) 2);
    ("muZSA_80", JNum (-119) 2);
    ("muZSA_90", JNum (-119) 2);
    ("sigmaZSA_10", JNum (163) 2);
    ("sigmaZSA_20", JNum (124) 2);
    ("sigmaZSA_30", JNum (154) 2);
    ("sigmaZSA_40", JNum (125) 2);
    ("sigmaZSA_50", JNum (121) 2);
    ("sigmaZSA_60", JNum (120) 2);
    ("sigmaZSA_70", JNum (138) 2);
    ("sigmaZSA_80", JNum (158) 2);
    ("sigmaZSA_90", JNum (158) 2);
    ("muZSD_10", JStr "-inf");
    ("muZSD_20", JStr "-inf");
    ("muZSD_30", JStr "-inf");
    ("muZSD_40", JStr "-inf");
    ("muZSD_50", JStr "-inf");
    ("muZSD_60", JStr "-inf");
    ("muZSD_70", JStr "-inf");
    ("muZSD_80", JStr "-inf");
    ("muZSD_90", JStr "-inf");
    ("sigmaZSD_10", JNum (0) 1);
    ("sigmaZSD_20", JNum (0) 1);
    ("sigmaZSD_30", JNum (0) 1);
    ("sigmaZSD_40", JNum (0) 1);
    ("sigmaZSD_50", JNum (0) 1);
    ("sigmaZSD_60", JNum (0) 1);
    ("sigmaZSD_70", JNum (0) 1);
    ("sigmaZSD_80", JNum (0) 1);
    ("sigmaZSD_90", JNum (0) 1);
    ("sigmaSF_10", JNum (893) 2);
    ("sigmaSF_20", JNum (908) 2);
    ("sigmaSF_30", JNum (878) 2);
    ("sigmaSF_40", JNum (1025) 2);
    ("sigmaSF_50", JNum (1056) 2);
    ("sigmaSF_60", JNum (1074) 2);
    ("sigmaSF_70", JNum (1017) 2);
    ("sigmaSF_80", JNum (1152) 2);
    ("sigmaSF_90", JNum (1152) 2);
    ("CL_10", JNum (1952) 2);
    ("CL_20", JNum (1817) 2);
    ("CL_30", JNum (1842) 2);
    ("CL_40", JNum (1828) 2);
    ("CL_50", JNum (1863) 2);
    ("CL_60", JNum (1768) 2);
    ("CL_70", JNum (1650) 2);
    ("CL_80", JNum (1630) 2);
    ("CL_90", JNum (1630) 2);
    ("muK_10", JNum (0) 1);
    ("muK_20", JNum (0) 1);
    ("muK_30", JNum (0) 1);
    ("muK_40", JNum (0) 1);
    ("muK_50", JNum (0) 1);
    ("muK_60", JNum (0) 1);
    ("muK_70", JNum (0) 1);
    ("muK_80", JNum (0) 1);
    ("muK_90", JNum (0) 1);
    ("sigmaK_10", JNum (0) 1);
    ("sigmaK_20", JNum (0) 1);
    ("sigmaK_30", JNum (0) 1);
    ("sigmaK_40", JNum (0) 1);
    ("sigmaK_50", JNum (0) 1);
    ("sigmaK_60", JNum (0) 1);
    ("sigmaK_70", JNum (0) 1);
    ("sigmaK_80", JNum (0) 1);
    ("sigmaK_90", JNum (0) 1);
    ("muXPR_10", JNum (206) 1);
    ("muXPR_20", JNum (167) 1);
    ("muXPR_30", JNum (132) 1);
    ("muXPR_40", JNum (113) 1);
    ("muXPR_50", JNum (96) 1);
    ("muXPR_60", JNum (75) 1);
    ("muXPR_70", JNum (91) 1);
    ("muXPR_80", JNum (117) 1);
    ("muXPR_90", JNum (117) 1);
    ("sigmaXPR_10", JNum (85) 1);
    ("sigmaXPR_20", JNum (120) 1);
    ("sigmaXPR_30", JNum (128) 1);
    ("sigmaXPR_40", JNum (138) 1);
    ("sigmaXPR_50", JNum (125) 1);
    ("sigmaXPR_60", JNum (112) 1);
    ("sigmaXPR_70", JNum (101) 1);
    ("sigmaXPR_80", JNum (1310) 2);
    ("sigmaXPR_90", JNum (1310) 2);
    ("rTau_10", JNum (228) 2);
    ("rTau_20", JNum (233) 2);
    ("rTau_30", JNum (243) 2);
    ("rTau_40", JNum (226) 2);
    ("rTau_50", JNum (271) 2);
    ("rTau_60", JNum (210) 2);
    ("rTau_70", JNum (219) 2);
    ("rTau_80", JNum (206) 2);
    ("rTau_90", JNum (206) 2);
    ("numClusters_10", JInt (4));
    ("numClusters_20", JInt (4));
    ("numClusters_30", JInt (4));
    ("numClusters_40", JInt (4));
    ("numClusters_50", JInt (4));
    ("numClusters_60", JInt (3));
    ("numClusters_70", JInt (3));
    ("numClusters_80", JInt (3));
    ("numClusters_90", JInt (3));
    ("zeta_10", JNum (30) 1);
    ("zeta_20", JNum (30) 1);
    ("zeta_30", JNum (30) 1);
    ("zeta_40", JNum (30) 1);
    ("zeta_50", JNum (30) 1);
    ("zeta_60", JNum (30) 1);
    ("zeta_70", JNum (30) 1);
    ("zeta_80", JNum (30) 1);
    ("zeta_90", JNum (30) 1);
    ("cDS_10", JNum (16) 1);
    ("cDS_20", JNum (16) 1);
    ("cDS_30", JNum (16) 1);
    ("cDS_40", JNum (16) 1);
    ("cDS_50", JNum (16) 1);
    ("cDS_60", JNum (16) 1);
    ("cDS_70", JNum (16) 1);
    ("cDS_80", JNum (16) 1);
    ("cDS_90", JNum (16) 1);
    ("cASD_10", JNum (0) 1);
    ("cASD_20", JNum (0) 1);
    ("cASD_30", JNum (0) 1);
    ("cASD_40", JNum (0) 1);
    ("cASD_50", JNum (0) 1);
    ("cASD_60", JNum (0) 1);
    ("cASD_70", JNum (0) 1);
    ("cASD_80", JNum (0) 1);
    ("cASD_90", JNum (0) 1);
    ("cASA_10", JNum (150) 1);
    ("cASA_20", JNum (150) 1);
    ("cASA_30", JNum (150) 1);
    ("cASA_40", JNum (150) 1);
    ("cASA_50", JNum (150) 1);
    ("cASA_60", JNum (150) 1);
    ("cASA_70", JNum (150) 1);
    ("cASA_80", JNum (150) 1);
    ("cASA_90", JNum (150) 1);
    ("cZSA_10", JNum (70) 1);
    ("cZSA_20", JNum (70) 1);
    ("cZSA_30", JNum (70) 1);
    ("cZSA_40", JNum (70) 1);
    ("cZSA_50", JNum (70) 1);
    ("cZSA_60", JNum (70) 1);
    ("cZSA_70", JNum (70) 1);
    ("cZSA_80", JNum (70) 1);
    ("cZSA_90", JNum (70) 1);
    ("LoS_p_10", JNum (782) 3);
    ("LoS_p_20", JNum (869) 3);
    ("LoS_p_30", JNum (919) 3);
    ("LoS_p_40", JNum (929) 3);
    ("LoS_p_50", JNum (935) 3);
    ("LoS_p_60", JNum (94) 2);
    ("LoS_p_70", JNum (949) 3);
    ("LoS_p_80", JNum (952) 3);
    ("LoS_p_90", JNum (998) 3);
    ("CPhiNLoS", JNum (779) 3);
    ("CThetaNLoS", JNum (697) 3);
    ("corrDistDS_10", JNum (400) 1);
    ("corrDistDS_20", JNum (400) 1);
    ("corrDistDS_30", JNum (400) 1);
    ("corrDistDS_40", JNum (400) 1);
    ("corrDistDS_50", JNum (400) 1);
    ("corrDistDS_60", JNum (400) 1);
    ("corrDistDS_70", JNum (400) 1);
    ("corrDistDS_80", JNum (400) 1);
    ("corrDistDS_90", JNum (400) 1);
    ("corrDistASD_10", JNum (500) 1);
    ("corrDistASD_20", JNum (500) 1);
    ("corrDistASD_30", JNum (500) 1);
    ("corrDistASD_40", JNum (500) 1);
    ("corrDistASD_50", JNum (500) 1);
    ("corrDistASD_60", JNum (500) 1);
    ("corrDistASD_70", JNum (500) 1);
    ("corrDistASD_80", JNum (500) 1);
    ("corrDistASD_90", JNum (500) 1);
    ("corrDistASA_10", JNum (500) 1);
    ("corrDistASA_20", JNum (500) 1);
    ("corrDistASA_30", JNum (500) 1);
    ("corrDistASA_40", JNum (500) 1);
    ("corrDistASA_50", JNum (500) 1);
    ("corrDistASA_60", JNum (500) 1);
    ("corrDistASA_70", JNum (500) 1);
    ("corrDistASA_80", JNum (500) 1);
    ("corrDistASA_90", JNum (500) 1);
    ("corrDistSF_10", JNum (500) 1);
    ("corrDistSF_20", JNum (500) 1);
    ("corrDistSF_30", JNum (500) 1);
    ("corrDistSF_40", JNum (500) 1);
    ("corrDistSF_50", JNum (500) 1);
    ("corrDistSF_60", JNum (500) 1);
    ("corrDistSF_70", JNum (500) 1);
    ("corrDistSF_80", JNum (500) 1);
    ("corrDistSF_90", JNum (500) 1);
    ("corrDistK_10", JNum (10) 1);
    ("corrDistK_20", JNum (10) 1);
    ("corrDistK_30", JNum (10) 1);
    ("corrDistK_40", JNum (10) 1);
    ("corrDistK_50", JNum (10) 1);
    ("corrDistK_60", JNum (10) 1);
    ("corrDistK_70", JNum (10) 1);
    ("corrDistK_80", JNum (10) 1);
    ("corrDistK_90", JNum (10) 1);
    ("corrDistZSA_10", JNum (500) 1);
    ("corrDistZSA_20", JNum (500) 1);
    ("corrDistZSA_30", JNum (500) 1);
    ("corrDistZSA_40", JNum (500) 1);
    ("corrDistZSA_50", JNum (500) 1);
    ("corrDistZSA_60", JNum (500) 1);
    ("corrDistZSA_70", JNum (500) 1);
    ("corrDistZSA_80", JNum (500) 1);
    ("corrDistZSA_90", JNum (500) 1);
    ("corrDistZSD_10", JNum (500) 1);
    ("corrDistZSD_20", JNum (500) 1);
    ("corrDistZSD_30", JNum (500) 1);
    ("corrDistZSD_40", JNum (500) 1);
    ("corrDistZSD_50", JNum (500) 1);
    ("corrDistZSD_60", JNum (500) 1);
    ("corrDistZSD_70", JNum (500) 1);
    ("corrDistZSD_80", JNum (500) 1);
    ("corrDistZSD_90", JNum (500) 1);
    ("corrASDvsDS_10", JNum (0) 1);
    ("corrASDvsDS_20", JNum (0) 1);
    ("corrASDvsDS_30", JNum (0) 1);
    ("corrASDvsDS_40", JNum (0) 1);
    ("corrASDvsDS_50", JNum (0) 1);
    ("corrASDvsDS_60", JNum (0) 1);
    ("corrASDvsDS_70", JNum (0) 1);
    ("corrASDvsDS_80", JNum (0) 1);
    ("corrASDvsDS_90", JNum (0) 1);
    ("corrASAvsDS_10", JNum (6) 1);
    ("corrASAvsDS_20", JNum (6) 1);
    ("corrASAvsDS_30", JNum (6) 1);
    ("corrASAvsDS_40", JNum (6) 1);
    ("corrASAvsDS_50", JNum (6) 1);
    ("corrASAvsDS_60", JNum (6) 1);
    ("corrASAvsDS_70", JNum (6) 1);
    ("corrASAvsDS_80", JNum (6) 1);
    ("corrASAvsDS_90", JNum (6) 1);
    ("corrASAvsSF_10", JNum (0) 1);
    ("corrASAvsSF_20", JNum (0) 1);
    ("corrASAvsSF_30", JNum (0) 1);
    ("corrASAvsSF_40", JNum (0) 1);
    ("corrASAvsSF_50", JNum (0) 1);
    ("corrASAvsSF_60", JNum (0) 1);
    ("corrASAvsSF_70", JNum (0) 1);
    ("corrASAvsSF_80", JNum (0) 1);
    ("corrASAvsSF_90", JNum (0) 1);
    ("corrASDvsSF_10", JNum (0) 1);
    ("corrASDvsSF_20", JNum (0) 1);
    ("corrASDvsSF_30", JNum (0) 1);
    ("corrASDvsSF_40", JNum (0) 1);
    ("corrASDvsSF_50", JNum (0) 1);
    ("corrASDvsSF_60", JNum (0) 1);
    ("corrASDvsSF_70", JNum (0) 1);
    ("corrASDvsSF_80", JNum (0) 1);
    ("corrASDvsSF_90", JNum (0) 1);
    ("corrDSvsSF_10", JNum (-4) 1);
    ("corrDSvsSF_20", JNum (-4) 1);
    ("corrDSvsSF_30", JNum (-4) 1);
    ("corrDSvsSF_40", JNum (-4) 1);
    ("corrDSvsSF_50", JNum (-4) 1);
    ("corrDSvsSF_60", JNum (-4) 1);
    ("corrDSvsSF_70", JNum (-4) 1);
    ("corrDSvsSF_80", JNum (-4) 1);
    ("corrDSvsSF_90", JNum (-4) 1);
    ("corrASDvsASA_10", JNum (0) 1);
    ("corrASDvsASA_20", JNum (0) 1);
    ("corrASDvsASA_30", JNum (0) 1);
    ("corrASDvsASA_40", JNum (0) 1);
    ("corrASDvsASA_50", JNum (0) 1);
    ("corrASDvsASA_60", JNum (0) 1);
    ("corrASDvsASA_70", JNum (0) 1);
    ("corrASDvsASA_80", JNum (0) 1);
    ("corrASDvsASA_90", JNum (0) 1);
    ("corrASDvsK_10", JNum (0) 1);
    ("corrASDvsK_20", JNum (0) 1);
    ("corrASDvsK_30", JNum (0) 1);
    ("corrASDvsK_40", JNum (0) 1);
    ("corrASDvsK_50", JNum (0) 1);
    ("corrASDvsK_60", JNum (0) 1);
    ("corrASDvsK_70", JNum (0) 1);
    ("corrASDvsK_80", JNum (0) 1);
    ("corrASDvsK_90", JNum (0) 1);
    ("corrASAvsK_10", JNum (0) 1);
    ("corrASAvsK_20", JNum (0) 1);
    ("corrASAvsK_30", JNum (0) 1);
    ("corrASAvsK_40", JNum (0) 1);
    ("corrASAvsK_50", JNum (0) 1);
    ("corrASAvsK_60", JNum (0) 1);
    ("corrASAvsK_70", JNum (0) 1);
    ("corrASAvsK_80", JNum (0) 1);
    ("corrASAvsK_90", JNum (0) 1);
    ("corrDSvsK_10", JNum (0) 1);
    ("corrDSvsK_20", JNum (0) 1);
    ("corrDSvsK_30", JNum (0) 1);
    ("corrDSvsK_40", JNum (0) 1);
    ("corrDSvsK_50", JNum (0) 1);
    ("corrDSvsK_60", JNum (0) 1);
    ("corrDSvsK_70", JNum (0) 1);
    ("corrDSvsK_80", JNum (0) 1);
    ("corrDSvsK_90", JNum (0) 1);
    ("corrSFvsK_10", JNum (0) 1);
    ("corrSFvsK_20", JNum (0) 1);
    ("corrSFvsK_30", JNum (0) 1);
    ("corrSFvsK_40", JNum (0) 1);
    ("corrSFvsK_50", JNum (0) 1);
    ("corrSFvsK_60", JNum (0) 1);
    ("corrSFvsK_70", JNum (0) 1);
    ("corrSFvsK_80", JNum (0) 1);
    ("corrSFvsK_90", JNum (0) 1);
    ("corrZSDvsSF_10", JNum (0) 1);
    ("corrZSDvsSF_20", JNum (0) 1);
    ("corrZSDvsSF_30", JNum (0) 1);
    ("corrZSDvsSF_40", JNum (0) 1);
    ("corrZSDvsSF_50", JNum (0) 1);
    ("corrZSDvsSF_60", JNum (0) 1);
    ("corrZSDvsSF_70", JNum (0) 1);
    ("corrZSDvsSF_80", JNum (0) 1);
    ("corrZSDvsSF_90", JNum (0) 1);
    ("corrZSAvsSF_10", JNum (-4) 1);
    ("corrZSAvsSF_20", JNum (-4) 1);
    ("corrZSAvsSF_30", JNum (-4) 1);
    ("corrZSAvsSF_40", JNum (-4) 1);
    ("corrZSAvsSF_50", JNum (-4) 1);
    ("corrZSAvsSF_60", JNum (-4) 1);
    ("corrZSAvsSF_70", JNum (-4) 1);
    ("corrZSAvsSF_80", JNum (-4) 1);
    ("corrZSAvsSF_90", JNum (-4) 1);
    ("corrZSDvsK_10", JNum (0) 1);
    ("corrZSDvsK_20", JNum (0) 1);
    ("corrZSDvsK_30", JNum (0) 1);
    ("corrZSDvsK_40", JNum (0) 1);
    ("corrZSDvsK_50", JNum (0) 1);
    ("corrZSDvsK_60", JNum (0) 1);
    ("corrZSDvsK_70", JNum (0) 1);
    ("corrZSDvsK_80", JNum (0) 1);
    ("corrZSDvsK_90", JNum (0) 1);
    ("corrZSAvsK_10", JNum (0) 1);
    ("corrZSAvsK_20", JNum (0) 1);
    ("corrZSAvsK_30", JNum (0) 1);
    ("corrZSAvsK_40", JNum (0) 1);
    ("corrZSAvsK_50", JNum (0) 1);
    ("corrZSAvsK_60", JNum (0) 1);
    ("corrZSAvsK_70", JNum (0) 1);
    ("corrZSAvsK_80", JNum (0) 1);
    ("corrZSAvsK_90", JNum (0) 1);
    ("corrZSDvsDS_10", JNum (0) 1);
    ("corrZSDvsDS_20", JNum (0) 1);
    ("corrZSDvsDS_30", JNum (0) 1);
    ("corrZSDvsDS_40", JNum (0) 1);
    ("corrZSDvsDS_50", JNum (0) 1);
    ("corrZSDvsDS_60", JNum (0) 1);
    ("corrZSDvsDS_70", JNum (0) 1);
    ("corrZSDvsDS_80", JNum (0) 1);
    ("corrZSDvsDS_90", JNum (0) 1);
    ("corrZSAvsDS_10", JNum (0) 1);
    ("corrZSAvsDS_20", JNum (0) 1);
    ("corrZSAvsDS_30", JNum (0) 1);
    ("corrZSAvsDS_40", JNum (0) 1);
    ("corrZSAvsDS_50", JNum (0) 1);
    ("corrZSAvsDS_60", JNum (0) 1);
    ("corrZSAvsDS_70", JNum (0) 1);
    ("corrZSAvsDS_80", JNum (0) 1);
    ("corrZSAvsDS_90", JNum (0) 1);
    ("corrZSDvsASD_10", JNum (0) 1);
    ("corrZSDvsASD_20", JNum (0) 1);
    ("corrZSDvsASD_30", JNum (0) 1);
    ("corrZSDvsASD_40", JNum (0) 1);
    ("corrZSDvsASD_50", JNum (0) 1);
    ("corrZSDvsASD_60", JNum (0) 1);
    ("corrZSDvsASD_70", JNum (0) 1);
    ("corrZSDvsASD_80", JNum (0) 1);
    ("corrZSDvsASD_90", JNum (0) 1);
    ("corrZSAvsASD_10", JNum (0) 1);
    ("corrZSAvsASD_20", JNum (0) 1);
    ("corrZSAvsASD_30", JNum (0) 1);
    ("corrZSAvsASD_40", JNum (0) 1);
    ("corrZSAvsASD_50", JNum (0) 1);
    ("corrZSAvsASD_60", JNum (0) 1);
    ("corrZSAvsASD_70", JNum (0) 1);
    ("corrZSAvsASD_80", JNum (0) 1);
    ("corrZSAvsASD_90", JNum (0) 1);
    ("corrZSDvsASA_10", JNum (0) 1);
    ("corrZSDvsASA_20", JNum (0) 1);
    ("corrZSDvsASA_30", JNum (0) 1);
    ("corrZSDvsASA_40", JNum (0) 1);
    ("corrZSDvsASA_50", JNum (0) 1);
    ("corrZSDvsASA_60", JNum (0) 1);
    ("corrZSDvsASA_70", JNum (0) 1);
    ("corrZSDvsASA_80", JNum (0) 1);
    ("corrZSDvsASA_90", JNum (0) 1);
    ("corrZSAvsASA_10", JNum (0) 1);
    ("corrZSAvsASA_20", JNum (0) 1);
    ("corrZSAvsASA_30", JNum (0) 1);
    ("corrZSAvsASA_40", JNum (0) 1);
    ("corrZSAvsASA_50", JNum (0) 1);
    ("corrZSAvsASA_60", JNum (0) 1);
    ("corrZSAvsASA_70", JNum (0) 1);
    ("corrZSAvsASA_80", JNum (0) 1);
    ("corrZSAvsASA_90", JNum (0) 1);
    ("corrZSDvsZSA_10", JNum (0) 1);
    ("corrZSDvsZSA_20", JNum (0) 1);
    ("corrZSDvsZSA_30", JNum (0) 1);
    ("corrZSDvsZSA_40", JNum (0) 1);
    ("corrZSDvsZSA_50", JNum (0) 1);
    ("corrZSDvsZSA_60", JNum (0) 1);
    ("corrZSDvsZSA_70", JNum (0) 1);
    ("corrZSDvsZSA_80", JNum (0) 1);
    ("corrZSDvsZSA_90", JNum (0) 1) ].

(* /repo/OpenNTN/models/Sub_Urban_NLOS_S_band_UL.json *)
Definition tab_Sub_Urban_NLOS_S_band_UL : json_obj :=
  [ ("muDS_10", JNum (-791) 2);
    ("muDS_20", JNum (-839) 2);
    ("muDS_30", JNum (-869) 2);
    ("muDS_40", JNum (-859) 2);
    ("muDS_50", JNum (-864) 2);
    ("muDS_60", JNum (-874) 2);
    ("muDS_70", JNum (-898) 2);
    ("muDS_80", JNum (-928) 2);
    ("muDS_90", JNum (-928) 2);
    ("sigmaDS_10", JNum (142) 2);
    ("sigmaDS_20", JNum (146) 2);
    ("sigmaDS_30", JNum (146) 2);
    ("sigmaDS_40", JNum (121) 2);
    ("sigmaDS_50", JNum (118) 2);
    ("sigmaDS_60", JNum (113) 2);
    ("sigmaDS_70", JNum (137) 2);
    ("sigmaDS_80", JNum (150) 2);
    ("sigmaDS_90", JNum (150) 2);
    ("muASD_10", JNum (-354) 2);
    ("muASD_20", JNum (-363) 2);
    ("muASD_30", JNum (-366) 2);
    ("muASD_40", JNum (-366) 2);
    ("muASD_50", JNum (-366) 2);
    ("muASD_60", JNum (-357) 2);
    ("muASD_70", JNum (-318) 2);
    ("muASD_80", JNum (-271) 2);
    ("muASD_90", JNum (-271) 2);
    ("sigmaASD_10", JNum (180) 2);
    ("sigmaASD_20", JNum (143) 2);
    ("sigmaASD_30", JNum (168) 2);
    ("sigmaASD_40", JNum (148) 2);
    ("sigmaASD_50", JNum (155) 2);
    ("sigmaASD_60", JNum (138) 2);
    ("sigmaASD_70", JNum (162) 2);
    ("sigmaASD_80", JNum (163) 2);
    ("sigmaASD_90", JNum (163) 2);
    ("muASA_10", JNum (91) 2);
    ("muASA_20", JNum (70) 2);
    ("muASA_30", JNum (38) 2);
    ("muASA_40", JNum (30) 2);
    ("muASA_50", JNum (28) 2);
    ("muASA_60", JNum (23) 2);
    ("muASA_70", JNum (10) 2);
    ("muASA_80", JNum (4) 2);
    ("muASA_90", JNum (4) 2);
    ("sigmaASA_10", JNum (170) 2);
    ("sigmaASA_20", JNum (133) 2);
    ("sigmaASA_30", JNum (152) 2);
    ("sigmaASA_40", JNum (146) 2);
    ("sigmaASA_50", JNum (144) 2);
    ("sigmaASA_60", JNum (144) 2);
    ("sigmaASA_70", JNum (124) 2);
    ("sigmaASA_80", JNum (104) 2);
    ("sigmaASA_90", JNum (104) 2);
    ("muZSA_10", JNum (-190) 2);
    ("muZSA_20", JNum (-170) 2);
    ("muZSA_30", JNum (-175) 2);
    ("muZSA_40", JNum (-180) 2);
    ("muZSA_50", JNum (-180) 2);
    ("muZSA_60", JNum (-185) 2);
    ("muZSA_70", JNum (-145) 2);
    ("muZSA_80", JNum (-119) 2);
    ("muZSA_90", JNum (-119) 2);
    ("sigmaZSA_10", JNum (163) 2);
    ("sigmaZSA_20", JNum (124) 2);
    ("sigmaZSA_30", JNum (154) 2);
    ("sigmaZSA_40", JNum (125) 2);
    ("sigmaZSA_50", JNum (121) 2);
    ("sigmaZSA_60", JNum (120) 2);
    ("sigmaZSA_70", JNum (138) 2);
    ("sigmaZSA_80", JNum (158) 2);
    ("sigmaZSA_90", JNum (158) 2);
    ("muZSD_10", JNum (-201) 2);
    ("muZSD_20", JNum (-167) 2);
    ("muZSD_30", JNum (-175) 2);
    ("muZSD_40", JNum (-149) 2);
    ("muZSD_50", JNum (-153) 2);
    ("muZSD_60", JNum (-157) 2);
    ("muZSD_70", JNum (-148) 2);
    ("muZSD_80", JNum (-162) 2);
    ("muZSD_90", JNum (-162) 2);
    ("sigmaZSD_10", JNum (179) 2);
    ("sigmaZSD_20", JNum (131) 2);
    ("sigmaZSD_30", JNum (142) 2);
    ("sigmaZSD_40", JNum (128) 2);
    ("sigmaZSD_50", JNum (140) 2);
    ("sigmaZSD_60", JNum (124) 2);
    ("sigmaZSD_70", JNum (98) 2);
    ("sigmaZSD_80", JNum (88) 2);
    ("sigmaZSD_90", JNum (88) 2);
    ("sigmaSF_10", JNum (893) 2);
    ("sigmaSF_20", JNum (908) 2);
    ("sigmaSF_30", JNum (878) 2);
    ("sigmaSF_40", JNum (1025) 2);
    ("sigmaSF_50", JNum (1056) 2);
    ("sigmaSF_60", JNum (1074) 2);
    ("sigmaSF_70", JNum (1017) 2);
    ("sigmaSF_80", JNum (1152) 2);
    ("sigmaSF_90", JNum (1152) 2);
    ("CL_10", JNum (1952) 2);
    ("CL_20", JNum (1817) 2);
    ("CL_30", JNum (1842) 2);
    ("CL_40", JNum (1828) 2);
    ("CL_50", JNum (1863) 2);
    ("CL_60", JNum (1768) 2);
    ("CL_70", JNum (1650) 2);
    ("CL_80", JNum (1630) 2);
    ("CL_90", JNum (1630) 2);
    ("muK_10", JNum (0) 1);
    ("muK_20", JNum (0) 1);
    ("muK_30", JNum (0) 1);
    ("muK_40", JNum (0) 1);
    ("muK_50", JNum (0) 1);
    ("muK_60", JNum (0) 1);
    ("muK_70", JNum (0) 1);
    ("muK_80", JNum (0) 1);
    ("muK_90", JNum (0) 1);
    ("sigmaK_10", JNum (0) 1);
    ("sigmaK_20", JNum (0) 1);
    ("sigmaK_30", JNum (0) 1);
    ("sigmaK_40", JNum (0) 1);
    ("sigmaK_50", JNum (0) 1);
    ("sigmaK_60", JNum (0) 1);
    ("sigmaK_70", JNum (0) 1);
    ("sigmaK_80", JNum (0) 1);
    ("sigmaK_90", JNum (0) 1);
    ("muXPR_10", JNum (206) 1);
    ("muXPR_20", JNum (167) 1);
    ("muXPR_30", JNum (132) 1);
    ("muXPR_40", JNum (113) 1);
    ("muXPR_50", JNum (96) 1);
    ("muXPR_60", JNum (75) 1);
    ("muXPR_70", JNum (91) 1);
    ("muXPR_80", JNum (117) 1);
    ("muXPR_90", JNum (117) 1);
    ("sigmaXPR_10", JNum (85) 1);
    ("sigmaXPR_20", JNum (120) 1);
    ("sigmaXPR_30", JNum (128) 1);
    ("sigmaXPR_40", JNum (138) 1);
    ("sigmaXPR_50", JNum (125) 1);
    ("sigmaXPR_60", JNum (112) 1);
    ("sigmaXPR_70", JNum (101) 1);
    ("sigmaXPR_80", JNum (1310) 2);
    ("sigmaXPR_90", JNum (1310) 2);
    ("rTau_10", JNum (228) 2);
    ("rTau_20", JNum (233) 2);
    ("rTau_30", JNum (243) 2);
    ("rTau_40", JNum (226) 2);
    ("rTau_50", JNum (271) 2);
    ("rTau_60", JNum (210) 2);
    ("rTau_70", JNum (219) 2);
    ("rTau_80", JNum (206) 2);
    ("rTau_90", JNum (206) 2);
    ("numClusters_10", JInt (4));
    ("numClusters_20", JInt (4));
    ("numClusters_30", JInt (4));
    ("numClusters_40", JInt (4));
    ("numClusters_50", JInt (4));
    ("numClusters_60", JInt (3));
    ("numClusters_70", JInt (3));
    ("numClusters_80", JInt (3));
    ("numClusters_90", JInt (3));
    ("zeta_10", JNum (30) 1);
    ("zeta_20", JNum (30) 1);
    ("zeta_30", JNum (30) 1);
    ("zeta_40", JNum (30) 1);
    ("zeta_50", JNum (30) 1);
    ("zeta_60", JNum (30) 1);
    ("zeta_70", JNum (30) 1);
    ("zeta_80", JNum (30) 1);
    ("zeta_90", JNum (30) 1);
    ("cDS_10", JNum (16) 1);
    ("cDS_20", JNum (16) 1);
    ("cDS_30", JNum (16) 1);
    ("cDS_40", JNum (16) 1);
    ("cDS_50", JNum (16) 1);
    ("cDS_60", JNum (16) 1);
    ("cDS_70", JNum (16) 1);
    ("cDS_80", JNum (16) 1);
    ("cDS_90", JNum (16) 1);
    ("cASD_10", JNum (0) 1);
    ("cASD_20", JNum (0) 1);
    ("cASD_30", JNum (0) 1);
    ("cASD_40", JNum (0) 1);
    ("cASD_50", JNum (0) 1);
    ("cASD_60", JNum (0) 1);
    ("cASD_70", JNum (0) 1);
    ("cASD_80", JNum (0) 1);
    ("cASD_90", JNum (0) 1);
    ("cASA_10", JNum (150) 1);
    ("cASA_20", JNum (150) 1);
    ("cASA_30", JNum (150) 1);
    ("cASA_40", JNum (150) 1);
    ("cASA_50", JNum (150) 1);
    ("cASA_60", JNum (150) 1);
    ("cASA_70", JNum (150) 1);
    ("cASA_80", JNum (150) 1);
    ("cASA_90", JNum (150) 1);
    ("cZSA_10", JNum (70) 1);
    ("cZSA_20", JNum (70) 1);
    ("cZSA_30", JNum (70) 1);
    ("cZSA_40", JNum (70) 1);
    ("cZSA_50", JNum (70) 1);
    ("cZSA_60", JNum (70) 1);
    ("cZSA_70", JNum (70) 1);
    ("cZSA_80", JNum (70) 1);
    ("cZSA_90", JNum (70) 1);
    ("LoS_p_10", JNum (782) 3);
    ("LoS_p_20", JNum (869) 3);
    ("LoS_p_30", JNum (919) 3);
    ("LoS_p_40", JNum (929) 3);
    ("LoS_p_50", JNum (935) 3);
    ("LoS_p_60", JNum (94) 2);
    ("LoS_p_70", JNum (949) 3);
    ("LoS_p_80", JNum (952) 3);
    ("LoS_p_90", JNum (998) 3);
    ("CPhiNLoS", JNum (779) 3);
    ("CThetaNLoS", JNum (697) 3);
    ("corrDistDS_10", JNum (400) 1);
    ("corrDistDS_20", JNum (400) 1);
    ("corrDistDS_30", JNum (400) 1);
    ("corrDistDS_40", JNum (400) 1);
    ("corrDistDS_50", JNum (400) 1);
    ("corrDistDS_60", JNum (400) 1);
    ("corrDistDS_70", JNum (400) 1);
    ("corrDistDS_80", JNum (400) 1);
    ("corrDistDS_90", JNum (400) 1);
    ("corrDistASD_10", JNum (500) 1);
    ("corrDistASD_20", JNum (500) 1);
    ("corrDistASD_30", JNum (500) 1);
    ("corrDistASD_40", JNum (500) 1);
    ("corrDistASD_50", JNum (500) 1);
    ("corrDistASD_60", JNum (500) 1);
    ("corrDistASD_70", JNum (500) 1);
    ("corrDistASD_80", JNum (500) 1);
    ("corrDistASD_90", JNum (500) 1);
    ("corrDistASA_10", JNum (500) 1);
    ("corrDistASA_20", JNum (500) 1);
    ("corrDistASA_30", JNum (500) 1);
    ("corrDistASA_40", JNum (500) 1);
    ("corrDistASA_50", JNum (500) 1);
    ("corrDistASA_60", JNum (500) 1);
    ("corrDistASA_70", JNum (500) 1);
    ("corrDistASA_80", JNum (500) 1);
    ("corrDistASA_90", JNum (500) 1);
    ("corrDistSF_10", JNum (500) 1);
    ("corrDistSF_20", JNum (500) 1);
    ("corrDistSF_30", JNum (500) 1);
    ("corrDistSF_40", JNum (500) 1);
    ("corrDistSF_50", JNum (500) 1);
    ("corrDistSF_60", JNum (500) 1);
    ("corrDistSF_70", JNum (500) 1);
    ("corrDistSF_80", JNum (500) 1);
    ("corrDistSF_90", JNum (500) 1);
    ("corrDistK_10", JNum (10) 1);
    ("corrDistK_20", JNum (10) 1);
    ("corrDistK_30", JNum (10) 1);
    ("corrDistK_40", JNum (10) 1);
    ("corrDistK_50", JNum (10) 1);
    ("corrDistK_60", JNum (10) 1);
    ("corrDistK_70", JNum (10) 1);
    ("corrDistK_80", JNum (10) 1);
    ("corrDistK_90", JNum (10) 1);
    ("corrDistZSA_10", JNum (500) 1);
    ("corrDistZSA_20", JNum (500) 1);
    ("corrDistZSA_30", JNum (500) 1);
    ("corrDistZSA_40", JNum (500) 1);
    ("corrDistZSA_50", JNum (500) 1);
    ("corrDistZSA_60", JNum (500) 1);
    ("corrDistZSA_70", JNum (500) 1);
    ("corrDistZSA_80", JNum (500) 1);
    ("corrDistZSA_90", JNum (500) 1);
    ("corrDistZSD_10", JNum (500) 1);
    ("corrDistZSD_20", JNum (500) 1);
    ("corrDistZSD_30", JNum (500) 1);
    ("corrDistZSD_40", JNum (500) 1);
    ("corrDistZSD_50", JNum (500) 1);
    ("corrDistZSD_60", JNum (500) 1);
    ("corrDistZSD_70", JNum (500) 1);
    ("corrDistZSD_80", JNum (500) 1);
    ("corrDistZSD_90", JNum (500) 1);
    ("corrASDvsDS_10", JNum (4) 1);
    ("corrASDvsDS_20", JNum (4) 1);
    ("corrASDvsDS_30", JNum (4) 1);
    ("corrASDvsDS_40", JNum (4) 1);
    ("corrASDvsDS_50", JNum (4) 1);
    ("corrASDvsDS_60", JNum (4) 1);
    ("corrASDvsDS_70", JNum (4) 1);
    ("corrASDvsDS_80", JNum (4) 1);
    ("corrASDvsDS_90", JNum (4) 1);
    ("corrASAvsDS_10", JNum (6) 1);
    ("corrASAvsDS_20", JNum (6) 1);
    ("corrASAvsDS_30", JNum (6) 1);
    ("corrASAvsDS_40", JNum (6) 1);
    ("corrASAvsDS_50", JNum (6) 1);
    ("corrASAvsDS_60", JNum (6) 1);
    ("corrASAvsDS_70", JNum (6) 1);
    ("corrASAvsDS_80", JNum (6) 1);
    ("corrASAvsDS_90", JNum (6) 1);
    ("corrASAvsSF_10", JNum (0) 1);
    ("corrASAvsSF_20", JNum (0) 1);
    ("corrASAvsSF_30", JNum (0) 1);
    ("corrASAvsSF_40", JNum (0) 1);
    ("corrASAvsSF_50", JNum (0) 1);
    ("corrASAvsSF_60", JNum (0) 1);
    ("corrASAvsSF_70", JNum (0) 1);
    ("corrASAvsSF_80", JNum (0) 1);
    ("corrASAvsSF_90", JNum (0) 1);
    ("corrASDvsSF_10", JNum (-6) 1);
    ("corrASDvsSF_20", JNum (-6) 1);
    ("corrASDvsSF_30", JNum (-6) 1);
    ("corrASDvsSF_40", JNum (-6) 1);
    ("corrASDvsSF_50", JNum (-6) 1);
    ("corrASDvsSF_60", JNum (-6) 1);
    ("corrASDvsSF_70", JNum (-6) 1);
    ("corrASDvsSF_80", JNum (-6) 1);
    ("corrASDvsSF_90", JNum (-6) 1);
    ("corrDSvsSF_10", JNum (-4) 1);
    ("corrDSvsSF_20", JNum (-4) 1);
    ("corrDSvsSF_30", JNum (-4) 1);
    ("corrDSvsSF_40", JNum (-4) 1);
    ("corrDSvsSF_50", JNum (-4) 1);
    ("corrDSvsSF_60", JNum (-4) 1);
    ("corrDSvsSF_70", JNum (-4) 1);
    ("corrDSvsSF_80", JNum (-4) 1);
    ("corrDSvsSF_90", JNum (-4) 1);
    ("corrASDvsASA_10", JNum (4) 1);
    ("corrASDvsASA_20", JNum (4) 1);
    ("corrASDvsASA_30", JNum (4) 1);
    ("corrASDvsASA_40", JNum (4) 1);
    ("corrASDvsASA_50", JNum (4) 1);
    ("corrASDvsASA_60", JNum (4) 1);
    ("corrASDvsASA_70", JNum (4) 1);
    ("corrASDvsASA_80", JNum (4) 1);
    ("corrASDvsASA_90", JNum (4) 1);
    ("corrASDvsK_10", JNum (0) 1);
    ("corrASDvsK_20", JNum (0) 1);
    ("corrASDvsK_30", JNum (0) 1);
    ("corrASDvsK_40", JNum (0) 1);
    ("corrASDvsK_50", JNum (0) 1);
    ("corrASDvsK_60", JNum (0) 1);
    ("corrASDvsK_70", JNum (0) 1);
    ("corrASDvsK_80", JNum (0) 1);
    ("corrASDvsK_90", JNum (0) 1);
    ("corrASAvsK_10", JNum (0) 1);
    ("corrASAvsK_20", JNum (0) 1);
    ("corrASAvsK_30", JNum (0) 1);
    ("corrASAvsK_40", JNum (0) 1);
    ("corrASAvsK_50", JNum (0) 1);
    ("corrASAvsK_60", JNum (0) 1);
    ("corrASAvsK_70", JNum (0) 1);
    ("corrASAvsK_80", JNum (0) 1);
    ("corrASAvsK_90", JNum (0) 1);
    ("corrDSvsK_10", JNum (0) 1);
    ("corrDSvsK_20", JNum (0) 1);
    ("corrDSvsK_30", JNum (0) 1);
    ("corrDSvsK_40", JNum (0) 1);
    ("corrDSvsK_50", JNum (0) 1);
    ("corrDSvsK_60", JNum (0) 1);
    ("corrDSvsK_70", JNum (0) 1);
    ("corrDSvsK_80", JNum (0) 1);
    ("corrDSvsK_90", JNum (0) 1);
    ("corrSFvsK_10", JNum (0) 1);
    ("corrSFvsK_20", JNum (0) 1);
    ("corrSFvsK_30", JNum (0) 1);
    ("corrSFvsK_40", JNum (0) 1);
    ("corrSFvsK_50", JNum (0) 1);
    ("corrSFvsK_60", JNum (0) 1);
    ("corrSFvsK_70", JNum (0) 1);
    ("corrSFvsK_80", JNum (0) 1);
    ("corrSFvsK_90", JNum (0) 1);
    ("corrZSDvsSF_10", JNum (0) 1);
    ("corrZSDvsSF_20", JNum (0) 1);
    ("corrZSDvsSF_30", JNum (0) 1);
    ("corrZSDvsSF_40", JNum (0) 1);
    ("corrZSDvsSF_50", JNum (0) 1);
    ("corrZSDvsSF_60", JNum (0) 1);
    ("corrZSDvsSF_70", JNum (0) 1);
    ("corrZSDvsSF_80", JNum (0) 1);
    ("corrZSDvsSF_90", JNum (0) 1);
    ("corrZSAvsSF_10", JNum (-4) 1);
    ("corrZSAvsSF_20", JNum (-4) 1);
    ("corrZSAvsSF_30", JNum (-4) 1);
    ("corrZSAvsSF_40", JNum (-4) 1);
    ("corrZSAvsSF_50", JNum (-4) 1);
    ("corrZSAvsSF_60", JNum (-4) 1);
    ("corrZSAvsSF_70", JNum (-4) 1);
    ("corrZSAvsSF_80", JNum (-4) 1);
    ("corrZSAvsSF_90", JNum (-4) 1);
    ("corrZSDvsK_10", JNum (0) 1);
    ("corrZSDvsK_20", JNum (0) 1);
    ("corrZSDvsK_30", JNum (0) 1);
    ("corrZSDvsK_40", JNum (0) 1);
    ("corrZSDvsK_50", JNum (0) 1);
    ("corrZSDvsK_60", JNum (0) 1);
    ("corrZSDvsK_70", JNum (0) 1);
    ("corrZSDvsK_80", JNum (0) 1);
    ("corrZSDvsK_90", JNum (0) 1);
    ("corrZSAvsK_10", JNum (0) 1);
    ("corrZSAvsK_20", JNum (0) 1);
    ("corrZSAvsK_30", JNum (0) 1);
    ("corrZSAvsK_40", JNum (0) 1);
    ("corrZSAvsK_50", JNum (0) 1);
    ("corrZSAvsK_60", JNum (0) 1);
    ("corrZSAvsK_70", JNum (0) 1);
    ("corrZSAvsK_80", JNum (0) 1);
    ("corrZSAvsK_90", JNum (0) 1);
    ("corrZSDvsDS_10", JNum (-5) 1);
    ("corrZSDvsDS_20", JNum (-5) 1);
    ("corrZSDvsDS_30", JNum (-5) 1);
    ("corrZSDvsDS_40", JNum (-5) 1);
    ("corrZSDvsDS_50", JNum (-5) 1);
    ("corrZSDvsDS_60", JNum (-5) 1);
    ("corrZSDvsDS_70", JNum (-5) 1);
    ("corrZSDvsDS_80", JNum (-5) 1);
    ("corrZSDvsDS_90", JNum (-5) 1);
    ("corrZSAvsDS_10", JNum (0) 1);
    ("corrZSAvsDS_20", JNum (0) 1);
    ("corrZSAvsDS_30", JNum (0) 1);
    ("corrZSAvsDS_40", JNum (0) 1);
    ("corrZSAvsDS_50", JNum (0) 1);
    ("corrZSAvsDS_60", JNum (0) 1);
    ("corrZSAvsDS_70", JNum (0) 1);
    ("corrZSAvsDS_80", JNum (0) 1);
    ("corrZSAvsDS_90", JNum (0) 1);
    ("corrZSDvsASD_10", JNum (5) 1);
    ("corrZSDvsASD_20", JNum (5) 1);
    ("corrZSDvsASD_30", JNum (5) 1);
    ("corrZSDvsASD_40", JNum (5) 1);
    ("corrZSDvsASD_50", JNum (5) 1);
    ("corrZSDvsASD_60", JNum (5) 1);
    ("corrZSDvsASD_70", JNum (5) 1);
    ("corrZSDvsASD_80", JNum (5) 1);
    ("corrZSDvsASD_90", JNum (5) 1);
    ("corrZSAvsASD_10", JNum (-1) 1);
    ("corrZSAvsASD_20", JNum (-1) 1);
    ("corrZSAvsASD_30", JNum (-1) 1);
    ("corrZSAvsASD_40", JNum (-1) 1);
    ("corrZSAvsASD_50", JNum (-1) 1);
    ("corrZSAvsASD_60", JNum (-1) 1);
    ("corrZSAvsASD_70", JNum (-1) 1);
    ("corrZSAvsASD_80", JNum (-1) 1);
    ("corrZSAvsASD_90", JNum (-1) 1);
    ("corrZSDvsASA_10", JNum (0) 1);
    ("corrZSDvsASA_20", JNum (0) 1);
    ("corrZSDvsASA_30", JNum (0) 1);
    ("corrZSDvsASA_40", JNum (0) 1);
    ("corrZSDvsASA_50", JNum (0) 1);
    ("corrZSDvsASA_60", JNum (0) 1);
    ("corrZSDvsASA_70", JNum (0) 1);
    ("corrZSDvsASA_80", JNum (0) 1);
    ("corrZSDvsASA_90", JNum (0) 1);
    ("corrZSAvsASA_10", JNum (0) 1);
    ("corrZSAvsASA_20", JNum (0) 1);
    ("corrZSAvsASA_30", JNum (0) 1);
    ("corrZSAvsASA_40", JNum (0) 1);
    ("corrZSAvsASA_50", JNum (0) 1);
    ("corrZSAvsASA_60", JNum (0) 1);
    ("corrZSAvsASA_70", JNum (0) 1);
    ("corrZSAvsASA_80", JNum (0) 1);
    ("corrZSAvsASA_90", JNum (0) 1);
    ("corrZSDvsZSA_10", JNum (0) 1);
    ("corrZSDvsZSA_20", JNum (0) 1);
    ("corrZSDvsZSA_30", JNum (0) 1);
    ("corrZSDvsZSA_40", JNum (0) 1);
    ("corrZSDvsZSA_50", JNum (0) 1);
    ("corrZSDvsZSA_60", JNum (0) 1);
    ("corrZSDvsZSA_70", JNum (0) 1);
    ("corrZSDvsZSA_80", JNum (0) 1);
    ("corrZSDvsZSA_90", JNum (0) 1) ].

