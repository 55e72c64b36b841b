(* GENERATED by tools/gen_tables.py from /repo/OpenNTN/models -- do not edit.
   One definition per JSON file; entries in file order, literals kept exactly. *)
From Coq Require Import ZArith List String.
From Verif Require Import M_Json.
Import ListNotations.
Open Scope string_scope.
Open Scope Z_scope.

(* /repo/OpenNTN/models/Dense_Urban_LOS_Ka_band_DL.json *)
Definition tab_Dense_Urban_LOS_Ka_band_DL : json_obj :=
  [ ("muDS_10", JNum (-743) 2);
    ("muDS_20", JNum (-762) 2);
    ("muDS_30", JNum (-776) 2);
    ("muDS_40", JNum (-802) 2);
    ("muDS_50", JNum (-813) 2);
    ("muDS_60", JNum (-830) 2);
    ("muDS_70", JNum (-834) 2);
    ("muDS_80", JNum (-839) 2);
    ("muDS_90", JNum (-845) 2);
    ("sigmaDS_10", JNum (90) 2);
    ("sigmaDS_20", JNum (78) 2);
    ("sigmaDS_30", JNum (80) 2);
    ("sigmaDS_40", JNum (72) 2);
    ("sigmaDS_50", JNum (61) 2);
    ("sigmaDS_60", JNum (47) 2);
    ("sigmaDS_70", JNum (39) 2);
    ("sigmaDS_80", JNum (26) 2);
    ("sigmaDS_90", JNum (1) 2);
    ("muASD_10", JStr "-inf");
    ("muASD_20", JStr "-inf");
    ("muASD_30", JStr "-inf");
    ("muASD_40", JStr "-inf");
    ("muASD_50", JStr "-inf");
    ("muASD_60", JStr "-inf");
    ("muASD_70", JStr "-inf");
    ("muASD_80", JStr "-inf");
    ("muASD_90", JStr "-inf");
    ("sigmaASD_10", JNum (0) 1);
    ("sigmaASD_20", JNum (0) 1);
    ("sigmaASD_30", JNum (0) 1);
    ("sigmaASD_40", JNum (0) 1);
    ("sigmaASD_50", JNum (0) 1);
    ("sigmaASD_60", JNum (0) 1);
    ("sigmaASD_70", JNum (0) 1);
    ("sigmaASD_80", JNum (0) 1);
    ("sigmaASD_90", JNum (0) 1);
    ("muASA_10", JNum (65) 2);
    ("muASA_20", JNum (53) 2);
    ("muASA_30", JNum (60) 2);
    ("muASA_40", JNum (43) 2);
    ("muASA_50", JNum (36) 2);
    ("muASA_60", JNum (16) 2);
    ("muASA_70", JNum (18) 2);
    ("muASA_80", JNum (24) 2);
    ("muASA_90", JNum (36) 2);
    ("sigmaASA_10", JNum (82) 2);
    ("sigmaASA_20", JNum (78) 2);
    ("sigmaASA_30", JNum (83) 2);
    ("sigmaASA_40", JNum (78) 2);
    ("sigmaASA_50", JNum (77) 2);
    ("sigmaASA_60", JNum (84) 2);
    ("sigmaASA_70", JNum (64) 2);
    ("sigmaASA_80", JNum (81) 2);
    ("sigmaASA_90", JNum (65) 2);
    ("muZSA_10", JNum (82) 2);
    ("muZSA_20", JNum (47) 2);
    ("muZSA_30", JNum (80) 2);
    ("muZSA_40", JNum (123) 2);
    ("muZSA_50", JNum (142) 2);
    ("muZSA_60", JNum (156) 2);
    ("muZSA_70", JNum (165) 2);
    ("muZSA_80", JNum (173) 2);
    ("muZSA_90", JNum (179) 2);
    ("sigmaZSA_10", JNum (5) 2);
    ("sigmaZSA_20", JNum (11) 2);
    ("sigmaZSA_30", JNum (5) 2);
    ("sigmaZSA_40", JNum (4) 2);
    ("sigmaZSA_50", JNum (10) 2);
    ("sigmaZSA_60", JNum (6) 2);
    ("sigmaZSA_70", JNum (7) 2);
    ("sigmaZSA_80", JNum (2) 2);
    ("sigmaZSA_90", JNum (1) 2);
    ("muZSD_10", JStr "-inf");
    ("muZSD_20", JStr "-inf");
    ("muZSD_30", JStr "-inf");
    ("muZSD_40", JStr "-inf");
    ("muZSD_50", JStr "-inf");
    ("muZSD_60", JStr "-inf");
    ("muZSD_70", JStr "-inf");
    ("muZSD_80", JStr "-inf");
    ("muZSD_90", JStr "-inf");
    ("sigmaZSD_10", JNum (0) 1);
    ("sigmaZSD_20", JNum (0) 1);
    ("sigmaZSD_30", JNum (0) 1);
    ("sigmaZSD_40", JNum (0) 1);
    ("sigmaZSD_50", JNum (0) 1);
    ("sigmaZSD_60", JNum (0) 1);
    ("sigmaZSD_70", JNum (0) 1);
    ("sigmaZSD_80", JNum (0) 1);
    ("sigmaZSD_90", JNum (0) 1);
    ("sigmaSF_10", JNum (29) 1);
    ("sigmaSF_20", JNum (24) 1);
    ("sigmaSF_30", JNum (27) 1);
    ("sigmaSF_40", JNum (24) 1);
    ("sigmaSF_50", JNum (24) 1);
    ("sigmaSF_60", JNum (27) 1);
    ("sigmaSF_70", JNum (26) 1);
    ("sigmaSF_80", JNum (28) 1);
    ("sigmaSF_90", JNum (6) 1);
    ("muK_10", JNum (61) 1);
    ("muK_20", JNum (137) 1);
    ("muK_30", JNum (129) 1);
    ("muK_40", JNum (103) 1);
    ("muK_50", JNum (92) 1);
    ("muK_60", JNum (84) 1);
    ("muK_70", JNum (80) 1);
    ("muK_80", JNum (74) 1);
    ("muK_90", JNum (76) 1);
    ("sigmaK_10", JNum (26) 1);
    ("sigmaK_20", JNum (68) 1);
    ("sigmaK_30", JNum (60) 1);
    ("sigmaK_40", JNum (33) 1);
    ("sigmaK_50", JNum (22) 1);
    ("sigmaK_60", JNum (19) 1);
    ("sigmaK_70", JNum (15) 1);
    ("sigmaK_80", JNum (16) 1);
    ("sigmaK_90", JNum (13) 1);
    ("muXPR_10", JNum (247) 1);
    ("muXPR_20", JNum (244) 1);
    ("muXPR_30", JNum (244) 1);
    ("muXPR_40", JNum (242) 1);
    ("muXPR_50", JNum (239) 1);
    ("muXPR_60", JNum (233) 1);
    ("muXPR_70", JNum (226) 1);
    ("muXPR_80", JNum (212) 1);
    ("muXPR_90", JNum (176) 1);
    ("sigmaXPR_10", JNum (21) 1);
    ("sigmaXPR_20", JNum (28) 1);
    ("sigmaXPR_30", JNum (27) 1);
    ("sigmaXPR_40", JNum (27) 1);
    ("sigmaXPR_50", JNum (31) 1);
    ("sigmaXPR_60", JNum (39) 1);
    ("sigmaXPR_70", JNum (48) 1);
    ("sigmaXPR_80", JNum (68) 1);
    ("sigmaXPR_90", JNum (127) 1);
    ("rTau_10", JNum (25) 1);
    ("rTau_20", JNum (25) 1);
    ("rTau_30", JNum (25) 1);
    ("rTau_40", JNum (25) 1);
    ("rTau_50", JNum (25) 1);
    ("rTau_60", JNum (25) 1);
    ("rTau_70", JNum (25) 1);
    ("rTau_80", JNum (25) 1);
    ("rTau_90", JNum (25) 1);
    ("numClusters_10", JInt (3));
    ("numClusters_20", JInt (3));
    ("numClusters_30", JInt (3));
    ("numClusters_40", JInt (3));
    ("numClusters_50", JInt (3));
    ("numClusters_60", JInt (3));
    ("numClusters_70", JInt (3));
    ("numClusters_80", JInt (3));
    ("numClusters_90", JInt (3));
    ("zeta_10", JNum (30) 1);
    ("zeta_20", JNum (30) 1);
    ("zeta_30", JNum (30) 1);
    ("zeta_40", JNum (30) 1);
    ("zeta_50", JNum (30) 1);
    ("zeta_60", JNum (30) 1);
    ("zeta_70", JNum (30) 1);
    ("zeta_80", JNum (30) 1);
    ("zeta_90", JNum (30) 1);
    ("cDS_10", JNum (16) 1);
    ("cDS_20", JNum (16) 1);
    ("cDS_30", JNum (16) 1);
    ("cDS_40", JNum (16) 1);
    ("cDS_50", JNum (16) 1);
    ("cDS_60", JNum (16) 1);
    ("cDS_70", JNum (16) 1);
    ("cDS_80", JNum (16) 1);
    ("cDS_90", JNum (16) 1);
    ("cASD_10", JNum (0) 1);
    ("cASD_20", JNum (0) 1);
    ("cASD_30", JNum (0) 1);
    ("cASD_40", JNum (0) 1);
    ("cASD_50", JNum (0) 1);
    ("cASD_60", JNum (0) 1);
    ("cASD_70", JNum (0) 1);
    ("cASD_80", JNum (0) 1);
    ("cASD_90", JNum (0) 1);
    ("cASA_10", JNum (110) 1);
    ("cASA_20", JNum (110) 1);
    ("cASA_30", JNum (110) 1);
    ("cASA_40", JNum (110) 1);
    ("cASA_50", JNum (110) 1);
    ("cASA_60", JNum (110) 1);
    ("cASA_70", JNum (110) 1);
    ("cASA_80", JNum (110) 1);
    ("cASA_90", JNum (110) 1);
    ("cZSA_10", JNum (70) 1);
    ("cZSA_20", JNum (70) 1);
    ("cZSA_30", JNum (70) 1);
    ("cZSA_40", JNum (70) 1);
    ("cZSA_50", JNum (70) 1);
    ("cZSA_60", JNum (70) 1);
    ("cZSA_70", JNum (70) 1);
    ("cZSA_80", JNum (70) 1);
    ("cZSA_90", JNum (70) 1);
    ("LoS_p_10", JNum (282) 3);
    ("LoS_p_20", JNum (331) 3);
    ("LoS_p_30", JNum (398) 3);
    ("LoS_p_40", JNum (468) 3);
    ("LoS_p_50", JNum (537) 3);
    ("LoS_p_60", JNum (612) 3);
    ("LoS_p_70", JNum (738) 3);
    ("LoS_p_80", JNum (82) 2);
    ("LoS_p_90", JNum (981) 3);
    ("CPhiNLoS", JNum (680) 3);
    ("CThetaNLoS", JNum (594) 3);
    ("corrDistDS_10", JNum (300) 1);
    ("corrDistDS_20", JNum (300) 1);
    ("corrDistDS_30", JNum (300) 1);
    ("corrDistDS_40", JNum (300) 1);
    ("corrDistDS_50", JNum (300) 1);
    ("corrDistDS_60", JNum (300) 1);
    ("corrDistDS_70", JNum (300) 1);
    ("corrDistDS_80", JNum (300) 1);
    ("corrDistDS_90", JNum (300) 1);
    ("corrDistASD_10", JNum (180) 1);
    ("corrDistASD_20", JNum (180) 1);
    ("corrDistASD_30", JNum (180) 1);
    ("corrDistASD_40", JNum (180) 1);
    ("corrDistASD_50", JNum (180) 1);
    ("corrDistASD_60", JNum (180) 1);
    ("corrDistASD_70", JNum (180) 1);
    ("corrDistASD_80", JNum (180) 1);
    ("corrDistASD_90", JNum (180) 1);
    ("corrDistASA_10", JNum (150) 1);
    ("corrDistASA_20", JNum (150) 1);
    ("corrDistASA_30", JNum (150) 1);
    ("corrDistASA_40", JNum (150) 1);
    ("corrDistASA_50", JNum (150) 1);
    ("corrDistASA_60", JNum (150) 1);
    ("corrDistASA_70", JNum (150) 1);
    ("corrDistASA_80", JNum (150) 1);
    ("corrDistASA_90", JNum (150) 1);
    ("corrDistSF_10", JNum (370) 1);
    ("corrDistSF_20", JNum (370) 1);
    ("corrDistSF_30", JNum (370) 1);
    ("corrDistSF_40", JNum (370) 1);
    ("corrDistSF_50", JNum (370) 1);
    ("corrDistSF_60", JNum (370) 1);
    ("corrDistSF_70", JNum (370) 1);
    ("corrDistSF_80", JNum (370) 1);
    ("corrDistSF_90", JNum (370) 1);
    ("corrDistK_10", JNum (120) 1);
    ("corrDistK_20", JNum (120) 1);
    ("corrDistK_30", JNum (120) 1);
    ("corrDistK_40", JNum (120) 1);
    ("corrDistK_50", JNum (120) 1);
    ("corrDistK_60", JNum (120) 1);
    ("corrDistK_70", JNum (120) 1);
    ("corrDistK_80", JNum (120) 1);
    ("corrDistK_90", JNum (120) 1);
    ("corrDistZSA_10", JNum (150) 1);
    ("corrDistZSA_20", JNum (150) 1);
    ("corrDistZSA_30", JNum (150) 1);
    ("corrDistZSA_40", JNum (150) 1);
    ("corrDistZSA_50", JNum (150) 1);
    ("corrDistZSA_60", JNum (150) 1);
    ("corrDistZSA_70", JNum (150) 1);
    ("corrDistZSA_80", JNum (150) 1);
    ("corrDistZSA_90", JNum (150) 1);
    ("corrDistZSD_10", JNum (150) 1);
    ("corrDistZSD_20", JNum (150) 1);
    ("corrDistZSD_30", JNum (150) 1);
    ("corrDistZSD_40", JNum (150) 1);
    ("corrDistZSD_50", JNum (150) 1);
    ("corrDistZSD_60", JNum (150) 1);
    ("corrDistZSD_70", JNum (150) 1);
    ("corrDistZSD_80", JNum (150) 1);
    ("corrDistZSD_90", JNum (150) 1);
    ("corrASDvsDS_10", JNum (0) 1);
    ("corrASDvsDS_20", JNum (0) 1);
    ("corrASDvsDS_30", JNum (0) 1);
    ("corrASDvsDS_40", JNum (0) 1);
    ("corrASDvsDS_50", JNum (0) 1);
    ("corrASDvsDS_60", JNum (0) 1);
    ("corrASDvsDS_70", JNum (0) 1);
    ("corrASDvsDS_80", JNum (0) 1);
    ("corrASDvsDS_90", JNum (0) 1);
    ("corrASAvsDS_10", JNum (8) 1);
    ("corrASAvsDS_20", JNum (8) 1);
    ("corrASAvsDS_30", JNum (8) 1);
    ("corrASAvsDS_40", JNum (8) 1);
    ("corrASAvsDS_50", JNum (8) 1);
    ("corrASAvsDS_60", JNum (8) 1);
    ("corrASAvsDS_70", JNum (8) 1);
    ("corrASAvsDS_80", JNum (8) 1);
    ("corrASAvsDS_90", JNum (8) 1);
    ("corrASAvsSF_10", JNum (-5) 1);
    ("corrASAvsSF_20", JNum (-5) 1);
    ("corrASAvsSF_30", JNum (-5) 1);
    ("corrASAvsSF_40", JNum (-5) 1);
    ("corrASAvsSF_50", JNum (-5) 1);
    ("corrASAvsSF_60", JNum (-5) 1);
    ("corrASAvsSF_70", JNum (-5) 1);
    ("corrASAvsSF_80", JNum (-5) 1);
    ("corrASAvsSF_90", JNum (-5) 1);
    ("corrASDvsSF_10", JNum (0) 1);
    ("corrASDvsSF_20", JNum (0) 1);
    ("corrASDvsSF_30", JNum (0) 1);
    ("corrASDvsSF_40", JNum (0) 1);
    ("corrASDvsSF_50", JNum (0) 1);
    ("corrASDvsSF_60", JNum (0) 1);
    ("corrASDvsSF_70", JNum (0) 1);
    ("corrASDvsSF_80", JNum (0) 1);
    ("corrASDvsSF_90", JNum (0) 1);
    ("corrDSvsSF_10", JNum (-4) 1);
    ("corrDSvsSF_20", JNum (-4) 1);
    ("corrDSvsSF_30", JNum (-4) 1);
    ("corrDSvsSF_40", JNum (-4) 1);
    ("corrDSvsSF_50", JNum (-4) 1);
    ("corrDSvsSF_60", JNum (-4) 1);
    ("corrDSvsSF_70", JNum (-4) 1);
    ("corrDSvsSF_80", JNum (-4) 1);
    ("corrDSvsSF_90", JNum (-4) 1);
    ("corrASDvsASA_10", JNum (0) 1);
    ("corrASDvsASA_20", JNum (0) 1);
    ("corrASDvsASA_30", JNum (0) 1);
    ("corrASDvsASA_40", JNum (0) 1);
    ("corrASDvsASA_50", JNum (0) 1);
    ("corrASDvsASA_60", JNum (0) 1);
    ("corrASDvsASA_70", JNum (0) 1);
    ("corrASDvsASA_80", JNum (0) 1);
    ("corrASDvsASA_90", JNum (0) 1);
    ("corrASDvsK_10", JNum (0) 1);
    ("corrASDvsK_20", JNum (0) 1);
    ("corrASDvsK_30", JNum (0) 1);
    ("corrASDvsK_40", JNum (0) 1);
    ("corrASDvsK_50", JNum (0) 1);
    ("corrASDvsK_60", JNum (0) 1);
    ("corrASDvsK_70", JNum (0) 1);
    ("corrASDvsK_80", JNum (0) 1);
    ("corrASDvsK_90", JNum (0) 1);
    ("corrASAvsK_10", JNum (-2) 1);
    ("corrASAvsK_20", JNum (-2) 1);
    ("corrASAvsK_30", JNum (-2) 1);
    ("corrASAvsK_40", JNum (-2) 1);
    ("corrASAvsK_50", JNum (-2) 1);
    ("corrASAvsK_60", JNum (-2) 1);
    ("corrASAvsK_70", JNum (-2) 1);
    ("corrASAvsK_80", JNum (-2) 1);
    ("corrASAvsK_90", JNum (-2) 1);
    ("corrDSvsK_10", JNum (-4) 1);
    ("corrDSvsK_20", JNum (-4) 1);
    ("corrDSvsK_30", JNum (-4) 1);
    ("corrDSvsK_40", JNum (-4) 1);
    ("corrDSvsK_50", JNum (-4) 1);
    ("corrDSvsK_60", JNum (-4) 1);
    ("corrDSvsK_70", JNum (-4) 1);
    ("corrDSvsK_80", JNum (-4) 1);
    ("corrDSvsK_90", JNum (-4) 1);
    ("corrSFvsK_10", JNum (0) 1);
    ("corrSFvsK_20", JNum (0) 1);
    ("corrSFvsK_30", JNum (0) 1);
    ("corrSFvsK_40", JNum (0) 1);
    ("corrSFvsK_50", JNum (0) 1);
    ("corrSFvsK_60", JNum (0) 1);
    ("corrSFvsK_70", JNum (0) 1);
    ("corrSFvsK_80", JNum (0) 1);
    ("corrSFvsK_90", JNum (0) 1);
    ("corrZSDvsSF_10", JNum (0) 1);
    ("corrZSDvsSF_20", JNum (0) 1);
    ("corrZSDvsSF_30", JNum (0) 1);
    ("corrZSDvsSF_40", JNum (0) 1);
    ("corrZSDvsSF_50", JNum (0) 1);
    ("corrZSDvsSF_60", JNum (0) 1);
    ("corrZSDvsSF_70", JNum (0) 1);
    ("corrZSDvsSF_80", JNum (0) 1);
    ("corrZSDvsSF_90", JNum (0) 1);
    ("corrZSAvsSF_10", JNum (-8) 1);
    ("corrZSAvsSF_20", JNum (-8) 1);
    ("corrZSAvsSF_30", JNum (-8) 1);
    ("corrZSAvsSF_40", JNum (-8) 1);
    ("corrZSAvsSF_50", JNum (-8) 1);
    ("corrZSAvsSF_60", JNum (-8) 1);
    ("corrZSAvsSF_70", JNum (-8) 1);
    ("corrZSAvsSF_80", JNum (-8) 1);
    ("corrZSAvsSF_90", JNum (-8) 1);
    ("corrZSDvsK_10", JNum (0) 1);
    ("corrZSDvsK_20", JNum (0) 1);
    ("corrZSDvsK_30", JNum (0) 1);
    ("corrZSDvsK_40", JNum (0) 1);
    ("corrZSDvsK_50", JNum (0) 1);
    ("corrZSDvsK_60", JNum (0) 1);
    ("corrZSDvsK_70", JNum (0) 1);
    ("corrZSDvsK_80", JNum (0) 1);
    ("corrZSDvsK_90", JNum (0) 1);
    ("corrZSAvsK_10", JNum (0) 1);
    ("corrZSAvsK_20", JNum (0) 1);
    ("corrZSAvsK_30", JNum (0) 1);
    ("corrZSAvsK_40", JNum (0) 1);
    ("corrZSAvsK_50", JNum (0) 1);
    ("corrZSAvsK_60", JNum (0) 1);
    ("corrZSAvsK_70", JNum (0) 1);
    ("corrZSAvsK_80", JNum (0) 1);
    ("corrZSAvsK_90", JNum (0) 1);
    ("corrZSDvsDS_10", JNum (0) 1);
    ("corrZSDvsDS_20", JNum (0) 1);
    ("corrZSDvsDS_30", JNum (0) 1);
    ("corrZSDvsDS_40", JNum (0) 1);
    ("corrZSDvsDS_50", JNum (0) 1);
    ("corrZSDvsDS_60", JNum (0) 1);
    ("corrZSDvsDS_70", JNum (0) 1);
    ("corrZSDvsDS_80", JNum (0) 1);
    ("corrZSDvsDS_90", JNum (0) 1);
    ("corrZSAvsDS_10", JNum (0) 1);
    ("corrZSAvsDS_20", JNum (0) 1);
    ("corrZSAvsDS_30", JNum (0) 1);
    ("corrZSAvsDS_40", JNum (0) 1);
    ("corrZSAvsDS_50", JNum (0) 1);
    ("corrZSAvsDS_60", JNum (0) 1);
    ("corrZSAvsDS_70", JNum (0) 1);
    ("corrZSAvsDS_80", JNum (0) 1);
    ("corrZSAvsDS_90", JNum (0) 1);
    ("corrZSDvsASD_10", JNum (0) 1);
    ("corrZSDvsASD_20", JNum (0) 1);
    ("corrZSDvsASD_30", JNum (0) 1);
    ("corrZSDvsASD_40", JNum (0) 1);
    ("corrZSDvsASD_50", JNum (0) 1);
    ("corrZSDvsASD_60", JNum (0) 1);
    ("corrZSDvsASD_70", JNum (0) 1);
    ("corrZSDvsASD_80", JNum (0) 1);
    ("corrZSDvsASD_90", JNum (0) 1);
    ("corrZSAvsASD_10", JNum (0) 1);
    ("corrZSAvsASD_20", JNum (0) 1);
    ("corrZSAvsASD_30", JNum (0) 1);
    ("corrZSAvsASD_40", JNum (0) 1);
    ("corrZSAvsASD_50", JNum (0) 1);
    ("corrZSAvsASD_60", JNum (0) 1);
    ("corrZSAvsASD_70", JNum (0) 1);
    ("corrZSAvsASD_80", JNum (0) 1);
    ("corrZSAvsASD_90", JNum (0) 1);
    ("corrZSDvsASA_10", JNum (0) 1);
    ("corrZSDvsASA_20", JNum (0) 1);
    ("corrZSDvsASA_30", JNum (0) 1);
    ("corrZSDvsASA_40", JNum (0) 1);
    ("corrZSDvsASA_50", JNum (0) 1);
    ("corrZSDvsASA_60", JNum (0) 1);
    ("corrZSDvsASA_70", JNum (0) 1);
    ("corrZSDvsASA_80", JNum (0) 1);
    ("corrZSDvsASA_90", JNum (0) 1);
    ("corrZSAvsASA_10", JNum (4) 1);
    ("corrZSAvsASA_20", JNum (4) 1);
    ("corrZSAvsASA_30", JNum (4) 1);
    ("corrZSAvsASA_40", JNum (4) 1);
    ("corrZSAvsASA_50", JNum (4) 1);
    ("corrZSAvsASA_60", JNum (4) 1);
    ("corrZSAvsASA_70", JNum (4) 1);
    ("corrZSAvsASA_80", JNum (4) 1);
    ("corrZSAvsASA_90", JNum (4) 1);
    ("corrZSDvsZSA_10", JNum (0) 1);
    ("corrZSDvsZSA_20", JNum (0) 1);
    ("corrZSDvsZSA_30", JNum (0) 1);
    ("corrZSDvsZSA_40", JNum (0) 1);
    ("corrZSDvsZSA_50", JNum (0) 1);
    ("corrZSDvsZSA_60", JNum (0) 1);
    ("corrZSDvsZSA_70", JNum (0) 1);
    ("corrZSDvsZSA_80", JNum (0) 1);
    ("corrZSDvsZSA_90", JNum (0) 1) ].

(* /repo/OpenNTN/models/Dense_Urban_LOS_Ka_band_UL.json *)
Definition tab_Dense_Urban_LOS_Ka_band_UL : json_obj :=
  [ ("muDS_10", JNum (-743) 2);
    ("muDS_20", JNum (-762) 2);
    ("muDS_30", JNum (-776) 2);
    ("muDS_40", JNum (-802) 2);
    ("muDS_50", JNum (-813) 2);
    ("muDS_60", JNum (-830) 2);
    ("muDS_70", JNum (-834) 2);
    ("muDS_80", JNum (-839) 2);
    ("muDS_90", JNum (-845) 2);
    ("sigmaDS_10", JNum (90) 2);
    ("sigmaDS_20", JNum (78) 2);
    ("sigmaDS_30", JNum (80) 2);
    ("sigmaDS_40", JNum (72) 2);
    ("sigmaDS_50", JNum (61) 2);
    ("sigmaDS_60", JNum (47) 2);
    ("sigmaDS_70", JNum (39) 2);
    ("sigmaDS_80", JNum (26) 2);
    ("sigmaDS_90", JNum (1) 2);
    ("muASD_10", JNum (-343) 2);
    ("muASD_20", JNum (-306) 2);
    ("muASD_30", JNum (-291) 2);
    ("muASD_40", JNum (-281) 2);
    ("muASD_50", JNum (-274) 2);
    ("muASD_60", JNum (-272) 2);
    ("muASD_70", JNum (-246) 2);
    ("muASD_80", JNum (-230) 2);
    ("muASD_90", JNum (-111) 2);
    ("sigmaASD_10", JNum (54) 2);
    ("sigmaASD_20", JNum (41) 2);
    ("sigmaASD_30", JNum (42) 2);
    ("sigmaASD_40", JNum (34) 2);
    ("sigmaASD_50", JNum (34) 2);
    ("sigmaASD_60", JNum (70) 2);
    ("sigmaASD_70", JNum (40) 2);
    ("sigmaASD_80", JNum (78) 2);
    ("sigmaASD_90", JNum (51) 2);
    ("muASA_10", JNum (65) 2);
    ("muASA_20", JNum (53) 2);
    ("muASA_30", JNum (60) 2);
    ("muASA_40", JNum (43) 2);
    ("muASA_50", JNum (36) 2);
    ("muASA_60", JNum (16) 2);
    ("muASA_70", JNum (18) 2);
    ("muASA_80", JNum (24) 2);
    ("muASA_90", JNum (36) 2);
    ("sigmaASA_10", JNum (82) 2);
    ("sigmaASA_20", JNum (78) 2);
    ("sigmaASA_30", JNum (83) 2);
    ("sigmaASA_40", JNum (78) 2);
    ("sigmaASA_50", JNum (77) 2);
    ("sigmaASA_60", JNum (84) 2);
    ("sigmaASA_70", JNum (64) 2);
    ("sigmaASA_80", JNum (81) 2);
    ("sigmaASA_90", JNum (65) 2);
    ("muZSA_10", JNum (82) 2);
    ("muZSA_20", JNum (47) 2);
    ("muZSA_30", JNum (80) 2);
    ("muZSA_40", JNum (123) 2);
    ("muZSA_50", JNum (142) 2);
    ("muZSA_60", JNum (156) 2);
    ("muZSA_70", JNum (165) 2);
    ("muZSA_80", JNum (173) 2);
    ("muZSA_90", JNum (179) 2);
    ("sigmaZSA_10", JNum (5) 2);
    ("sigmaZSA_20", JNum (11) 2);
    ("sigmaZSA_30", JNum (5) 2);
    ("sigmaZSA_40", JNum (4) 2);
    ("sigmaZSA_50", JNum (10) 2);
    ("sigmaZSA_60", JNum (6) 2);
    ("sigmaZSA_70", JNum (7) 2);
    ("sigmaZSA_80", JNum (2) 2);
    ("sigmaZSA_90", JNum (1) 2);
    ("muZSD_10", JNum (-275) 2);
    ("muZSD_20", JNum (-264) 2);
    ("muZSD_30", JNum (-249) 2);
    ("muZSD_40", JNum (-251) 2);
    ("muZSD_50", JNum (-254) 2);
    ("muZSD_60", JNum (-271) 2);
    ("muZSD_70", JNum (-285) 2);
    ("muZSD_80", JNum (-301) 2);
    ("muZSD_90", JNum (-308) 2);
    ("sigmaZSD_10", JNum (55) 2);
    ("sigmaZSD_20", JNum (64) 2);
    ("sigmaZSD_30", JNum (69) 2);
    ("sigmaZSD_40", JNum (57) 2);
    ("sigmaZSD_50", JNum (50) 2);
    ("sigmaZSD_60", JNum (37) 2);
    ("sigmaZSD_70", JNum (31) 2);
    ("sigmaZSD_80", JNum (45) 2);
    ("sigmaZSD_90", JNum (27) 2);
    ("sigmaSF_10", JNum (29) 1);
    ("sigmaSF_20", JNum (24) 1);
    ("sigmaSF_30", JNum (27) 1);
    ("sigmaSF_40", JNum (24) 1);
    ("sigmaSF_50", JNum (24) 1);
    ("sigmaSF_60", JNum (27) 1);
    ("sigmaSF_70", JNum (26) 1);
    ("sigmaSF_80", JNum (28) 1);
    ("sigmaSF_90", JNum (6) 1);
    ("muK_10", JNum (61) 1);
    ("muK_20", JNum (137) 1);
    ("muK_30", JNum (129) 1);
    ("muK_40", JNum (103) 1);
    ("muK_50", JNum (92) 1);
    ("muK_60", JNum (84) 1);
    ("muK_70", JNum (80) 1);
    ("muK_80", JNum (74) 1);
    ("muK_90", JNum (76) 1);
    ("sigmaK_10", JNum (26) 1);
    ("sigmaK_20", JNum (68) 1);
    ("sigmaK_30", JNum (60) 1);
    ("sigmaK_40", JNum (33) 1);
    ("sigmaK_50", JNum (22) 1);
    ("sigmaK_60", JNum (19) 1);
    ("sigmaK_70", JNum (15) 1);
    ("sigmaK_80", JNum (16) 1);
    ("sigmaK_90", JNum (13) 1);
    ("muXPR_10", JNum (247) 1);
    ("muXPR_20", JNum (244) 1);
    ("muXPR_30", JNum (244) 1);
    ("muXPR_40", JNum (242) 1);
    ("muXPR_50", JNum (239) 1);
    ("muXPR_60", JNum (233) 1);
    ("muXPR_70", JNum (226) 1);
    ("muXPR_80", JNum (212) 1);
    ("muXPR_90", JNum (176) 1);
    ("sigmaXPR_10", JNum (21) 1);
    ("sigmaXPR_20", JNum (28) 1);
    ("sigmaXPR_30", JNum (27) 1);
    ("sigmaXPR_40", JNum (27) 1);
    ("sigmaXPR_50", JNum (31) 1);
    ("sigmaXPR_60", JNum (39) 1);
    ("sigmaXPR_70", JNum (48) 1);
    ("sigmaXPR_80", JNum (68) 1);
    ("sigmaXPR_90", JNum (127) 1);
    ("rTau_10", JNum (25) 1);
    ("rTau_20", JNum (25) 1);
    ("rTau_30", JNum (25) 1);
    ("rTau_40", JNum (25) 1);
    ("rTau_50", JNum (25) 1);
    ("rTau_60", JNum (25) 1);
    ("rTau_70", JNum (25) 1);
    ("rTau_80", JNum (25) 1);
    ("rTau_90", JNum (25) 1);
    ("numClusters_10", JInt (3));
    ("numClusters_20", JInt (3));
    ("numClusters_30", JInt (3));
    ("numClusters_40", JInt (3));
    ("numClusters_50", JInt (3));
    ("numClusters_60", JInt (3));
    ("numClusters_70", JInt (3));
    ("numClusters_80", JInt (3));
    ("numClusters_90", JInt (3));
    ("zeta_10", JNum (30) 1);
    ("zeta_20", JNum (30) 1);
    ("zeta_30", JNum (30) 1);
    ("zeta_40", JNum (30) 1);
    ("zeta_50", JNum (30) 1);
    ("zeta_60", JNum (30) 1);
    ("zeta_70", JNum (30) 1);
    ("zeta_80", JNum (30) 1);
    ("zeta_90", JNum (30) 1);
    ("cDS_10", JNum (16) 1);
    ("cDS_20", JNum (16) 1);
    ("cDS_30", JNum (16) 1);
    ("cDS_40", JNum (16) 1);
    ("cDS_50", JNum (16) 1);
    ("cDS_60", JNum (16) 1);
    ("cDS_70", JNum (16) 1);
    ("cDS_80", JNum (16) 1);
    ("cDS_90", JNum (16) 1);
    ("cASD_10", JNum (0) 1);
    ("cASD_20", JNum (0) 1);
    ("cASD_30", JNum (0) 1);
    ("cASD_40", JNum (0) 1);
    ("cASD_50", JNum (0) 1);
    ("cASD_60", JNum (0) 1);
    ("cASD_70", JNum (0) 1);
    ("cASD_80", JNum (0) 1);
    ("cASD_90", JNum (0) 1);
    ("cASA_10", JNum (110) 1);
    ("cASA_20", JNum (110) 1);
    ("cASA_30", JNum (110) 1);
    ("cASA_40", JNum (110) 1);
    ("cASA_50", JNum (110) 1);
    ("cASA_60", JNum (110) 1);
    ("cASA_70", JNum (110) 1);
    ("cASA_80", JNum (110) 1);
    ("cASA_90", JNum (110) 1);
    ("cZSA_10", JNum (70) 1);
    ("cZSA_20", JNum (70) 1);
    ("cZSA_30", JNum (70) 1);
    ("cZSA_40", JNum (70) 1);
    ("cZSA_50", JNum (70) 1);
    ("cZSA_60", JNum (70) 1);
    ("cZSA_70", JNum (70) 1);
    ("cZSA_80", JNum (70) 1);
    ("cZSA_90", JNum (70) 1);
    ("LoS_p_10", JNum (282) 3);
    ("LoS_p_20", JNum (331) 3);
    ("LoS_p_30", JNum (398) 3);
    ("LoS_p_40", JNum (468) 3);
    ("LoS_p_50", JNum (537) 3);
    ("LoS_p_60", JNum (612) 3);
    ("LoS_p_70", JNum (738) 3);
    ("LoS_p_80", JNum (82) 2);
    ("LoS_p_90", JNum (981) 3);
    ("CPhiNLoS", JNum (680) 3);
    ("CThetaNLoS", JNum (594) 3);
    ("corrDistDS_10", JNum (300) 1);
    ("corrDistDS_20", JNum (300) 1);
    ("corrDistDS_30", JNum (300) 1);
    ("corrDistDS_40", JNum (300) 1);
    ("corrDistDS_50", JNum (300) 1);
    ("corrDistDS_60", JNum (300) 1);
    ("corrDistDS_70", JNum (300) 1);
    ("corrDistDS_80", JNum (300) 1);
    ("corrDistDS_90", JNum (300) 1);
    ("corrDistASD_10", JNum (180) 1);
    ("corrDistASD_20", JNum (180) 1);
    ("corrDistASD_30", JNum (180) 1);
    ("corrDistASD_40", JNum (180) 1);
    ("corrDistASD_50", JNum (180) 1);
    ("corrDistASD_60", JNum (180) 1);
    ("corrDistASD_70", JNum (180) 1);
    ("corrDistASD_80", JNum (180) 1);
    ("corrDistASD_90", JNum (180) 1);
    ("corrDistASA_10", JNum (150) 1);
    ("corrDistASA_20", JNum (150) 1);
    ("corrDistASA_30", JNum (150) 1);
    ("corrDistASA_40", JNum (150) 1);
    ("corrDistASA_50", JNum (150) 1);
    ("corrDistASA_60", JNum (150) 1);
    ("corrDistASA_70", JNum (150) 1);
    ("corrDistASA_80", JNum (150) 1);
    ("corrDistASA_90", JNum (150) 1);
    ("corrDistSF_10", JNum (370) 1);
    ("corrDistSF_20", JNum (370) 1);
    ("corrDistSF_30", JNum (370) 1);
    ("corrDistSF_40", JNum (370) 1);
    ("corrDistSF_50", JNum (370) 1);
    ("corrDistSF_60", JNum (370) 1);
    ("corrDistSF_70", JNum (370) 1);
    ("corrDistSF_80", JNum (370) 1);
    ("corrDistSF_90", JNum (370) 1);
    ("corrDistK_10", JNum (120) 1);
    ("corrDistK_20", JNum (120) 1);
    ("corrDistK_30", JNum (120) 1);
    ("corrDistK_40", JNum (120) 1);
    ("corrDistK_50", JNum (120) 1);
    ("corrDistK_60", JNum (120) 1);
    ("corrDistK_70", JNum (120) 1);
    ("corrDistK_80", JNum (120) 1);
    ("corrDistK_90", JNum (120) 1);
    ("corrDistZSA_10", JNum (150) 1);
    ("corrDistZSA_20", JNum (150) 1);
    ("corrDistZSA_30", JNum (150) 1);
    ("corrDistZSA_40", JNum (150) 1);
    ("corrDistZSA_50", JNum (150) 1);
    ("corrDistZSA_60", JNum (150) 1);
    ("corrDistZSA_70", JNum (150) 1);
    ("corrDistZSA_80", JNum (150) 1);
    ("corrDistZSA_90", JNum (150) 1);
    ("corrDistZSD_10", JNum (150) 1);
    ("corrDistZSD_20", JNum (150) 1);
    ("corrDistZSD_30", JNum (150) 1);
    ("corrDistZSD_40", JNum (150) 1);
    ("corrDistZSD_50", JNum (150) 1);
    ("corrDistZSD_60", JNum (150) 1);
    ("corrDistZSD_70", JNum (150) 1);
    ("corrDistZSD_80", JNum (150) 1);
    ("corrDistZSD_90", JNum (150) 1);
    ("corrASDvsDS_10", JNum (4) 1);
    ("corrASDvsDS_20", JNum (4) 1);
    ("corrASDvsDS_30", JNum (4) 1);
    ("corrASDvsDS_40", JNum (4) 1);
    ("corrASDvsDS_50", JNum (4) 1);
    ("corrASDvsDS_60", JNum (4) 1);
    ("corrASDvsDS_70", JNum (4) 1);
    ("corrASDvsDS_80", JNum (4) 1);
    ("corrASDvsDS_90", JNum (4) 1);
    ("corrASAvsDS_10", JNum (8) 1);
    ("corrASAvsDS_20", JNum (8) 1);
    ("corrASAvsDS_30", JNum (8) 1);
    ("corrASAvsDS_40", JNum (8) 1);
    ("corrASAvsDS_50", JNum (8) 1);
    ("corrASAvsDS_60", JNum (8) 1);
    ("corrASAvsDS_70", JNum (8) 1);
    ("corrASAvsDS_80", JNum (8) 1);
    ("corrASAvsDS_90", JNum (8) 1);
    ("corrASAvsSF_10", JNum (-5) 1);
    ("corrASAvsSF_20", JNum (-5) 1);
    ("corrASAvsSF_30", JNum (-5) 1);
    ("corrASAvsSF_40", JNum (-5) 1);
    ("corrASAvsSF_50", JNum (-5) 1);
    ("corrASAvsSF_60", JNum (-5) 1);
    ("corrASAvsSF_70", JNum (-5) 1);
    ("corrASAvsSF_80", JNum (-5) 1);
    ("corrASAvsSF_90", JNum (-5) 1);
    ("corrASDvsSF_10", JNum (-5) 1);
    ("corrASDvsSF_20", JNum (-5) 1);
    ("corrASDvsSF_30", JNum (-5) 1);
    ("corrASDvsSF_40", JNum (-5) 1);
    ("corrASDvsSF_50", JNum (-5) 1);
    ("corrASDvsSF_60", JNum (-5) 1);
    ("corrASDvsSF_70", JNum (-5) 1);
    ("corrASDvsSF_80", JNum (-5) 1);
    ("corrASDvsSF_90", JNum (-5) 1);
    ("corrDSvsSF_10", JNum (-4) 1);
    ("corrDSvsSF_20", JNum (-4) 1);
    ("corrDSvsSF_30", JNum (-4) 1);
    ("corrDSvsSF_40", JNum (-4) 1);
    ("corrDSvsSF_50", JNum (-4) 1);
    ("corrDSvsSF_60", JNum (-4) 1);
    ("corrDSvsSF_70", JNum (-4) 1);
    ("corrDSvsSF_80", JNum (-4) 1);
    ("corrDSvsSF_90", JNum (-4) 1);
    ("corrASDvsASA_10", JNum (0) 1);
    ("corrASDvsASA_20", JNum (0) 1);
    ("corrASDvsASA_30", JNum (0) 1);
    ("corrASDvsASA_40", JNum (0) 1);
    ("corrASDvsASA_50", JNum (0) 1);
    ("corrASDvsASA_60", JNum (0) 1);
    ("corrASDvsASA_70", JNum (0) 1);
    ("corrASDvsASA_80", JNum (0) 1);
    ("corrASDvsASA_90", JNum (0) 1);
    ("corrASDvsK_10", JNum (0) 1);
    ("corrASDvsK_20", JNum (0) 1);
    ("corrASDvsK_30", JNum (0) 1);
    ("corrASDvsK_40", JNum (0) 1);
    ("corrASDvsK_50", JNum (0) 1);
    ("corrASDvsK_60", JNum (0) 1);
    ("corrASDvsK_70", JNum (0) 1);
    ("corrASDvsK_80", JNum (0) 1);
    ("corrASDvsK_90", JNum (0) 1);
    ("corrASAvsK_10", JNum (-2) 1);
    ("corrASAvsK_20", JNum (-2) 1);
    ("corrASAvsK_30", JNum (-2) 1);
    ("corrASAvsK_40", JNum (-2) 1);
    ("corrASAvsK_50", JNum (-2) 1);
    ("corrASAvsK_60", JNum (-2) 1);
    ("corrASAvsK_70", JNum (-2) 1);
    ("corrASAvsK_80", JNum (-2) 1);
    ("corrASAvsK_90", JNum (-2) 1);
    ("corrDSvsK_10", JNum (-4) 1);
    ("corrDSvsK_20", JNum (-4) 1);
    ("corrDSvsK_30", JNum (-4) 1);
    ("corrDSvsK_40", JNum (-4) 1);
    ("corrDSvsK_50", JNum (-4) 1);
    ("corrDSvsK_60", JNum (-4) 1);
    ("corrDSvsK_70", JNum (-4) 1);
    ("corrDSvsK_80", JNum (-4) 1);
    ("corrDSvsK_90", JNum (-4) 1);
    ("corrSFvsK_10", JNum (0) 1);
    ("corrSFvsK_20", JNum (0) 1);
    ("corrSFvsK_30", JNum (0) 1);
    ("corrSFvsK_40", JNum (0) 1);
    ("corrSFvsK_50", JNum (0) 1);
    ("corrSFvsK_60", JNum (0) 1);
    ("corrSFvsK_70", JNum (0) 1);
    ("corrSFvsK_80", JNum (0) 1);
    ("corrSFvsK_90", JNum (0) 1);
    ("corrZSDvsSF_10", JNum (0) 1);
    ("corrZSDvsSF_20", JNum (0) 1);
    ("corrZSDvsSF_30", JNum (0) 1);
    ("corrZSDvsSF_40", JNum (0) 1);
    ("corrZSDvsSF_50", JNum (0) 1);
    ("corrZSDvsSF_60", JNum (0) 1);
    ("corrZSDvsSF_70", JNum (0) 1);
    ("corrZSDvsSF_80", JNum (0) 1);
    ("corrZSDvsSF_90", JNum (0) 1);
    ("corrZSAvsSF_10", JNum (-8) 1);
    ("corrZSAvsSF_20", JNum (-8) 1);
    ("corrZSAvsSF_30", JNum (-8) 1);
    ("corrZSAvsSF_40", JNum (-8) 1);
    ("corrZSAvsSF_50", JNum (-8) 1);
    ("corrZSAvsSF_60", JNum (-8) 1);
    ("corrZSAvsSF_70", JNum (-8) 1);
    ("corrZSAvsSF_80", JNum (-8) 1);
    ("corrZSAvsSF_90", JNum (-8) 1);
    ("corrZSDvsK_10", JNum (0) 1);
    ("corrZSDvsK_20", JNum (0) 1);
    ("corrZSDvsK_30", JNum (0) 1);
    ("corrZSDvsK_40", JNum (0) 1);
    ("corrZSDvsK_50", JNum (0) 1);
    ("corrZSDvsK_60", JNum (0) 1);
    ("corrZSDvsK_70", JNum (0) 1);
    ("corrZSDvsK_80", JNum (0) 1);
    ("corrZSDvsK_90", JNum (0) 1);
    ("corrZSAvsK_10", JNum (0) 1);
    ("corrZSAvsK_20", JNum (0) 1);
    ("corrZSAvsK_30", JNum (0) 1);
    ("corrZSAvsK_40", JNum (0) 1);
    ("corrZSAvsK_50", JNum (0) 1);
    ("corrZSAvsK_60", JNum (0) 1);
    ("corrZSAvsK_70", JNum (0) 1);
    ("corrZSAvsK_80", JNum (0) 1);
    ("corrZSAvsK_90", JNum (0) 1);
    ("corrZSDvsDS_10", JNum (-2) 1);
    ("corrZSDvsDS_20", JNum (-2) 1);
    ("corrZSDvsDS_30", JNum (-2) 1);
    ("corrZSDvsDS_40", JNum (-2) 1);
    ("corrZSDvsDS_50", JNum (-2) 1);
    ("corrZSDvsDS_60", JNum (-2) 1);
    ("corrZSDvsDS_70", JNum (-2) 1);
    ("corrZSDvsDS_80", JNum (-2) 1);
    ("corrZSDvsDS_90", JNum (-2) 1);
    ("corrZSAvsDS_10", JNum (0) 1);
    ("corrZSAvsDS_20", JNum (0) 1);
    ("corrZSAvsDS_30", JNum (0) 1);
    ("corrZSAvsDS_40", JNum (0) 1);
    ("corrZSAvsDS_50", JNum (0) 1);
    ("corrZSAvsDS_60", JNum (0) 1);
    ("corrZSAvsDS_70", JNum (0) 1);
    ("corrZSAvsDS_80", JNum (0) 1);
    ("corrZSAvsDS_90", JNum (0) 1);
    ("corrZSDvsASD_10", JNum (5) 1);
    ("corrZSDvsASD_20", JNum (5) 1);
    ("corrZSDvsASD_30", JNum (5) 1);
    ("corrZSDvsASD_40", JNum (5) 1);
    ("corrZSDvsASD_50", JNum (5) 1);
    ("corrZSDvsASD_60", JNum (5) 1);
    ("corrZSDvsASD_70", JNum (5) 1);
    ("corrZSDvsASD_80", JNum (5) 1);
    ("corrZSDvsASD_90", JNum (5) 1);
    ("corrZSAvsASD_10", JNum (0) 1);
    ("corrZSAvsASD_20", JNum (0) 1);
    ("corrZSAvsASD_30", JNum (0) 1);
    ("corrZSAvsASD_40", JNum (0) 1);
    ("corrZSAvsASD_50", JNum (0) 1);
    ("corrZSAvsASD_60", JNum (0) 1);
    ("corrZSAvsASD_70", JNum (0) 1);
    ("corrZSAvsASD_80", JNum (0) 1);
    ("corrZSAvsASD_90", JNum (0) 1);
    ("corrZSDvsASA_10", JNum (-3) 1);
    ("corrZSDvsASA_20", JNum (-3) 1);
    ("corrZSDvsASA_30", JNum (-3) 1);
    ("corrZSDvsASA_40", JNum (-3) 1);
    ("corrZSDvsASA_50", JNum (-3) 1);
    ("corrZSDvsASA_60", JNum (-3) 1);
    ("corrZSDvsASA_70", JNum (-3) 1);
    ("corrZSDvsASA_80", JNum (-3) 1);
    ("corrZSDvsASA_90", JNum (-3) 1);
    ("corrZSAvsASA_10", JNum (4) 1);
    ("corrZSAvsASA_20", JNum (4) 1);
    ("corrZSAvsASA_30", JNum (4) 1);
    ("corrZSAvsASA_40", JNum (4) 1);
    ("corrZSAvsASA_50", JNum (4) 1);
    ("corrZSAvsASA_60", JNum (4) 1);
    ("corrZSAvsASA_70", JNum (4) 1);
    ("corrZSAvsASA_80", JNum (4) 1);
    ("corrZSAvsASA_90", JNum (4) 1);
    ("corrZSDvsZSA_10", JNum (0) 1);
    ("corrZSDvsZSA_20", JNum (0) 1);
    ("corrZSDvsZSA_30", JNum (0) 1);
    ("corrZSDvsZSA_40", JNum (0) 1);
    ("corrZSDvsZSA_50", JNum (0) 1);
    ("corrZSDvsZSA_60", JNum (0) 1);
    ("corrZSDvsZSA_70", JNum (0) 1);
    ("corrZSDvsZSA_80", JNum (0) 1);
    ("corrZSDvsZSA_90", JNum (0) 1) ].

(* /repo/OpenNTN/models/Dense_Urban_LOS_S_band_DL.json *)
Definition tab_Dense_Urban_LOS_S_band_DL : json_obj :=
  [ ("muDS_10", JNum (-712) 2);
    ("muDS_20", JNum (-728) 2);
    ("muDS_30", JNum (-745) 2);
    ("muDS_40", JNum (-773) 2);
    ("muDS_50", JNum (-791) 2);
    ("muDS_60", JNum (-814) 2);
    ("muDS_70", JNum (-823) 2);
    ("muDS_80", JNum (-828) 2);
    ("muDS_90", JNum (-836) 2);
    ("sigmaDS_10", JNum (80) 2);
    ("sigmaDS_20", JNum (67) 2);
    ("sigmaDS_30", JNum (68) 2);
    ("sigmaDS_40", JNum (66) 2);
    ("sigmaDS_50", JNum (62) 2);
    ("sigmaDS_60", JNum (51) 2);
    ("sigmaDS_70", JNum (45) 2);
    ("sigmaDS_80", JNum (31) 2);
    ("sigmaDS_90", JNum (8) 2);
    ("muASD_10", JStr "-inf");
    ("muASD_20", JStr "-inf");
    ("muASD_30", JStr "-inf");
    ("muASD_40", JStr "-inf");
    ("muASD_50", JStr "-inf");
    ("muASD_60", JStr "-inf");
    ("muASD_70", JStr "-inf");
    ("muASD_80", JStr "-inf");
    ("muASD_90", JStr "-inf");
    ("sigmaASD_10", JNum (0) 1);
    ("sigmaASD_20", JNum (0) 1);
    ("sigmaASD_30", JNum (0) 1);
    ("sigmaASD_40", JNum (0) 1);
    ("sigmaASD_50", JNum (0) 1);
    ("sigmaASD_60", JNum (0) 1);
    ("sigmaASD_70", JNum (0) 1);
    ("sigmaASD_80", JNum (0) 1);
    ("sigmaASD_90", JNum (0) 1);
    ("muASA_10", JNum (94) 2);
    ("muASA_20", JNum (87) 2);
    ("muASA_30", JNum (92) 2);
    ("muASA_40", JNum (79) 2);
    ("muASA_50", JNum (72) 2);
    ("muASA_60", JNum (60) 2);
    ("muASA_70", JNum (55) 2);
    ("muASA_80", JNum (71) 2);
    ("muASA_90", JNum (81) 2);
    ("sigmaASA_10", JNum (70) 2);
    ("sigmaASA_20", JNum (66) 2);
    ("sigmaASA_30", JNum (68) 2);
    ("sigmaASA_40", JNum (64) 2);
    ("sigmaASA_50", JNum (63) 2);
    ("sigmaASA_60", JNum (54) 2);
    ("sigmaASA_70", JNum (52) 2);
    ("sigmaASA_80", JNum (53) 2);
    ("sigmaASA_90", JNum (62) 2);
    ("muZSA_10", JNum (82) 2);
    ("muZSA_20", JNum (50) 2);
    ("muZSA_30", JNum (82) 2);
    ("muZSA_40", JNum (123) 2);
    ("muZSA_50", JNum (143) 2);
    ("muZSA_60", JNum (156) 2);
    ("muZSA_70", JNum (166) 2);
    ("muZSA_80", JNum (173) 2);
    ("muZSA_90", JNum (179) 2);
    ("sigmaZSA_10", JNum (3) 2);
    ("sigmaZSA_20", JNum (9) 2);
    ("sigmaZSA_30", JNum (5) 2);
    ("sigmaZSA_40", JNum (3) 2);
    ("sigmaZSA_50", JNum (6) 2);
    ("sigmaZSA_60", JNum (5) 2);
    ("sigmaZSA_70", JNum (5) 2);
    ("sigmaZSA_80", JNum (2) 2);
    ("sigmaZSA_90", JNum (1) 2);
    ("muZSD_10", JStr "-inf");
    ("muZSD_20", JStr "-inf");
    ("muZSD_30", JStr "-inf");
    ("muZSD_40", JStr "-inf");
    ("muZSD_50", JStr "-inf");
    ("muZSD_60", JStr "-inf");
    ("muZSD_70", JStr "-inf");
    ("muZSD_80", JStr "-inf");
    ("muZSD_90", JStr "-inf");
    ("sigmaZSD_10", JNum (0) 1);
    ("sigmaZSD_20", JNum (0) 1);
    ("sigmaZSD_30", JNum (0) 1);
    ("sigmaZSD_40", JNum (0) 1);
    ("sigmaZSD_50", JNum (0) 1);
    ("sigmaZSD_60", JNum (0) 1);
    ("sigmaZSD_70", JNum (0) 1);
    ("sigmaZSD_80", JNum (0) 1);
    ("sigmaZSD_90", JNum (0) 1);
    ("sigmaSF_10", JNum (35) 1);
    ("sigmaSF_20", JNum (34) 1);
    ("sigmaSF_30", JNum (29) 1);
    ("sigmaSF_40", JNum (30) 1);
    ("sigmaSF_50", JNum (31) 1);
    ("sigmaSF_60", JNum (27) 1);
    ("sigmaSF_70", JNum (25) 1);
    ("sigmaSF_80", JNum (23) 1);
    ("sigmaSF_90", JNum (12) 1);
    ("muK_10", JNum (44) 1);
    ("muK_20", JNum (90) 1);
    ("muK_30", JNum (93) 1);
    ("muK_40", JNum (79) 1);
    ("muK_50", JNum (74) 1);
    ("muK_60", JNum (70) 1);
    ("muK_70", JNum (69) 1);
    ("muK_80", JNum (65) 1);
    ("muK_90", JNum (68) 1);
    ("sigmaK_10", JNum (33) 1);
    ("sigmaK_20", JNum (66) 1);
    ("sigmaK_30", JNum (61) 1);
    ("sigmaK_40", JNum (40) 1);
    ("sigmaK_50", JNum (30) 1);
    ("sigmaK_60", JNum (26) 1);
    ("sigmaK_70", JNum (22) 1);
    ("sigmaK_80", JNum (21) 1);
    ("sigmaK_90", JNum (19) 1);
    ("muXPR_10", JNum (244) 1);
    ("muXPR_20", JNum (236) 1);
    ("muXPR_30", JNum (232) 1);
    ("muXPR_40", JNum (226) 1);
    ("muXPR_50", JNum (218) 1);
    ("muXPR_60", JNum (205) 1);
    ("muXPR_70", JNum (193) 1);
    ("muXPR_80", JNum (174) 1);
    ("muXPR_90", JNum (123) 1);
    ("sigmaXPR_10", JNum (38) 1);
    ("sigmaXPR_20", JNum (47) 1);
    ("sigmaXPR_30", JNum (46) 1);
    ("sigmaXPR_40", JNum (49) 1);
    ("sigmaXPR_50", JNum (57) 1);
    ("sigmaXPR_60", JNum (69) 1);
    ("sigmaXPR_70", JNum (81) 1);
    ("sigmaXPR_80", JNum (103) 1);
    ("sigmaXPR_90", JNum (152) 1);
    ("rTau_10", JNum (25) 1);
    ("rTau_20", JNum (25) 1);
    ("rTau_30", JNum (25) 1);
    ("rTau_40", JNum (25) 1);
    ("rTau_50", JNum (25) 1);
    ("rTau_60", JNum (25) 1);
    ("rTau_70", JNum (25) 1);
    ("rTau_80", JNum (25) 1);
    ("rTau_90", JNum (25) 1);
    ("numClusters_10", JInt (3));
    ("numClusters_20", JInt (3));
    ("numClusters_30", JInt (3));
    ("numClusters_40", JInt (3));
    ("numClusters_50", JInt (3));
    ("numClusters_60", JInt (3));
    ("numClusters_70", JInt (3));
    ("numClusters_80", JInt (3));
    ("numClusters_90", JInt (3));
    ("zeta_10", JNum (30) 1);
    ("zeta_20", JNum (30) 1);
    ("zeta_30", JNum (30) 1);
    ("zeta_40", JNum (30) 1);
    ("zeta_50", JNum (30) 1);
    ("zeta_60", JNum (30) 1);
    ("zeta_70", JNum (30) 1);
    ("zeta_80", JNum (30) 1);
    ("zeta_90", JNum (30) 1);
    ("cDS_10", JNum (39) 1);
    ("cDS_20", JNum (39) 1);
    ("cDS_30", JNum (39) 1);
    ("cDS_40", JNum (39) 1);
    ("cDS_50", JNum (39) 1);
    ("cDS_60", JNum (39) 1);
    ("cDS_70", JNum (39) 1);
    ("cDS_80", JNum (39) 1);
    ("cDS_90", JNum (39) 1);
    ("cASD_10", JNum (0) 1);
    ("cASD_20", JNum (0) 1);
    ("cASD_30", JNum (0) 1);
    ("cASD_40", JNum (0) 1);
    ("cASD_50", JNum (0) 1);
    ("cASD_60", JNum (0) 1);
    ("cASD_70", JNum (0) 1);
    ("cASD_80", JNum (0) 1);
    ("cASD_90", JNum (0) 1);
    ("cASA_10", JNum (110) 1);
    ("cASA_20", JNum (110) 1);
    ("cASA_30", JNum (110) 1);
    ("cASA_40", JNum (110) 1);
    ("cASA_50", JNum (110) 1);
    ("cASA_60", JNum (110) 1);
    ("cASA_70", JNum (110) 1);
    ("cASA_80", JNum (110) 1);
    ("cASA_90", JNum (110) 1);
    ("cZSA_10", JNum (70) 1);
    ("cZSA_20", JNum (70) 1);
    ("cZSA_30", JNum (70) 1);
    ("cZSA_40", JNum (70) 1);
    ("cZSA_50", JNum (70) 1);
    ("cZSA_60", JNum (70) 1);
    ("cZSA_70", JNum (70) 1);
    ("cZSA_80", JNum (70) 1);
    ("cZSA_90", JNum (70) 1);
    ("LoS_p_10", JNum (282) 3);
    ("LoS_p_20", JNum (331) 3);
    ("LoS_p_30", JNum (398) 3);
    ("LoS_p_40", JNum (468) 3);
    ("LoS_p_50", JNum (537) 3);
    ("LoS_p_60", JNum (612) 3);
    ("LoS_p_70", JNum (738) 3);
    ("LoS_p_80", JNum (82) 2);
    ("LoS_p_90", JNum (981) 3);
    ("CPhiNLoS", JNum (680) 3);
    ("CThetaNLoS", JNum (594) 3);
    ("corrDistDS_10", JNum (300) 1);
    ("corrDistDS_20", JNum (300) 1);
    ("corrDistDS_30", JNum (300) 1);
    ("corrDistDS_40", JNum (300) 1);
    ("corrDistDS_50", JNum (300) 1);
    ("corrDistDS_60", JNum (300) 1);
    ("corrDistDS_70", JNum (300) 1);
    ("corrDistDS_80", JNum (300) 1);
    ("corrDistDS_90", JNum (300) 1);
    ("corrDistASD_10", JNum (180) 1);
    ("corrDistASD_20", JNum (180) 1);
    ("corrDistASD_30", JNum (180) 1);
    ("corrDistASD_40", JNum (180) 1);
    ("corrDistASD_50", JNum (180) 1);
    ("corrDistASD_60", JNum (180) 1);
    ("corrDistASD_70", JNum (180) 1);
    ("corrDistASD_80", JNum (180) 1);
    ("corrDistASD_90", JNum (180) 1);
    ("corrDistASA_10", JNum (150) 1);
    ("corrDistASA_20", JNum (150) 1);
    ("corrDistASA_30", JNum (150) 1);
    ("corrDistASA_40", JNum (150) 1);
    ("corrDistASA_50", JNum (150) 1);
    ("corrDistASA_60", JNum (150) 1);
    ("corrDistASA_70", JNum (150) 1);
    ("corrDistASA_80", JNum (150) 1);
    ("corrDistASA_90", JNum (150) 1);
    ("corrDistSF_10", JNum (370) 1);
    ("corrDistSF_20", JNum (370) 1);
    ("corrDistSF_30", JNum (370) 1);
    ("corrDistSF_40", JNum (370) 1);
    ("corrDistSF_50", JNum (370) 1);
    ("corrDistSF_60", JNum (370) 1);
    ("corrDistSF_70", JNum (370) 1);
    ("corrDistSF_80", JNum (370) 1);
    ("corrDistSF_90", JNum (370) 1);
    ("corrDistK_10", JNum (120) 1);
    ("corrDistK_20", JNum (120) 1);
    ("corrDistK_30", JNum (120) 1);
    ("corrDistK_40", JNum (120) 1);
    ("corrDistK_50", JNum (120) 1);
    ("corrDistK_60", JNum (120) 1);
    ("corrDistK_70", JNum (120) 1);
    ("corrDistK_80", JNum (120) 1);
    ("corrDistK_90", JNum (120) 1);
    ("corrDistZSA_10", JNum (150) 1);
    ("corrDistZSA_20", JNum (150) 1);
    ("corrDistZSA_30", JNum (150) 1);
    ("corrDistZSA_40", JNum (150) 1);
    ("corrDistZSA_50", JNum (150) 1);
    ("corrDistZSA_60", JNum (150) 1);
    ("corrDistZSA_70", JNum (150) 1);
    ("corrDistZSA_80", JNum (150) 1);
    ("corrDistZSA_90", JNum (150) 1);
    ("corrDistZSD_10", JNum (150) 1);
    ("corrDistZSD_20", JNum (150) 1);
    ("corrDistZSD_30", JNum (150) 1);
    ("corrDistZSD_40", JNum (150) 1);
    ("corrDistZSD_50", JNum (150) 1);
    ("corrDistZSD_60", JNum (150) 1);
    ("corrDistZSD_70", JNum (150) 1);
    ("corrDistZSD_80", JNum (150) 1);
    ("corrDistZSD_90", JNum (150) 1);
    ("corrASDvsDS_10", JNum (0) 1);
    ("corrASDvsDS_20", JNum (0) 1);
    ("corrASDvsDS_30", JNum (0) 1);
    ("corrASDvsDS_40", JNum (0) 1);
    ("corrASDvsDS_50", JNum (0) 1);
    ("corrASDvsDS_60", JNum (0) 1);
    ("corrASDvsDS_70", JNum (0) 1);
    ("corrASDvsDS_80", JNum (0) 1);
    ("corrASDvsDS_90", JNum (0) 1);
    ("corrASAvsDS_10", JNum (8) 1);
    ("corrASAvsDS_20", JNum (8) 1);
    ("corrASAvsDS_30", JNum (8) 1);
    ("corrASAvsDS_40", JNum (8) 1);
    ("corrASAvsDS_50", JNum (8) 1);
    ("corrASAvsDS_60", JNum (8) 1);
    ("corrASAvsDS_70", JNum (8) 1);
    ("corrASAvsDS_80", JNum (8) 1);
    ("corrASAvsDS_90", JNum (8) 1);
    ("corrASAvsSF_10", JNum (-5) 1);
    ("corrASAvsSF_20", JNum (-5) 1);
    ("corrASAvsSF_30", JNum (-5) 1);
    ("corrASAvsSF_40", JNum (-5) 1);
    ("corrASAvsSF_50", JNum (-5) 1);
    ("corrASAvsSF_60", JNum (-5) 1);
    ("corrASAvsSF_70", JNum (-5) 1);
    ("corrASAvsSF_80", JNum (-5) 1);
    ("corrASAvsSF_90", JNum (-5) 1);
    ("corrASDvsSF_10", JNum (0) 1);
    ("corrASDvsSF_20", JNum (0) 1);
    ("corrASDvsSF_30", JNum (0) 1);
    ("corrASDvsSF_40", JNum (0) 1);
    ("corrASDvsSF_50", JNum (0) 1);
    ("corrASDvsSF_60", JNum (0) 1);
    ("corrASDvsSF_70", JNum (0) 1);
    ("corrASDvsSF_80", JNum (0) 1);
    ("corrASDvsSF_90", JNum (0) 1);
    ("corrDSvsSF_10", JNum (-4) 1);
    ("corrDSvsSF_20", JNum (-4) 1);
    ("corrDSvsSF_30", JNum (-4) 1);
    ("corrDSvsSF_40", JNum (-4) 1);
    ("corrDSvsSF_50", JNum (-4) 1);
    ("corrDSvsSF_60", JNum (-4) 1);
    ("corrDSvsSF_70", JNum (-4) 1);
    ("corrDSvsSF_80", JNum (-4) 1);
    ("corrDSvsSF_90", JNum (-4) 1);
    ("corrASDvsASA_10", JNum (0) 1);
    ("corrASDvsASA_20", JNum (0) 1);
    ("corrASDvsASA_30", JNum (0) 1);
    ("corrASDvsASA_40", JNum (0) 1);
    ("corrASDvsASA_50", JNum (0) 1);
    ("corrASDvsASA_60", JNum (0) 1);
    ("corrASDvsASA_70", JNum (0) 1);
    ("corrASDvsASA_80", JNum (0) 1);
    ("corrASDvsASA_90", JNum (0) 1);
    ("corrASDvsK_10", JNum (0) 1);
    ("corrASDvsK_20", JNum (0) 1);
    ("corrASDvsK_30", JNum (0) 1);
    ("corrASDvsK_40", JNum (0) 1);
    ("corrASDvsK_50", JNum (0) 1);
    ("corrASDvsK_60", JNum (0) 1);
    ("corrASDvsK_70", JNum (0) 1);
    ("corrASDvsK_80", JNum (0) 1);
    ("corrASDvsK_90", JNum (0) 1);
    ("corrASAvsK_10", JNum (-2) 1);
    ("corrASAvsK_20", JNum (-2) 1);
    ("corrASAvsK_30", JNum (-2) 1);
    ("corrASAvsK_40", JNum (-2) 1);
    ("corrASAvsK_50", JNum (-2) 1);
    ("corrASAvsK_60", JNum (-2) 1);
    ("corrASAvsK_70", JNum (-2) 1);
    ("corrASAvsK_80", JNum (-2) 1);
    ("corrASAvsK_90", JNum (-2) 1);
    ("corrDSvsK_10", JNum (-4) 1);
    ("corrDSvsK_20", JNum (-4) 1);
    ("corrDSvsK_30", JNum (-4) 1);
    ("corrDSvsK_40", JNum (-4) 1);
    ("corrDSvsK_50", JNum (-4) 1);
    ("corrDSvsK_60", JNum (-4) 1);
    ("corrDSvsK_70", JNum (-4) 1);
    ("corrDSvsK_80", JNum (-4) 1);
    ("corrDSvsK_90", JNum (-4) 1);
    ("corrSFvsK_10", JNum (0) 1);
    ("corrSFvsK_20", JNum (0) 1);
    ("corrSFvsK_30", JNum (0) 1);
    ("corrSFvsK_40", JNum (0) 1);
    ("corrSFvsK_50", JNum (0) 1);
    ("corrSFvsK_60", JNum (0) 1);
    ("corrSFvsK_70", JNum (0) 1);
    ("corrSFvsK_80", JNum (0) 1);
    ("corrSFvsK_90", JNum (0) 1);
    ("corrZSDvsSF_10", JNum (0) 1);
    ("corrZSDvsSF_20", JNum (0) 1);
    ("corrZSDvsSF_30", JNum (0) 1);
    ("corrZSDvsSF_40", JNum (0) 1);
    ("corrZSDvsSF_50", JNum (0) 1);
    ("corrZSDvsSF_60", JNum (0) 1);
    ("corrZSDvsSF_70", JNum (0) 1);
    ("corrZSDvsSF_80", JNum (0) 1);
    ("corrZSDvsSF_90", JNum (0) 1);
    ("corrZSAvsSF_10", JNum (-8) 1);
    ("corrZSAvsSF_20", JNum (-8) 1);
    ("corrZSAvsSF_30", JNum (-8) 1);
    ("corrZSAvsSF_40", JNum (-8) 1);
    ("corrZSAvsSF_50", JNum (-8) 1);
    ("corrZSAvsSF_60", JNum (-8) 1);
    ("corrZSAvsSF_70", JNum (-8) 1);
    ("corrZSAvsSF_80", JNum (-8) 1);
    ("corrZSAvsSF_90", JNum (-8) 1);
    ("corrZSDvsK_10", JNum (0) 1);
    ("corrZSDvsK_20", JNum (0) 1);
    ("corrZSDvsK_30", JNum (0) 1);
    ("corrZSDvsK_40", JNum (0) 1);
    ("corrZSDvsK_50", JNum (0) 1);
    ("corrZSDvsK_60", JNum (0) 1);
    ("corrZSDvsK_70", JNum (0) 1);
    ("corrZSDvsK_80", JNum (0) 1);
    ("corrZSDvsK_90", JNum (0) 1);
    ("corrZSAvsK_10", JNum (0) 1);
    ("corrZSAvsK_20", JNum (0) 1);
    ("corrZSAvsK_30", JNum (0) 1);
    ("corrZSAvsK_40", JNum (0) 1);
    ("corrZSAvsK_50", JNum (0) 1);
    ("corrZSAvsK_60", JNum (0) 1);
    ("corrZSAvsK_70", JNum (0) 1);
    ("corrZSAvsK_80", JNum (0) 1);
    ("corrZSAvsK_90", JNum (0) 1);
    ("corrZSDvsDS_10", JNum (0) 1);
    ("corrZSDvsDS_20", JNum (0) 1);
    ("corrZSDvsDS_30", JNum (0) 1);
    ("corrZSDvsDS_40", JNum (0) 1);
    ("corrZSDvsDS_50", JNum (0) 1);
    ("corrZSDvsDS_60", JNum (0) 1);
    ("corrZSDvsDS_70", JNum (0) 1);
    ("corrZSDvsDS_80", JNum (0) 1);
    ("corrZSDvsDS_90", JNum (0) 1);
    ("corrZSAvsDS_10", JNum (0) 1);
    ("corrZSAvsDS_20", JNum (0) 1);
    ("corrZSAvsDS_30", JNum (0) 1);
    ("corrZSAvsDS_40", JNum (0) 1);
    ("corrZSAvsDS_50", JNum (0) 1);
    ("corrZSAvsDS_60", JNum (0) 1);
    ("corrZSAvsDS_70", JNum (0) 1);
    ("corrZSAvsDS_80", JNum (0) 1);
    ("corrZSAvsDS_90", JNum (0) 1);
    ("corrZSDvsASD_10", JNum (0) 1);
    ("corrZSDvsASD_20", JNum (0) 1);
    ("corrZSDvsASD_30", JNum (0) 1);
    ("corrZSDvsASD_40", JNum (0) 1);
    ("corrZSDvsASD_50", JNum (0) 1);
    ("corrZSDvsASD_60", JNum (0) 1);
    ("corrZSDvsASD_70", JNum (0) 1);
    ("corrZSDvsASD_80", JNum (0) 1);
    ("corrZSDvsASD_90", JNum (0) 1);
    ("corrZSAvsASD_10", JNum (0) 1);
    ("corrZSAvsASD_20", JNum (0) 1);
    ("corrZSAvsASD_30", JNum (0) 1);
    ("corrZSAvsASD_40", JNum (0) 1);
    ("corrZSAvsASD_50", JNum (0) 1);
    ("corrZSAvsASD_60", JNum (0) 1);
    ("corrZSAvsASD_70", JNum (0) 1);
    ("corrZSAvsASD_80", JNum (0) 1);
    ("corrZSAvsASD_90", JNum (0) 1);
    ("corrZSDvsASA_10", JNum (0) 1);
    ("corrZSDvsASA_20", JNum (0) 1);
    ("corrZSDvsASA_30", JNum (0) 1);
    ("corrZSDvsASA_40", JNum (0) 1);
    ("corrZSDvsASA_50", JNum (0) 1);
    ("corrZSDvsASA_60", JNum (0) 1);
    ("corrZSDvsASA_70", JNum (0) 1);
    ("corrZSDvsASA_80", JNum (0) 1);
    ("corrZSDvsASA_90", JNum (0) 1);
    ("corrZSAvsASA_10", JNum (4) 1);
    ("corrZSAvsASA_20", JNum (4) 1);
    ("corrZSAvsASA_30", JNum (4) 1);
    ("corrZSAvsASA_40", JNum (4) 1);
    ("corrZSAvsASA_50", JNum (4) 1);
    ("corrZSAvsASA_60", JNum (4) 1);
    ("corrZSAvsASA_70", JNum (4) 1);
    ("corrZSAvsASA_80", JNum (4) 1);
    ("corrZSAvsASA_90", JNum (4) 1);
    ("corrZSDvsZSA_10", JNum (0) 1);
    ("corrZSDvsZSA_20", JNum (0) 1);
    ("corrZSDvsZSA_30", JNum (0) 1);
    ("corrZSDvsZSA_40", JNum (0) 1);
    ("corrZSDvsZSA_50", JNum (0) 1);
    ("corrZSDvsZSA_60", JNum (0) 1);
    ("corrZSDvsZSA_70", JNum (0) 1);
    ("corrZSDvsZSA_80", JNum (0) 1);
    ("corrZSDvsZSA_90", JNum (0) 1) ].

(* /repo/OpenNTN/models/Dense_Urban_LOS_S_band_UL.json *)
Definition tab_Dense_Urban_LOS_S_band_UL : json_obj :=
  [ ("muDS_10", JNum (-712) 2);
    ("muDS_20", JNum (-728) 2);
    ("muDS_30", JNum (-745) 2);
    ("muDS_40", JNum (-773) 2);
    ("muDS_50", JNum (-791) 2);
    ("muDS_60", JNum (-814) 2);
    ("muDS_70", JNum (-823) 2);
    ("muDS_80", JNum (-828) 2);
    ("muDS_90", JNum (-836) 2);
    ("sigmaDS_10", JNum (80) 2);
    ("sigmaDS_20", JNum (67) 2);
    ("sigmaDS_30", JNum (68) 2);
    ("sigmaDS_40", JNum (66) 2);
    ("sigmaDS_50", JNum (62) 2);
    ("sigmaDS_60", JNum (51) 2);
    ("sigmaDS_70", JNum (45) 2);
    ("sigmaDS_80", JNum (31) 2);
    ("sigmaDS_90", JNum (8) 2);
    ("muASD_10", JNum (-306) 2);
    ("muASD_20", JNum (-268) 2);
    ("muASD_30", JNum (-251) 2);
    ("muASD_40", JNum (-240) 2);
    ("muASD_50", JNum (-231) 2);
    ("muASD_60", JNum (-220) 2);
    ("muASD_70", JNum (-200) 2);
    ("muASD_80", JNum (-164) 2);
    ("muASD_90", JNum (-63) 2);
    ("sigmaASD_10", JNum (48) 2);
    ("sigmaASD_20", JNum (36) 2);
    ("sigmaASD_30", JNum (38) 2);
    ("sigmaASD_40", JNum (32) 2);
    ("sigmaASD_50", JNum (33) 2);
    ("sigmaASD_60", JNum (39) 2);
    ("sigmaASD_70", JNum (40) 2);
    ("sigmaASD_80", JNum (32) 2);
    ("sigmaASD_90", JNum (53) 2);
    ("muASA_10", JNum (94) 2);
    ("muASA_20", JNum (87) 2);
    ("muASA_30", JNum (92) 2);
    ("muASA_40", JNum (79) 2);
    ("muASA_50", JNum (72) 2);
    ("muASA_60", JNum (60) 2);
    ("muASA_70", JNum (55) 2);
    ("muASA_80", JNum (71) 2);
    ("muASA_90", JNum (81) 2);
    ("sigmaASA_10", JNum (70) 2);
    ("sigmaASA_20", JNum (66) 2);
    ("sigmaASA_30", JNum (68) 2);
    ("sigmaASA_40", JNum (64) 2);
    ("sigmaASA_50", JNum (63) 2);
    ("sigmaASA_60", JNum (54) 2);
    ("sigmaASA_70", JNum (52) 2);
    ("sigmaASA_80", JNum (53) 2);
    ("sigmaASA_90", JNum (62) 2);
    ("muZSA_10", JNum (82) 2);
    ("muZSA_20", JNum (50) 2);
    ("muZSA_30", JNum (82) 2);
    ("muZSA_40", JNum (123) 2);
    ("muZSA_50", JNum (143) 2);
    ("muZSA_60", JNum (156) 2);
    ("muZSA_70", JNum (166) 2);
    ("muZSA_80", JNum (173) 2);
    ("muZSA_90", JNum (179) 2);
    ("sigmaZSA_10", JNum (3) 2);
    ("sigmaZSA_20", JNum (9) 2);
    ("sigmaZSA_30", JNum (5) 2);
    ("sigmaZSA_40", JNum (3) 2);
    ("sigmaZSA_50", JNum (6) 2);
    ("sigmaZSA_60", JNum (5) 2);
    ("sigmaZSA_70", JNum (5) 2);
    ("sigmaZSA_80", JNum (2) 2);
    ("sigmaZSA_90", JNum (1) 2);
    ("muZSD_10", JNum (-252) 2);
    ("muZSD_20", JNum (-229) 2);
    ("muZSD_30", JNum (-219) 2);
    ("muZSD_40", JNum (-224) 2);
    ("muZSD_50", JNum (-230) 2);
    ("muZSD_60", JNum (-248) 2);
    ("muZSD_70", JNum (-264) 2);
    ("muZSD_80", JNum (-268) 2);
    ("muZSD_90", JNum (-261) 2);
    ("sigmaZSD_10", JNum (50) 2);
    ("sigmaZSD_20", JNum (53) 2);
    ("sigmaZSD_30", JNum (58) 2);
    ("sigmaZSD_40", JNum (51) 2);
    ("sigmaZSD_50", JNum (46) 2);
    ("sigmaZSD_60", JNum (35) 2);
    ("sigmaZSD_70", JNum (31) 2);
    ("sigmaZSD_80", JNum (39) 2);
    ("sigmaZSD_90", JNum (28) 2);
    ("sigmaSF_10", JNum (35) 1);
    ("sigmaSF_20", JNum (34) 1);
    ("sigmaSF_30", JNum (29) 1);
    ("sigmaSF_40", JNum (30) 1);
    ("sigmaSF_50", JNum (31) 1);
    ("sigmaSF_60", JNum (27) 1);
    ("sigmaSF_70", JNum (25) 1);
    ("sigmaSF_80", JNum (23) 1);
    ("sigmaSF_90", JNum (12) 1);
    ("muK_10", JNum (44) 1);
    ("muK_20", JNum (90) 1);
    ("muK_30", JNum (93) 1);
    ("muK_40", JNum (79) 1);
    ("muK_50", JNum (74) 1);
    ("muK_60", JNum (70) 1);
    ("muK_70", JNum (69) 1);
    ("muK_80", JNum (65) 1);
    ("muK_90", JNum (68) 1);
    ("sigmaK_10", JNum (33) 1);
    ("sigmaK_20", JNum (66) 1);
    ("sigmaK_30", JNum (61) 1);
    ("sigmaK_40", JNum (40) 1);
    ("sigmaK_50", JNum (30) 1);
    ("sigmaK_60", JNum (26) 1);
    ("sigmaK_70", JNum (22) 1);
    ("sigmaK_80", JNum (21) 1);
    ("sigmaK_90", JNum (19) 1);
    ("muXPR_10", JNum (244) 1);
    ("muXPR_20", JNum (236) 1);
    ("muXPR_30", JNum (232) 1);
    ("muXPR_40", JNum (226) 1);
    ("muXPR_50", JNum (218) 1);
    ("muXPR_60", JNum (205) 1);
    ("muXPR_70", JNum (193) 1);
    ("muXPR_80", JNum (174) 1);
    ("muXPR_90", JNum (123) 1);
    ("sigmaXPR_10", JNum (38) 1);
    ("sigmaXPR_20", JNum (47) 1);
    ("sigmaXPR_30", JNum (46) 1);
    ("sigmaXPR_40", JNum (49) 1);
    ("sigmaXPR_50", JNum (57) 1);
    ("sigmaXPR_60", JNum (69) 1);
    ("sigmaXPR_70", JNum (81) 1);
    ("sigmaXPR_80", JNum (103) 1);
    ("sigmaXPR_90", JNum (152) 1);
    ("rTau_10", JNum (25) 1);
    ("rTau_20", JNum (25) 1);
    ("rTau_30", JNum (25) 1);
    ("rTau_40", JNum (25) 1);
    ("rTau_50", JNum (25) 1);
    ("rTau_60", JNum (25) 1);
    ("rTau_70", JNum (25) 1);
    ("rTau_80", JNum (25) 1);
    ("rTau_90", JNum (25) 1);
    ("numClusters_10", JInt (3));
    ("numClusters_20", JInt (3));
    ("numClusters_30", JInt (3));
    ("numClusters_40", JInt (3));
    ("numClusters_50", JInt (3));
    ("numClusters_60", JInt (3));
    ("numClusters_70", JInt (3));
    ("numClusters_80", JInt (3));
    ("numClusters_90", JInt (3));
    ("zeta_10", JNum (30) 1);
    ("zeta_20", JNum (30) 1);
    ("zeta_30", JNum (30) 1);
    ("zeta_40", JNum (30) 1);
    ("zeta_50", JNum (30) 1);
    ("zeta_60", JNum (30) 1);
    ("zeta_70", JNum (30) 1);
    ("zeta_80", JNum (30) 1);
    ("zeta_90", JNum (30) 1);
    ("cDS_10", JNum (39) 1);
    ("cDS_20", JNum (39) 1);
    ("cDS_30", JNum (39) 1);
    ("cDS_40", JNum (39) 1);
    ("cDS_50", JNum (39) 1);
    ("cDS_60", JNum (39) 1);
    ("cDS_70", JNum (39) 1);
    ("cDS_80", JNum (39) 1);
    ("cDS_90", JNum (39) 1);
    ("cASD_10", JNum (0) 1);
    ("cASD_20", JNum (0) 1);
    ("cASD_30", JNum (0) 1);
    ("cASD_40", JNum (0) 1);
    ("cASD_50", JNum (0) 1);
    ("cASD_60", JNum (0) 1);
    ("cASD_70", JNum (0) 1);
    ("cASD_80", JNum (0) 1);
    ("cASD_90", JNum (0) 1);
    ("cASA_10", JNum (110) 1);
    ("cASA_20", JNum (110) 1);
    ("cASA_30", JNum (110) 1);
    ("cASA_40", JNum (110) 1);
    ("cASA_50", JNum (110) 1);
    ("cASA_60", JNum (110) 1);
    ("cASA_70", JNum (110) 1);
    ("cASA_80", JNum (110) 1);
    ("cASA_90", JNum (110) 1);
    ("cZSA_10", JNum (70) 1);
    ("cZSA_20", JNum (70) 1);
    ("cZSA_30", JNum (70) 1);
    ("cZSA_40", JNum (70) 1);
    ("cZSA_50", JNum (70) 1);
    ("cZSA_60", JNum (70) 1);
    ("cZSA_70", JNum (70) 1);
    ("cZSA_80", JNum (70) 1);
    ("cZSA_90", JNum (70) 1);
    ("LoS_p_10", JNum (282) 3);
    ("LoS_p_20", JNum (331) 3);
    ("LoS_p_30", JNum (398) 3);
    ("LoS_p_40", JNum (468) 3);
    ("LoS_p_50", JNum (537) 3);
    ("LoS_p_60", JNum (612) 3);
    ("LoS_p_70", JNum (738) 3);
    ("LoS_p_80", JNum (82) 2);
    ("LoS_p_90", JNum (981) 3);
    ("CPhiNLoS", JNum (680) 3);
    ("CThetaNLoS", JNum (594) 3);
    ("corrDistDS_10", JNum (300) 1);
    ("corrDistDS_20", JNum (300) 1);
    ("corrDistDS_30", JNum (300) 1);
    ("corrDistDS_40", JNum (300) 1);
    ("corrDistDS_50", JNum (300) 1);
    ("corrDistDS_60", JNum (300) 1);
    ("corrDistDS_70", JNum (300) 1);
    ("corrDistDS_80", JNum (300) 1);
    ("corrDistDS_90", JNum (300) 1);
    ("corrDistASD_10", JNum (180) 1);
    ("corrDistASD_20", JNum (180) 1);
    ("corrDistASD_30", JNum (180) 1);
    ("corrDistASD_40", JNum (180) 1);
    ("corrDistASD_50", JNum (180) 1);
    ("corrDistASD_60", JNum (180) 1);
    ("corrDistASD_70", JNum (180) 1);
    ("corrDistASD_80", JNum (180) 1);
    ("corrDistASD_90", JNum (180) 1);
    ("corrDistASA_10", JNum (150) 1);
    ("corrDistASA_20", JNum (150) 1);
    ("corrDistASA_30", JNum (150) 1);
    ("corrDistASA_40", JNum (150) 1);
    ("corrDistASA_50", JNum (150) 1);
    ("corrDistASA_60", JNum (150) 1);
    ("corrDistASA_70", JNum (150) 1);
    ("corrDistASA_80", JNum (150) 1);
    ("corrDistASA_90", JNum (150) 1);
    ("corrDistSF_10", JNum (370) 1);
    ("corrDistSF_20", JNum (370) 1);
    ("corrDistSF_30", JNum (370) 1);
    ("corrDistSF_40", JNum (370) 1);
    ("corrDistSF_50", JNum (370) 1);
    ("corrDistSF_60", JNum (370) 1);
    ("corrDistSF_70", JNum (370) 1);
    ("corrDistSF_80", JNum (370) 1);
    ("corrDistSF_90", JNum (370) 1);
    ("corrDistK_10", JNum (120) 1);
    ("corrDistK_20", JNum (120) 1);
    ("corrDistK_30", JNum (120) 1);
    ("corrDistK_40", JNum (120) 1);
    ("corrDistK_50", JNum (120) 1);
    ("corrDistK_60", JNum (120) 1);
    ("corrDistK_70", JNum (120) 1);
    ("corrDistK_80", JNum (120) 1);
    ("corrDistK_90", JNum (120) 1);
    ("corrDistZSA_10", JNum (150) 1);
    ("corrDistZSA_20", JNum (150) 1);
    ("corrDistZSA_30", JNum (150) 1);
    ("corrDistZSA_40", JNum (150) 1);
    ("corrDistZSA_50", JNum (150) 1);
    ("corrDistZSA_60", JNum (150) 1);
    ("corrDistZSA_70", JNum (150) 1);
    ("corrDistZSA_80", JNum (150) 1);
    ("corrDistZSA_90", JNum (150) 1);
    ("corrDistZSD_10", JNum (150) 1);
    ("corrDistZSD_20", JNum (150) 1);
    ("corrDistZSD_30", JNum (150) 1);
    ("corrDistZSD_40", JNum (150) 1);
    ("corrDistZSD_50", JNum (150) 1);
    ("corrDistZSD_60", JNum (150) 1);
    ("corrDistZSD_70", JNum (150) 1);
    ("corrDistZSD_80", JNum (150) 1);
    ("corrDistZSD_90", JNum (150) 1);
    ("corrASDvsDS_10", JNum (4) 1);
    ("corrASDvsDS_20", JNum (4) 1);
    ("corrASDvsDS_30", JNum (4) 1);
    ("corrASDvsDS_40", JNum (4) 1);
    ("corrASDvsDS_50", JNum (4) 1);
    ("corrASDvsDS_60", JNum (4) 1);
    ("corrASDvsDS_70", JNum (4) 1);
    ("corrASDvsDS_80", JNum (4) 1);
    ("corrASDvsDS_90", JNum (4) 1);
    ("corrASAvsDS_10", JNum (8) 1);
    ("corrASAvsDS_20", JNum (8) 1);
    ("corrASAvsDS_30", JNum (8) 1);
    ("corrASAvsDS_40", JNum (8) 1);
    ("corrASAvsDS_50", JNum (8) 1);
    ("corrASAvsDS_60", JNum (8) 1);
    ("corrASAvsDS_70", JNum (8) 1);
    ("corrASAvsDS_80", JNum (8) 1);
    ("corrASAvsDS_90", JNum (8) 1);
    ("corrASAvsSF_10", JNum (-5) 1);
    ("corrASAvsSF_20", JNum (-5) 1);
    ("corrASAvsSF_30", JNum (-5) 1);
    ("corrASAvsSF_40", JNum (-5) 1);
    ("corrASAvsSF_50", JNum (-5) 1);
    ("corrASAvsSF_60", JNum (-5) 1);
    ("corrASAvsSF_70", JNum (-5) 1);
    ("corrASAvsSF_80", JNum (-5) 1);
    ("corrASAvsSF_90", JNum (-5) 1);
    ("corrASDvsSF_10", JNum (-5) 1);
    ("corrASDvsSF_20", JNum (-5) 1);
    ("corrASDvsSF_30", JNum (-5) 1);
    ("corrASDvsSF_40", JNum (-5) 1);
    ("corrASDvsSF_50", JNum (-5) 1);
    ("corrASDvsSF_60", JNum (-5) 1);
    ("corrASDvsSF_70", JNum (-5) 1);
    ("corrASDvsSF_80", JNum (-5) 1);
    ("corrASDvsSF_90", JNum (-5) 1);
    ("corrDSvsSF_10", JNum (-4) 1);
    ("corrDSvsSF_20", JNum (-4) 1);
    ("corrDSvsSF_30", JNum (-4) 1);
    ("corrDSvsSF_40", JNum (-4) 1);
    ("corrDSvsSF_50", JNum (-4) 1);
    ("corrDSvsSF_60", JNum (-4) 1);
    ("corrDSvsSF_70", JNum (-4) 1);
    ("corrDSvsSF_80", JNum (-4) 1);
    ("corrDSvsSF_90", JNum (-4) 1);
    ("corrASDvsASA_10", JNum (0) 1);
    ("corrASDvsASA_20", JNum (0) 1);
    ("corrASDvsASA_30", JNum (0) 1);
    ("corrASDvsASA_40", JNum (0) 1);
    ("corrASDvsASA_50", JNum (0) 1);
    ("corrASDvsASA_60", JNum (0) 1);
    ("corrASDvsASA_70", JNum (0) 1);
    ("corrASDvsASA_80", JNum (0) 1);
    ("corrASDvsASA_90", JNum (0) 1);
    ("corrASDvsK_10", JNum (0) 1);
    ("corrASDvsK_20", JNum (0) 1);
    ("corrASDvsK_30", JNum (0) 1);
    ("corrASDvsK_40", JNum (0) 1);
    ("corrASDvsK_50", JNum (0) 1);
    ("corrASDvsK_60", JNum (0) 1);
    ("corrASDvsK_70", JNum (0) 1);
    ("corrASDvsK_80", JNum (0) 1);
    ("corrASDvsK_90", JNum (0) 1);
    ("corrASAvsK_10", JNum (-2) 1);
    ("corrASAvsK_20", JNum (-2) 1);
    ("corrASAvsK_30", JNum (-2) 1);
    ("corrASAvsK_40", JNum (-2) 1);
    ("corrASAvsK_50", JNum (-2) 1);
    ("corrASAvsK_60", JNum (-2) 1);
    ("corrASAvsK_70", JNum (-2) 1);
    ("corrASAvsK_80", JNum (-2) 1);
    ("corrASAvsK_90", JNum (-2) 1);
    ("corrDSvsK_10", JNum (-4) 1);
    ("corrDSvsK_20", JNum (-4) 1);
    ("corrDSvsK_30", JNum (-4) 1);
    ("corrDSvsK_40", JNum (-4) 1);
    ("corrDSvsK_50", JNum (-4) 1);
    ("corrDSvsK_60", JNum (-4) 1);
    ("corrDSvsK_70", JNum (-4) 1);
    ("corrDSvsK_80", JNum (-4) 1);
    ("corrDSvsK_90", JNum (-4) 1);
    ("corrSFvsK_10", JNum (0) 1);
    ("corrSFvsK_20", JNum (0) 1);
    ("corrSFvsK_30", JNum (0) 1);
    ("corrSFvsK_40", JNum (0) 1);
    ("corrSFvsK_50", JNum (0) 1);
    ("corrSFvsK_60", JNum (0) 1);
    ("corrSFvsK_70", JNum (0) 1);
    ("corrSFvsK_80", JNum (0) 1);
    ("corrSFvsK_90", JNum (0) 1);
    ("corrZSDvsSF_10", JNum (0) 1);
    ("corrZSDvsSF_20", JNum (0) 1);
    ("corrZSDvsSF_30", JNum (0) 1);
    ("corrZSDvsSF_40", JNum (0) 1);
    ("corrZSDvsSF_50", JNum (0) 1);
    ("corrZSDvsSF_60", JNum (0) 1);
    ("corrZSDvsSF_70", JNum (0) 1);
    ("corrZSDvsSF_80", JNum (0) 1);
    ("corrZSDvsSF_90", JNum (0) 1);
    ("corrZSAvsSF_10", JNum (-8) 1);
    ("corrZSAvsSF_20", JNum (-8) 1);
    ("corrZSAvsSF_30", JNum (-8) 1);
    ("corrZSAvsSF_40", JNum (-8) 1);
    ("corrZSAvsSF_50", JNum (-8) 1);
    ("corrZSAvsSF_60", JNum (-8) 1);
    ("corrZSAvsSF_70", JNum (-8) 1);
    ("corrZSAvsSF_80", JNum (-8) 1);
    ("corrZSAvsSF_90", JNum (-8) 1);
    ("corrZSDvsK_10", JNum (0) 1);
    ("corrZSDvsK_20", JNum (0) 1);
    ("corrZSDvsK_30", JNum (0) 1);
    ("corrZSDvsK_40", JNum (0) 1);
    ("corrZSDvsK_50", JNum (0) 1);
    ("corrZSDvsK_60", JNum (0) 1);
    ("corrZSDvsK_70", JNum (0) 1);
    ("corrZSDvsK_80", JNum (0) 1);
    ("corrZSDvsK_90", JNum (0) 1);
    ("corrZSAvsK_10", JNum (0) 1);
    ("corrZSAvsK_20", JNum (0) 1);
    ("corrZSAvsK_30", JNum (0) 1);
    ("corrZSAvsK_40", JNum (0) 1);
    ("corrZSAvsK_50", JNum (0) 1);
    ("corrZSAvsK_60", JNum (0) 1);
    ("corrZSAvsK_70", JNum (0) 1);
    ("corrZSAvsK_80", JNum (0) 1);
    ("corrZSAvsK_90", JNum (0) 1);
    ("corrZSDvsDS_10", JNum (-2) 1);
    ("corrZSDvsDS_20", JNum (-2) 1);
    ("corrZSDvsDS_30", JNum (-2) 1);
    ("corrZSDvsDS_40", JNum (-2) 1);
    ("corrZSDvsDS_50", JNum (-2) 1);
    ("corrZSDvsDS_60", JNum (-2) 1);
    ("corrZSDvsDS_70", JNum (-2) 1);
    ("corrZSDvsDS_80", JNum (-2) 1);
    ("corrZSDvsDS_90", JNum (-2) 1);
    ("corrZSAvsDS_10", JNum (0) 1);
    ("corrZSAvsDS_20", JNum (0) 1);
    ("corrZSAvsDS_30", JNum (0) 1);
    ("corrZSAvsDS_40", JNum (0) 1);
    ("corrZSAvsDS_50", JNum (0) 1);
    ("corrZSAvsDS_60", JNum (0) 1);
    ("corrZSAvsDS_70", JNum (0) 1);
    ("corrZSAvsDS_80", JNum (0) 1);
    ("corrZSAvsDS_90", JNum (0) 1);
    ("corrZSDvsASD_10", JNum (5) 1);
    ("corrZSDvsASD_20", JNum (5) 1);
    ("corrZSDvsASD_30", JNum (5) 1);
    ("corrZSDvsASD_40", JNum (5) 1);
    ("corrZSDvsASD_50", JNum (5) 1);
    ("corrZSDvsASD_60", JNum (5) 1);
    ("corrZSDvsASD_70", JNum (5) 1);
    ("corrZSDvsASD_80", JNum (5) 1);
    ("corrZSDvsASD_90", JNum (5) 1);
    ("corrZSAvsASD_10", JNum (0) 1);
    ("corrZSAvsASD_20", JNum (0) 1);
    ("corrZSAvsASD_30", JNum (0) 1);
    ("corrZSAvsASD_40", JNum (0) 1);
    ("corrZSAvsASD_50", JNum (0) 1);
    ("corrZSAvsASD_60", JNum (0) 1);
    ("corrZSAvsASD_70", JNum (0) 1);
    ("corrZSAvsASD_80", JNum (0) 1);
    ("corrZSAvsASD_90", JNum (0) 1);
    ("corrZSDvsASA_10", JNum (-3) 1);
    ("corrZSDvsASA_20", JNum (-3) 1);
    ("corrZSDvsASA_30", JNum (-3) 1);
    ("corrZSDvsASA_40", JNum (-3) 1);
    ("corrZSDvsASA_50", JNum (-3) 1);
    ("corrZSDvsASA_60", JNum (-3) 1);
    ("corrZSDvsASA_70", JNum (-3) 1);
    ("corrZSDvsASA_80", JNum (-3) 1);
    ("corrZSDvsASA_90", JNum (-3) 1);
    ("corrZSAvsASA_10", JNum (4) 1);
    ("corrZSAvsASA_20", JNum (4) 1);
    ("corrZSAvsASA_30", JNum (4) 1);
    ("corrZSAvsASA_40", JNum (4) 1);
    ("corrZSAvsASA_50", JNum (4) 1);
    ("corrZSAvsASA_60", JNum (4) 1);
    ("corrZSAvsASA_70", JNum (4) 1);
    ("corrZSAvsASA_80", JNum (4) 1);
    ("corrZSAvsASA_90", JNum (4) 1);
    ("corrZSDvsZSA_10", JNum (0) 1);
    ("corrZSDvsZSA_20", JNum (0) 1);
    ("corrZSDvsZSA_30", JNum (0) 1);
    ("corrZSDvsZSA_40", JNum (0) 1);
    ("corrZSDvsZSA_50", JNum (0) 1);
    ("corrZSDvsZSA_60", JNum (0) 1);
    ("corrZSDvsZSA_70", JNum (0) 1);
    ("corrZSDvsZSA_80", JNum (0) 1);
    ("corrZSDvsZSA_90", JNum (0) 1) ].

(* /repo/OpenNTN/models/Dense_Urban_NLOS_Ka_band_DL.json *)
Definition tab_Dense_Urban_NLOS_Ka_band_DL : json_obj :=
  [ ("muDS_10", JNum (-686) 2);
    ("muDS_20", JNum (-684) 2);
    ("muDS_30", JNum (-700) 2);
    ("muDS_40", JNum (-721) 2);
    ("muDS_50", JNum (-742) 2);
    ("muDS_60", JNum (-786) 2);
    ("muDS_70", JNum (-776) 2);
    ("muDS_80", JNum (-807) 2);
    ("muDS_90", JNum (-795) 2);
    ("sigmaDS_10", JNum (81) 2);
    ("sigmaDS_20", JNum (61) 2);
    ("sigmaDS_30", JNum (56) 2);
    ("sigmaDS_40", JNum (56) 2);
    ("sigmaDS_50", JNum (57) 2);
    ("sigmaDS_60", JNum (55) 2);
    ("sigmaDS_70", JNum (47) 2);
    ("sigmaDS_80", JNum (42) 2);
    ("sigmaDS_90", JNum (59) 2);
    ("muASD_10", JStr "-inf");
    ("muASD_20", JStr "-inf");
    ("muASD_30", JStr "-inf");
    ("muASD_40", JStr "-inf");
    ("muASD_50", JStr "-inf");
    ("muASD_60", JStr "-inf");
    ("muASD_70", JStr "-inf");
    ("muASD_80", JStr "-inf");
    ("muASD_90", JStr "-inf");
    ("sigmaASD_10", JNum (0) 1);
    ("sigmaASD_20", JNum (0) 1);
    ("sigmaASD_30", JNum (0) 1);
    ("sigmaASD_40", JNum (0) 1);
    ("sigmaASD_50", JNum (0) 1);
    ("sigmaASD_60", JNum (0) 1);
    ("sigmaASD_70", JNum (0) 1);
    ("sigmaASD_80", JNum (0) 1);
    ("sigmaASD_90", JNum (0) 1);
    ("muASA_10", JNum (102) 2);
    ("muASA_20", JNum (144) 2);
    ("muASA_30", JNum (148) 2);
    ("muASA_40", JNum (146) 2);
    ("muASA_50", JNum (140) 2);
    ("muASA_60", JNum (97) 2);
    ("muASA_70", JNum (133) 2);
    ("muASA_80", JNum (112) 2);
    ("muASA_90", JNum (104) 2);
    ("sigmaASA_10", JNum (144) 2);
    ("sigmaASA_20", JNum (77) 2);
    ("sigmaASA_30", JNum (70) 2);
    ("sigmaASA_40", JNum (60) 2);
    ("sigmaASA_50", JNum (59) 2);
    ("sigmaASA_60", JNum (127) 2);
    ("sigmaASA_70", JNum (56) 2);
    ("sigmaASA_80", JNum (104) 2);
    ("sigmaASA_90", JNum (63) 2);
    ("muZSA_10", JNum (101) 2);
    ("muZSA_20", JNum (96) 2);
    ("muZSA_30", JNum (113) 2);
    ("muZSA_40", JNum (130) 2);
    ("muZSA_50", JNum (140) 2);
    ("muZSA_60", JNum (141) 2);
    ("muZSA_70", JNum (163) 2);
    ("muZSA_80", JNum (168) 2);
    ("muZSA_90", JNum (170) 2);
    ("sigmaZSA_10", JNum (56) 2);
    ("sigmaZSA_20", JNum (55) 2);
    ("sigmaZSA_30", JNum (43) 2);
    ("sigmaZSA_40", JNum (37) 2);
    ("sigmaZSA_50", JNum (32) 2);
    ("sigmaZSA_60", JNum (45) 2);
    ("sigmaZSA_70", JNum (17) 2);
    ("sigmaZSA_80", JNum (14) 2);
    ("sigmaZSA_90", JNum (17) 2);
    ("muZSD_10", JStr "-inf");
    ("muZSD_20", JStr "-inf");
    ("muZSD_30", JStr "-inf");
    ("muZSD_40", JStr "-inf");
    ("muZSD_50", JStr "-inf");
    ("muZSD_60", JStr "-inf");
    ("muZSD_70", JStr "-inf");
    ("muZSD_80", JStr "-inf");
    ("muZSD_90", JStr "-inf");
    ("sigmaZSD_10", JNum (0) 1);
    ("sigmaZSD_20", JNum (0) 1);
    ("sigmaZSD_30", JNum (0) 1);
    ("sigmaZSD_40", JNum (0) 1);
    ("sigmaZSD_50", JNum (0) 1);
    ("sigmaZSD_60", JNum (0) 1);
    ("sigmaZSD_70", JNum (0) 1);
    ("sigmaZSD_80", JNum (0) 1);
    ("sigmaZSD_90", JNum (0) 1);
    ("sigmaSF_10", JNum (171) 1);
    ("sigmaSF_20", JNum (171) 1);
    ("sigmaSF_30", JNum (156) 1);
    ("sigmaSF_40", JNum (146) 1);
    ("sigmaSF_50", JNum (142) 1);
    ("sigmaSF_60", JNum (126) 1);
    ("sigmaSF_70", JNum (121) 1);
    ("sigmaSF_80", JNum (123) 1);
    ("sigmaSF_90", JNum (123) 1);
    ("CL_10", JNum (443) 1);
    ("CL_20", JNum (399) 1);
    ("CL_30", JNum (375) 1);
    ("CL_40", JNum (358) 1);
    ("CL_50", JNum (346) 1);
    ("CL_60", JNum (338) 1);
    ("CL_70", JNum (333) 1);
    ("CL_80", JNum (330) 1);
    ("CL_90", JNum (329) 1);
    ("muK_10", JNum (0) 1);
    ("muK_20", JNum (0) 1);
    ("muK_30", JNum (0) 1);
    ("muK_40", JNum (0) 1);
    ("muK_50", JNum (0) 1);
    ("muK_60", JNum (0) 1);
    ("muK_70", JNum (0) 1);
    ("muK_80", JNum (0) 1);
    ("muK_90", JNum (0) 1);
    ("sigmaK_10", JNum (0) 1);
    ("sigmaK_20", JNum (0) 1);
    ("sigmaK_30", JNum (0) 1);
    ("sigmaK_40", JNum (0) 1);
    ("sigmaK_50", JNum (0) 1);
    ("sigmaK_60", JNum (0) 1);
    ("sigmaK_70", JNum (0) 1);
    ("sigmaK_80", JNum (0) 1);
    ("sigmaK_90", JNum (0) 1);
    ("muXPR_10", JNum (237) 1);
    ("muXPR_20", JNum (218) 1);
    ("muXPR_30", JNum (196) 1);
    ("muXPR_40", JNum (180) 1);
    ("muXPR_50", JNum (163) 1);
    ("muXPR_60", JNum (159) 1);
    ("muXPR_70", JNum (123) 1);
    ("muXPR_80", JNum (105) 1);
    ("muXPR_90", JNum (105) 1);
    ("sigmaXPR_10", JNum (45) 1);
    ("sigmaXPR_20", JNum (63) 1);
    ("sigmaXPR_30", JNum (82) 1);
    ("sigmaXPR_40", JNum (94) 1);
    ("sigmaXPR_50", JNum (115) 1);
    ("sigmaXPR_60", JNum (124) 1);
    ("sigmaXPR_70", JNum (150) 1);
    ("sigmaXPR_80", JNum (157) 1);
    ("sigmaXPR_90", JNum (157) 1);
    ("rTau_10", JNum (23) 1);
    ("rTau_20", JNum (23) 1);
    ("rTau_30", JNum (23) 1);
    ("rTau_40", JNum (23) 1);
    ("rTau_50", JNum (23) 1);
    ("rTau_60", JNum (23) 1);
    ("rTau_70", JNum (23) 1);
    ("rTau_80", JNum (23) 1);
    ("rTau_90", JNum (23) 1);
    ("numClusters_10", JInt (4));
    ("numClusters_20", JInt (4));
    ("numClusters_30", JInt (4));
    ("numClusters_40", JInt (4));
    ("numClusters_50", JInt (4));
    ("numClusters_60", JInt (4));
    ("numClusters_70", JInt (4));
    ("numClusters_80", JInt (4));
    ("numClusters_90", JInt (4));
    ("zeta_10", JNum (30) 1);
    ("zeta_20", JNum (30) 1);
    ("zeta_30", JNum (30) 1);
    ("zeta_40", JNum (30) 1);
    ("zeta_50", JNum (30) 1);
    ("zeta_60", JNum (30) 1);
    ("zeta_70", JNum (30) 1);
    ("zeta_80", JNum (30) 1);
    ("zeta_90", JNum (30) 1);
    ("cDS_10", JNum (39) 1);
    ("cDS_20", JNum (39) 1);
    ("cDS_30", JNum (39) 1);
    ("cDS_40", JNum (39) 1);
    ("cDS_50", JNum (39) 1);
    ("cDS_60", JNum (39) 1);
    ("cDS_70", JNum (39) 1);
    ("cDS_80", JNum (39) 1);
    ("cDS_90", JNum (39) 1);
    ("cASD_10", JNum (0) 1);
    ("cASD_20", JNum (0) 1);
    ("cASD_30", JNum (0) 1);
    ("cASD_40", JNum (0) 1);
    ("cASD_50", JNum (0) 1);
    ("cASD_60", JNum (0) 1);
    ("cASD_70", JNum (0) 1);
    ("cASD_80", JNum (0) 1);
    ("cASD_90", JNum (0) 1);
    ("cASA_10", JNum (150) 1);
    ("cASA_20", JNum (150) 1);
    ("cASA_30", JNum (150) 1);
    ("cASA_40", JNum (150) 1);
    ("cASA_50", JNum (150) 1);
    ("cASA_60", JNum (150) 1);
    ("cASA_70", JNum (150) 1);
    ("cASA_80", JNum (150) 1);
    ("cASA_90", JNum (150) 1);
    ("cZSA_10", JNum (70) 1);
    ("cZSA_20", JNum (70) 1);
    ("cZSA_30", JNum (70) 1);
    ("cZSA_40", JNum (70) 1);
    ("cZSA_50", JNum (70) 1);
    ("cZSA_60", JNum (70) 1);
    ("cZSA_70", JNum (70) 1);
    ("cZSA_80", JNum (70) 1);
    ("cZSA_90", JNum (70) 1);
    ("LoS_p_10", JNum (282) 3);
    ("LoS_p_20", JNum (331) 3);
    ("LoS_p_30", JNum (398) 3);
    ("LoS_p_40", JNum (468) 3);
    ("LoS_p_50", JNum (537) 3);
    ("LoS_p_60", JNum (612) 3);
    ("LoS_p_70", JNum (738) 3);
    ("LoS_p_80", JNum (82) 2);
    ("LoS_p_90", JNum (981) 3);
    ("CPhiNLoS", JNum (779) 3);
    ("CThetaNLoS", JNum (697) 3);
    ("corrDistDS_10", JNum (400) 1);
    ("corrDistDS_20", JNum (400) 1);
    ("corrDistDS_30", JNum (400) 1);
    ("corrDistDS_40", JNum (400) 1);
    ("corrDistDS_50", JNum (400) 1);
    ("corrDistDS_60", JNum (400) 1);
    ("corrDistDS_70", JNum (400) 1);
    ("corrDistDS_80", JNum (400) 1);
    ("corrDistDS_90", JNum (400) 1);
    ("corrDistASD_10", JNum (500) 1);
    ("corrDistASD_20", JNum (500) 1);
    ("corrDistASD_30", JNum (500) 1);
    ("corrDistASD_40", JNum (500) 1);
    ("corrDistASD_50", JNum (500) 1);
    ("corrDistASD_60", JNum (500) 1);
    ("corrDistASD_70", JNum (500) 1);
    ("corrDistASD_80", JNum (500) 1);
    ("corrDistASD_90", JNum (500) 1);
    ("corrDistASA_10", JNum (500) 1);
    ("corrDistASA_20", JNum (500) 1);
    ("corrDistASA_30", JNum (500) 1);
    ("corrDistASA_40", JNum (500) 1);
    ("corrDistASA_50", JNum (500) 1);
    ("corrDistASA_60", JNum (500) 1);
    ("corrDistASA_70", JNum (500) 1);
    ("corrDistASA_80", JNum (500) 1);
    ("corrDistASA_90", JNum (500) 1);
    ("corrDistSF_10", JNum (500) 1);
    ("corrDistSF_20", JNum (500) 1);
    ("corrDistSF_30", JNum (500) 1);
    ("corrDistSF_40", JNum (500) 1);
    ("corrDistSF_50", JNum (500) 1);
    ("corrDistSF_60", JNum (500) 1);
    ("corrDistSF_70", JNum (500) 1);
    ("corrDistSF_80", JNum (500) 1);
    ("corrDistSF_90", JNum (500) 1);
    ("corrDistK_10", JNum (10) 1);
    ("corrDistK_20", JNum (10) 1);
    ("corrDistK_30", JNum (10) 1);
    ("corrDistK_40", JNum (10) 1);
    ("corrDistK_50", JNum (10) 1);
    ("corrDistK_60", JNum (10) 1);
    ("corrDistK_70", JNum (10) 1);
    ("corrDistK_80", JNum (10) 1);
    ("corrDistK_90", JNum (10) 1);
    ("corrDistZSA_10", JNum (500) 1);
    ("corrDistZSA_20", JNum (500) 1);
    ("corrDistZSA_30", JNum (500) 1);
    ("corrDistZSA_40", JNum (500) 1);
    ("corrDistZSA_50", JNum (500) 1);
    ("corrDistZSA_60", JNum (500) 1);
    ("corrDistZSA_70", JNum (500) 1);
    ("corrDistZSA_80", JNum (500) 1);
    ("corrDistZSA_90", JNum (500) 1);
    ("corrDistZSD_10", JNum (500) 1);
    ("corrDistZSD_20", JNum (500) 1);
    ("corrDistZSD_30", JNum (500) 1);
    ("corrDistZSD_40", JNum (500) 1);
    ("corrDistZSD_50", JNum (500) 1);
    ("corrDistZSD_60", JNum (500) 1);
    ("corrDistZSD_70", JNum (500) 1);
    ("corrDistZSD_80", JNum (500) 1);
    ("corrDistZSD_90", JNum (500) 1);
    ("corrASDvsDS_10", JNum (0) 1);
    ("corrASDvsDS_20", JNum (0) 1);
    ("corrASDvsDS_30", JNum (0) 1);
    ("corrASDvsDS_40", JNum (0) 1);
    ("corrASDvsDS_50", JNum (0) 1);
    ("corrASDvsDS_60", JNum (0) 1);
    ("corrASDvsDS_70", JNum (0) 1);
    ("corrASDvsDS_80", JNum (0) 1);
    ("corrASDvsDS_90", JNum (0) 1);
    ("corrASAvsDS_10", JNum (6) 1);
    ("corrASAvsDS_20", JNum (6) 1);
    ("corrASAvsDS_30", JNum (6) 1);
    ("corrASAvsDS_40", JNum (6) 1);
    ("corrASAvsDS_50", JNum (6) 1);
    ("corrASAvsDS_60", JNum (6) 1);
    ("corrASAvsDS_70", JNum (6) 1);
    ("corrASAvsDS_80", JNum (6) 1);
    ("corrASAvsDS_90", JNum (6) 1);
    ("corrASAvsSF_10", JNum (0) 1);
    ("corrASAvsSF_20", JNum (0) 1);
    ("corrASAvsSF_30", JNum (0) 1);
    ("corrASAvsSF_40", JNum (0) 1);
    ("corrASAvsSF_50", JNum (0) 1);
    ("corrASAvsSF_60", JNum (0) 1);
    ("corrASAvsSF_70", JNum (0) 1);
    ("corrASAvsSF_80", JNum (0) 1);
    ("corrASAvsSF_90", JNum (0) 1);
    ("corrASDvsSF_10", JNum (0) 1);
    ("corrASDvsSF_20", JNum (0) 1);
    ("corrASDvsSF_30", JNum (0) 1);
    ("corrASDvsSF_40", JNum (0) 1);
    ("corrASDvsSF_50", JNum (0) 1);
    ("corrASDvsSF_60", JNum (0) 1);
    ("corrASDvsSF_70", JNum (0) 1);
    ("corrASDvsSF_80", JNum (0) 1);
    ("corrASDvsSF_90", JNum (0) 1);
    ("corrDSvsSF_10", JNum (-4) 1);
    ("corrDSvsSF_20", JNum (-4) 1);
    ("corrDSvsSF_30", JNum (-4) 1);
    ("corrDSvsSF_40", JNum (-4) 1);
    ("corrDSvsSF_50", JNum (-4) 1);
    ("corrDSvsSF_60", JNum (-4) 1);
    ("corrDSvsSF_70", JNum (-4) 1);
    ("corrDSvsSF_80", JNum (-4) 1);
    ("corrDSvsSF_90", JNum (-4) 1);
    ("corrASDvsASA_10", JNum (0) 1);
    ("corrASDvsASA_20", JNum (0) 1);
    ("corrASDvsASA_30", JNum (0) 1);
    ("corrASDvsASA_40", JNum (0) 1);
    ("corrASDvsASA_50", JNum (0) 1);
    ("corrASDvsASA_60", JNum (0) 1);
    ("corrASDvsASA_70", JNum (0) 1);
    ("corrASDvsASA_80", JNum (0) 1);
    ("corrASDvsASA_90", JNum (0) 1);
    ("corrASDvsK_10", JNum (0) 1);
    ("corrASDvsK_20", JNum (0) 1);
    ("corrASDvsK_30", JNum (0) 1);
    ("corrASDvsK_40", JNum (0) 1);
    ("corrASDvsK_50", JNum (0) 1);
    ("corrASDvsK_60", JNum (0) 1);
    ("corrASDvsK_70", JNum (0) 1);
    ("corrASDvsK_80", JNum (0) 1);
    ("corrASDvsK_90", JNum (0) 1);
    ("corrASAvsK_10", JNum (0) 1);
    ("corrASAvsK_20", JNum (0) 1);
    ("corrASAvsK_30", JNum (0) 1);
    ("corrASAvsK_40", JNum (0) 1);
    ("corrASAvsK_50", JNum (0) 1);
    ("corrASAvsK_60", JNum (0) 1);
    ("corrASAvsK_70", JNum (0) 1);
    ("corrASAvsK_80", JNum (0) 1);
    ("corrASAvsK_90", JNum (0) 1);
    ("corrDSvsK_10", JNum (0) 1);
    ("corrDSvsK_20", JNum (0) 1);
    ("corrDSvsK_30", JNum (0) 1);
    ("corrDSvsK_40", JNum (0) 1);
    ("corrDSvsK_50", JNum (0) 1);
    ("corrDSvsK_60", JNum (0) 1);
    ("corrDSvsK_70", JNum (0) 1);
    ("corrDSvsK_80", JNum (0) 1);
    ("corrDSvsK_90", JNum (0) 1);
    ("corrSFvsK_10", JNum (0) 1);
    ("corrSFvsK_20", JNum (0) 1);
    ("corrSFvsK_30", JNum (0) 1);
    ("corrSFvsK_40", JNum (0) 1);
    ("corrSFvsK_50", JNum (0) 1);
    ("corrSFvsK_60", JNum (0) 1);
    ("corrSFvsK_70", JNum (0) 1);
    ("corrSFvsK_80", JNum (0) 1);
    ("corrSFvsK_90", JNum (0) 1);
    ("corrZSDvsSF_10", JNum (0) 1);
    ("corrZSDvsSF_20", JNum (0) 1);
    ("corrZSDvsSF_30", JNum (0) 1);
    ("corrZSDvsSF_40", JNum (0) 1);
    ("corrZSDvsSF_50", JNum (0) 1);
    ("corrZSDvsSF_60", JNum (0) 1);
    ("corrZSDvsSF_70", JNum (0) 1);
    ("corrZSDvsSF_80", JNum (0) 1);
    ("corrZSDvsSF_90", JNum (0) 1);
    ("corrZSAvsSF_10", JNum (-4) 1);
    ("corrZSAvsSF_20", JNum (-4) 1);
    ("corrZSAvsSF_30", JNum (-4) 1);
    ("corrZSAvsSF_40", JNum (-4) 1);
    ("corrZSAvsSF_50", JNum (-4) 1);
    ("corrZSAvsSF_60", JNum (-4) 1);
    ("corrZSAvsSF_70", JNum (-4) 1);
    ("corrZSAvsSF_80", JNum (-4) 1);
    ("corrZSAvsSF_90", JNum (-4) 1);
    ("corrZSDvsK_10", JNum (0) 1);
    ("corrZSDvsK_20", JNum (0) 1);
    ("corrZSDvsK_30", JNum (0) 1);
    ("corrZSDvsK_40", JNum (0) 1);
    ("corrZSDvsK_50", JNum (0) 1);
    ("corrZSDvsK_60", JNum (0) 1);
    ("corrZSDvsK_70", JNum (0) 1);
    ("corrZSDvsK_80", JNum (0) 1);
    ("corrZSDvsK_90", JNum (0) 1);
    ("corrZSAvsK_10", JNum (0) 1);
    ("corrZSAvsK_20", JNum (0) 1);
    ("corrZSAvsK_30", JNum (0) 1);
    ("corrZSAvsK_40", JNum (0) 1);
    ("corrZSAvsK_50", JNum (0) 1);
    ("corrZSAvsK_60", JNum (0) 1);
    ("corrZSAvsK_70", JNum (0) 1);
    ("corrZSAvsK_80", JNum (0) 1);
    ("corrZSAvsK_90", JNum (0) 1);
    ("corrZSDvsDS_10", JNum (0) 1);
    ("corrZSDvsDS_20", JNum (0) 1);
    ("corrZSDvsDS_30", JNum (0) 1);
    ("corrZSDvsDS_40", JNum (0) 1);
    ("corrZSDvsDS_50", JNum (0) 1);
    ("corrZSDvsDS_60", JNum (0) 1);
    ("corrZSDvsDS_70", JNum (0) 1);
    ("corrZSDvsDS_80", JNum (0) 1);
    ("corrZSDvsDS_90", JNum (0) 1);
    ("corrZSAvsDS_10", JNum (0) 1);
    ("corrZSAvsDS_20", JNum (0) 1);
    ("corrZSAvsDS_30", JNum (0) 1);
    ("corrZSAvsDS_40", JNum (0) 1);
    ("corrZSAvsDS_50", JNum (0) 1);
    ("corrZSAvsDS_60", JNum (0) 1);
    ("corrZSAvsDS_70", JNum (0) 1);
    ("corrZSAvsDS_80", JNum (0) 1);
    ("corrZSAvsDS_90", JNum (0) 1);
    ("corrZSDvsASD_10", JNum (0) 1);
    ("corrZSDvsASD_20", JNum (0) 1);
    ("corrZSDvsASD_30", JNum (0) 1);
    ("corrZSDvsASD_40", JNum (0) 1);
    ("corrZSDvsASD_50", JNum (0) 1);
    ("corrZSDvsASD_60", JNum (0) 1);
    ("corrZSDvsASD_70", JNum (0) 1);
    ("corrZSDvsASD_80", JNum (0) 1);
    ("corrZSDvsASD_90", JNum (0) 1);
    ("corrZSAvsASD_10", JNum (0) 1);
    ("corrZSAvsASD_20", JNum (0) 1);
    ("corrZSAvsASD_30", JNum (0) 1);
    ("corrZSAvsASD_40", JNum (0) 1);
    ("corrZSAvsASD_50", JNum (0) 1);
    ("corrZSAvsASD_60", JNum (0) 1);
    ("corrZSAvsASD_70", JNum (0) 1);
    ("corrZSAvsASD_80", JNum (0) 1);
    ("corrZSAvsASD_90", JNum (0) 1);
    ("corrZSDvsASA_10", JNum (0) 1);
    ("corrZSDvsASA_20", JNum (0) 1);
    ("corrZSDvsASA_30", JNum (0) 1);
    ("corrZSDvsASA_40", JNum (0) 1);
    ("corrZSDvsASA_50", JNum (0) 1);
    ("corrZSDvsASA_60", JNum (0) 1);
    ("corrZSDvsASA_70", JNum (0) 1);
    ("corrZSDvsASA_80", JNum (0) 1);
    ("corrZSDvsASA_90", JNum (0) 1);
    ("corrZSAvsASA_10", JNum (0) 1);
    ("corrZSAvsASA_20", JNum (0) 1);
    ("corrZSAvsASA_30", JNum (0) 1);
    ("corrZSAvsASA_40", JNum (0) 1);
    ("corrZSAvsASA_50", JNum (0) 1);
    ("corrZSAvsASA_60", JNum (0) 1);
    ("corrZSAvsASA_70", JNum (0) 1);
    ("corrZSAvsASA_80", JNum (0) 1);
    ("corrZSAvsASA_90", JNum (0) 1);
    ("corrZSDvsZSA_10", JNum (0) 1);
    ("corrZSDvsZSA_20", JNum (0) 1);
    ("corrZSDvsZSA_30", JNum (0) 1);
    ("corrZSDvsZSA_40", JNum (0) 1);
    ("corrZSDvsZSA_50", JNum (0) 1);
    ("corrZSDvsZSA_60", JNum (0) 1);
    ("corrZSDvsZSA_70", JNum (0) 1);
    ("corrZSDvsZSA_80", JNum (0) 1);
    ("corrZSDvsZSA_90", JNum (0) 1) ].

(* /repo/OpenNTN/models/Dense_Urban_NLOS_Ka_band_UL.json *)
Definition tab_Dense_Urban_NLOS_Ka_band_UL : json_obj :=
  [ ("muDS_10", JNum (-686) 2);
    ("muDS_20", JNum (-684) 2);
    ("muDS_30", JNum (-700) 2);
    ("muDS_40", JNum (-721) 2);
    ("muDS_50", JNum (-742) 2);
    ("muDS_60", JNum (-786) 2);
    ("muDS_70", JNum (-776) 2);
    ("muDS_80", JNum (-807) 2);
    ("muDS_90", JNum (-795) 2);
    ("sigmaDS_10", JNum (81) 2);
    ("sigmaDS_20", JNum (61) 2);
    ("sigmaDS_30", JNum (56) 2);
    ("sigmaDS_40", JNum (56) 2);
    ("sigmaDS_50", JNum (57) 2);
    ("sigmaDS_60", JNum (55) 2);
    ("sigmaDS_70", JNum (47) 2);
    ("sigmaDS_80", JNum (42) 2);
    ("sigmaDS_90", JNum (59) 2);
    ("muASD_10", JNum (-212) 2);
    ("muASD_20", JNum (-174) 2);
    ("muASD_30", JNum (-156) 2);
    ("muASD_40", JNum (-154) 2);
    ("muASD_50", JNum (-145) 2);
    ("muASD_60", JNum (-164) 2);
    ("muASD_70", JNum (-137) 2);
    ("muASD_80", JNum (-129) 2);
    ("muASD_90", JNum (-41) 2);
    ("sigmaASD_10", JNum (94) 2);
    ("sigmaASD_20", JNum (79) 2);
    ("sigmaASD_30", JNum (66) 2);
    ("sigmaASD_40", JNum (63) 2);
    ("sigmaASD_50", JNum (56) 2);
    ("sigmaASD_60", JNum (78) 2);
    ("sigmaASD_70", JNum (56) 2);
    ("sigmaASD_80", JNum (76) 2);
    ("sigmaASD_90", JNum (59) 2);
    ("muASA_10", JNum (102) 2);
    ("muASA_20", JNum (144) 2);
    ("muASA_30", JNum (148) 2);
    ("muASA_40", JNum (146) 2);
    ("muASA_50", JNum (140) 2);
    ("muASA_60", JNum (97) 2);
    ("muASA_70", JNum (133) 2);
    ("muASA_80", JNum (112) 2);
    ("muASA_90", JNum (104) 2);
    ("sigmaASA_10", JNum (144) 2);
    ("sigmaASA_20", JNum (77) 2);
    ("sigmaASA_30", JNum (70) 2);
    ("sigmaASA_40", JNum (60) 2);
    ("sigmaASA_50", JNum (59) 2);
    ("sigmaASA_60", JNum (127) 2);
    ("sigmaASA_70", JNum (56) 2);
    ("sigmaASA_80", JNum (104) 2);
    ("sigmaASA_90", JNum (63) 2);
    ("muZSA_10", JNum (101) 2);
    ("muZSA_20", JNum (96) 2);
    ("muZSA_30", JNum (113) 2);
    ("muZSA_40", JNum (130) 2);
    ("muZSA_50", JNum (140) 2);
    ("muZSA_60", JNum (141) 2);
    ("muZSA_70", JNum (163) 2);
    ("muZSA_80", JNum (168) 2);
    ("muZSA_90", JNum (170) 2);
    ("sigmaZSA_10", JNum (56) 2);
    ("sigmaZSA_20", JNum (55) 2);
    ("sigmaZSA_30", JNum (43) 2);
    ("sigmaZSA_40", JNum (37) 2);
    ("sigmaZSA_50", JNum (32) 2);
    ("sigmaZSA_60", JNum (45) 2);
    ("sigmaZSA_70", JNum (17) 2);
    ("sigmaZSA_80", JNum (14) 2);
    ("sigmaZSA_90", JNum (17) 2);
    ("muZSD_10", JNum (-211) 2);
    ("muZSD_20", JNum (-169) 2);
    ("muZSD_30", JNum (-152) 2);
    ("muZSD_40", JNum (-151) 2);
    ("muZSD_50", JNum (-154) 2);
    ("muZSD_60", JNum (-184) 2);
    ("muZSD_70", JNum (-186) 2);
    ("muZSD_80", JNum (-216) 2);
    ("muZSD_90", JNum (-221) 2);
    ("sigmaZSD_10", JNum (59) 2);
    ("sigmaZSD_20", JNum (51) 2);
    ("sigmaZSD_30", JNum (46) 2);
    ("sigmaZSD_40", JNum (43) 2);
    ("sigmaZSD_50", JNum (45) 2);
    ("sigmaZSD_60", JNum (63) 2);
    ("sigmaZSD_70", JNum (51) 2);
    ("sigmaZSD_80", JNum (74) 2);
    ("sigmaZSD_90", JNum (61) 2);
    ("sigmaSF_10", JNum (171) 1);
    ("sigmaSF_20", JNum (171) 1);
    ("sigmaSF_30", JNum (156) 1);
    ("sigmaSF_40", JNum (146) 1);
    ("sigmaSF_50", JNum (142) 1);
    ("sigmaSF_60", JNum (126) 1);
    ("sigmaSF_70", JNum (121) 1);
    ("sigmaSF_80", JNum (123) 1);
    ("sigmaSF_90", JNum (123) 1);
    ("CL_10", JNum (443) 1);
    ("CL_20", JNum (399) 1);
    ("CL_30", JNum (375) 1);
    ("CL_40", JNum (358) 1);
    ("CL_50", JNum (346) 1);
    ("CL_60", JNum (338) 1);
    ("CL_70", JNum (333) 1);
    ("CL_80", JNum (330) 1);
    ("CL_90", JNum (329) 1);
    ("muK_10", JNum (0) 1);
    ("muK_20", JNum (0) 1);
    ("muK_30", JNum (0) 1);
    ("muK_40", JNum (0) 1);
    ("muK_50", JNum (0) 1);
    ("muK_60", JNum (0) 1);
    ("muK_70", JNum (0) 1);
    ("muK_80", JNum (0) 1);
    ("muK_90", JNum (0) 1);
    ("sigmaK_10", JNum (0) 1);
    ("sigmaK_20", JNum (0) 1);
    ("sigmaK_30", JNum (0) 1);
    ("sigmaK_40", JNum (0) 1);
    ("sigmaK_50", JNum (0) 1);
    ("sigmaK_60", JNum (0) 1);
    ("sigmaK_70", JNum (0) 1);
    ("sigmaK_80", JNum (0) 1);
    ("sigmaK_90", JNum (0) 1);
    ("muXPR_10", JNum (237) 1);
    ("muXPR_20", JNum (218) 1);
    ("muXPR_30", JNum (196) 1);
    ("muXPR_40", JNum (180) 1);
    ("muXPR_50", JNum (163) 1);
    ("muXPR_60", JNum (159) 1);
    ("muXPR_70", JNum (123) 1);
    ("muXPR_80", JNum (105) 1);
    ("muXPR_90", JNum (105) 1);
    ("sigmaXPR_10", JNum (45) 1);
    ("sigmaXPR_20", JNum (63) 1);
    ("sigmaXPR_30", JNum (82) 1);
    ("sigmaXPR_40", JNum (94) 1);
    ("sigmaXPR_50", JNum (115) 1);
    ("sigmaXPR_60", JNum (124) 1);
    ("sigmaXPR_70", JNum (150) 1);
    ("sigmaXPR_80", JNum (157) 1);
    ("sigmaXPR_90", JNum (157) 1);
    ("rTau_10", JNum (23) 1);
    ("rTau_20", JNum (23) 1);
    ("rTau_30", JNum (23) 1);
    ("rTau_40", JNum (23) 1);
    ("rTau_50", JNum (23) 1);
    ("rTau_60", JNum (23) 1);
    ("rTau_70", JNum (23) 1);
    ("rTau_80", JNum (23) 1);
    ("rTau_90", JNum (23) 1);
    ("numClusters_10", JInt (4));
    ("numClusters_20", JInt (4));
    ("numClusters_30", JInt (4));
    ("numClusters_40", JInt (4));
    ("numClusters_50", JInt (4));
    ("numClusters_60", JInt (4));
    ("numClusters_70", JInt (4));
    ("numClusters_80", JInt (4));
    ("numClusters_90", JInt (4));
    ("zeta_10", JNum (30) 1);
    ("zeta_20", JNum (30) 1);
    ("zeta_30", JNum (30) 1);
    ("zeta_40", JNum (30) 1);
    ("zeta_50", JNum (30) 1);
    ("zeta_60", JNum (30) 1);
    ("zeta_70", JNum (30) 1);
    ("zeta_80", JNum (30) 1);
    ("zeta_90", JNum (30) 1);
    ("cDS_10", JNum (39) 1);
    ("cDS_20", JNum (39) 1);
    ("cDS_30", JNum (39) 1);
    ("cDS_40", JNum (39) 1);
    ("cDS_50", JNum (39) 1);
    ("cDS_60", JNum (39) 1);
    ("cDS_70", JNum (39) 1);
    ("cDS_80", JNum (39) 1);
    ("cDS_90", JNum (39) 1);
    ("cASD_10", JNum (0) 1);
    ("cASD_20", JNum (0) 1);
    ("cASD_30", JNum (0) 1);
    ("cASD_40", JNum (0) 1);
    ("cASD_50", JNum (0) 1);
    ("cASD_60", JNum (0) 1);
    ("cASD_70", JNum (0) 1);
    ("cASD_80", JNum (0) 1);
    ("cASD_90", JNum (0) 1);
    ("cASA_10", JNum (150) 1);
    ("cASA_20", JNum (150) 1);
    ("cASA_30", JNum (150) 1);
    ("cASA_40", JNum (150) 1);
    ("cASA_50", JNum (150) 1);
    ("cASA_60", JNum (150) 1);
    ("cASA_70", JNum (150) 1);
    ("cASA_80", JNum (150) 1);
    ("cASA_90", JNum (150) 1);
    ("cZSA_10", JNum (70) 1);
    ("cZSA_20", JNum (70) 1);
    ("cZSA_30", JNum (70) 1);
    ("cZSA_40", JNum (70) 1);
    ("cZSA_50", JNum (70) 1);
    ("cZSA_60", JNum (70) 1);
    ("cZSA_70", JNum (70) 1);
    ("cZSA_80", JNum (70) 1);
    ("cZSA_90", JNum (70) 1);
    ("LoS_p_10", JNum (282) 3);
    ("LoS_p_20", JNum (331) 3);
    ("LoS_p_30", JNum (398) 3);
    ("LoS_p_40", JNum (468) 3);
    ("LoS_p_50", JNum (537) 3);
    ("LoS_p_60", JNum (612) 3);
    ("LoS_p_70", JNum (738) 3);
    ("LoS_p_80", JNum (82) 2);
    ("LoS_p_90", JNum (981) 3);
    ("CPhiNLoS", JNum (779) 3);
    ("CThetaNLoS", JNum (697) 3);
    ("corrDistDS_10", JNum (400) 1);
    ("corrDistDS_20", JNum (400) 1);
    ("corrDistDS_30", JNum (400) 1);
    ("corrDistDS_40", JNum (400) 1);
    ("corrDistDS_50", JNum (400) 1);
    ("corrDistDS_60", JNum (400) 1);
    ("corrDistDS_70", JNum (400) 1);
    ("corrDistDS_80", JNum (400) 1);
    ("corrDistDS_90", JNum (400) 1);
    ("corrDistASD_10", JNum (500) 1);
    ("corrDistASD_20", JNum (500) 1);
    ("corrDistASD_30", JNum (500) 1);
    ("corrDistASD_40", JNum (500) 1);
    ("corrDistASD_50", JNum (500) 1);
    ("corrDistASD_60", JNum (500) 1);
    ("corrDistASD_70", JNum (500) 1);
    ("corrDistASD_80", JNum (500) 1);
    ("corrDistASD_90", JNum (500) 1);
    ("corrDistASA_10", JNum (500) 1);
    ("corrDistASA_20", JNum (500) 1);
    ("corrDistASA_30", JNum (500) 1);
    ("corrDistASA_40", JNum (500) 1);
    ("corrDistASA_50", JNum (500) 1);
    ("corrDistASA_60", JNum (500) 1);
    ("corrDistASA_70", JNum (500) 1);
    ("corrDistASA_80", JNum (500) 1);
    ("corrDistASA_90", JNum (500) 1);
    ("corrDistSF_10", JNum (500) 1);
    ("corrDistSF_20", JNum (500) 1);
    ("corrDistSF_30", JNum (500) 1);
    ("corrDistSF_40", JNum (500) 1);
    ("corrDistSF_50", JNum (500) 1);
    ("corrDistSF_60", JNum (500) 1);
    ("corrDistSF_70", JNum (500) 1);
    ("corrDistSF_80", JNum (500) 1);
    ("corrDistSF_90", JNum (500) 1);
    ("corrDistK_10", JNum (10) 1);
    ("corrDistK_20", JNum (10) 1);
    ("corrDistK_30", JNum (10) 1);
    ("corrDistK_40", JNum (10) 1);
    ("corrDistK_50", JNum (10) 1);
    ("corrDistK_60", JNum (10) 1);
    ("corrDistK_70", JNum (10) 1);
    ("corrDistK_80", JNum (10) 1);
    ("corrDistK_90", JNum (10) 1);
    ("corrDistZSA_10", JNum (500) 1);
    ("corrDistZSA_20", JNum (500) 1);
    ("corrDistZSA_30", JNum (500) 1);
    ("corrDistZSA_40", JNum (500) 1);
    ("corrDistZSA_50", JNum (500) 1);
    ("corrDistZSA_60", JNum (500) 1);
    ("corrDistZSA_70", JNum (500) 1);
    ("corrDistZSA_80", JNum (500) 1);
    ("corrDistZSA_90", JNum (500) 1);
    ("corrDistZSD_10", JNum (500) 1);
    ("corrDistZSD_20", JNum (500) 1);
    ("corrDistZSD_30", JNum (500) 1);
    ("corrDistZSD_40", JNum (500) 1);
    ("corrDistZSD_50", JNum (500) 1);
    ("corrDistZSD_60", JNum (500) 1);
    ("corrDistZSD_70", JNum (500) 1);
    ("corrDistZSD_80", JNum (500) 1);
    ("corrDistZSD_90", JNum (500) 1);
    ("corrASDvsDS_10", JNum (4) 1);
    ("corrASDvsDS_20", JNum (4) 1);
    ("corrASDvsDS_30", JNum (4) 1);
    ("corrASDvsDS_40", JNum (4) 1);
    ("corrASDvsDS_50", JNum (4) 1);
    ("corrASDvsDS_60", JNum (4) 1);
    ("corrASDvsDS_70", JNum (4) 1);
    ("corrASDvsDS_80", JNum (4) 1);
    ("corrASDvsDS_90", JNum (4) 1);
    ("corrASAvsDS_10", JNum (6) 1);
    ("corrASAvsDS_20", JNum (6) 1);
    ("corrASAvsDS_30", JNum (6) 1);
    ("corrASAvsDS_40", JNum (6) 1);
    ("corrASAvsDS_50", JNum (6) 1);
    ("corrASAvsDS_60", JNum (6) 1);
    ("corrASAvsDS_70", JNum (6) 1);
    ("corrASAvsDS_80", JNum (6) 1);
    ("corrASAvsDS_90", JNum (6) 1);
    ("corrASAvsSF_10", JNum (0) 1);
    ("corrASAvsSF_20", JNum (0) 1);
    ("corrASAvsSF_30", JNum (0) 1);
    ("corrASAvsSF_40", JNum (0) 1);
    ("corrASAvsSF_50", JNum (0) 1);
    ("corrASAvsSF_60", JNum (0) 1);
    ("corrASAvsSF_70", JNum (0) 1);
    ("corrASAvsSF_80", JNum (0) 1);
    ("corrASAvsSF_90", JNum (0) 1);
    ("corrASDvsSF_10", JNum (-6) 1);
    ("corrASDvsSF_20", JNum (-6) 1);
    ("corrASDvsSF_30", JNum (-6) 1);
    ("corrASDvsSF_40", JNum (-6) 1);
    ("corrASDvsSF_50", JNum (-6) 1);
    ("corrASDvsSF_60", JNum (-6) 1);
    ("corrASDvsSF_70", JNum (-6) 1);
    ("corrASDvsSF_80", JNum (-6) 1);
    ("corrASDvsSF_90", JNum (-6) 1);
    ("corrDSvsSF_10", JNum (-4) 1);
    ("corrDSvsSF_20", JNum (-4) 1);
    ("corrDSvsSF_30", JNum (-4) 1);
    ("corrDSvsSF_40", JNum (-4) 1);
    ("corrDSvsSF_50", JNum (-4) 1);
    ("corrDSvsSF_60", JNum (-4) 1);
    ("corrDSvsSF_70", JNum (-4) 1);
    ("corrDSvsSF_80", JNum (-4) 1);
    ("corrDSvsSF_90", JNum (-4) 1);
    ("corrASDvsASA_10", JNum (4) 1);
    ("corrASDvsASA_20", JNum (4) 1);
    ("corrASDvsASA_30", JNum (4) 1);
    ("corrASDvsASA_40", JNum (4) 1);
    ("corrASDvsASA_50", JNum (4) 1);
    ("corrASDvsASA_60", JNum (4) 1);
    ("corrASDvsASA_70", JNum (4) 1);
    ("corrASDvsASA_80", JNum (4) 1);
    ("corrASDvsASA_90", JNum (4) 1);
    ("corrASDvsK_10", JNum (0) 1);
    ("corrASDvsK_20", JNum (0) 1);
    ("corrASDvsK_30", JNum (0) 1);
    ("corrASDvsK_40", JNum (0) 1);
    ("corrASDvsK_50", JNum (0) 1);
    ("corrASDvsK_60", JNum (0) 1);
    ("corrASDvsK_70", JNum (0) 1);
    ("corrASDvsK_80", JNum (0) 1);
    ("corrASDvsK_90", JNum (0) 1);
    ("corrASAvsK_10", JNum (0) 1);
    ("corrASAvsK_20", JNum (0) 1);
    ("corrASAvsK_30", JNum (0) 1);
    ("corrASAvsK_40", JNum (0) 1);
    ("corrASAvsK_50", JNum (0) 1);
    ("corrASAvsK_60", JNum (0) 1);
    ("corrASAvsK_70", JNum (0) 1);
    ("corrASAvsK_80", JNum (0) 1);
    ("corrASAvsK_90", JNum (0) 1);
    ("corrDSvsK_10", JNum (0) 1);
    ("corrDSvsK_20", JNum (0) 1);
    ("corrDSvsK_30", JNum (0) 1);
    ("corrDSvsK_40", JNum (0) 1);
    ("corrDSvsK_50", JNum (0) 1);
    ("corrDSvsK_60", JNum (0) 1);
    ("corrDSvsK_70", JNum (0) 1);
    ("corrDSvsK_80", JNum (0) 1);
    ("corrDSvsK_90", JNum (0) 1);
    ("corrSFvsK_10", JNum (0) 1);
    ("corrSFvsK_20", JNum (0) 1);
    ("corrSFvsK_30", JNum (0) 1);
    ("corrSFvsK_40", JNum (0) 1);
    ("corrSFvsK_50", JNum (0) 1);
    ("corrSFvsK_60", JNum (0) 1);
    ("corrSFvsK_70", JNum (0) 1);
    ("corrSFvsK_80", JNum (0) 1);
    ("corrSFvsK_90", JNum (0) 1);
    ("corrZSDvsSF_10", JNum (0) 1);
    ("corrZSDvsSF_20", JNum (0) 1);
    ("corrZSDvsSF_30", JNum (0) 1);
    ("corrZSDvsSF_40", JNum (0) 1);
    ("corrZSDvsSF_50", JNum (0) 1);
    ("corrZSDvsSF_60", JNum (0) 1);
    ("corrZSDvsSF_70", JNum (0) 1);
    ("corrZSDvsSF_80", JNum (0) 1);
    ("corrZSDvsSF_90", JNum (0) 1);
    ("corrZSAvsSF_10", JNum (-4) 1);
    ("corrZSAvsSF_20", JNum (-4) 1);
    ("corrZSAvsSF_30", JNum (-4) 1);
    ("corrZSAvsSF_40", JNum (-4) 1);
    ("corrZSAvsSF_50", JNum (-4) 1);
    ("corrZSAvsSF_60", JNum (-4) 1);
    ("corrZSAvsSF_70", JNum (-4) 1);
    ("corrZSAvsSF_80", JNum (-4) 1);
    ("corrZSAvsSF_90", JNum (-4) 1);
    ("corrZSDvsK_10", JNum (0) 1);
    ("corrZSDvsK_20", JNum (0) 1);
    ("corrZSDvsK_30", JNum (0) 1);
    ("corrZSDvsK_40", JNum (0) 1);
    ("corrZSDvsK_50", JNum (0) 1);
    ("corrZSDvsK_60", JNum (0) 1);
    ("corrZSDvsK_70", JNum (0) 1);
    ("corrZSDvsK_80", JNum (0) 1);
    ("corrZSDvsK_90", JNum (0) 1);
    ("corrZSAvsK_10", JNum (0) 1);
    ("corrZSAvsK_20", JNum (0) 1);
    ("corrZSAvsK_30", JNum (0) 1);
    ("corrZSAvsK_40", JNum (0) 1);
    ("corrZSAvsK_50", JNum (0) 1);
    ("corrZSAvsK_60", JNum (0) 1);
    ("corrZSAvsK_70", JNum (0) 1);
    ("corrZSAvsK_80", JNum (0) 1);
    ("corrZSAvsK_90", JNum (0) 1);
    ("corrZSDvsDS_10", JNum (-5) 1);
    ("corrZSDvsDS_20", JNum (-5) 1);
    ("corrZSDvsDS_30", JNum (-5) 1);
    ("corrZSDvsDS_40", JNum (-5) 1);
    ("corrZSDvsDS_50", JNum (-5) 1);
    ("corrZSDvsDS_60", JNum (-5) 1);
    ("corrZSDvsDS_70", JNum (-5) 1);
    ("corrZSDvsDS_80", JNum (-5) 1);
    ("corrZSDvsDS_90", JNum (-5) 1);
    ("corrZSAvsDS_10", JNum (0) 1);
    ("corrZSAvsDS_20", JNum (0) 1);
    ("corrZSAvsDS_30", JNum (0) 1);
    ("corrZSAvsDS_40", JNum (0) 1);
    ("corrZSAvsDS_50", JNum (0) 1);
    ("corrZSAvsDS_60", JNum (0) 1);
    ("corrZSAvsDS_70", JNum (0) 1);
    ("corrZSAvsDS_80", JNum (0) 1);
    ("corrZSAvsDS_90", JNum (0) 1);
    ("corrZSDvsASD_10", JNum (5) 1);
    ("corrZSDvsASD_20", JNum (5) 1);
    ("corrZSDvsASD_30", JNum (5) 1);
    ("corrZSDvsASD_40", JNum (5) 1);
    ("corrZSDvsASD_50", JNum (5) 1);
    ("corrZSDvsASD_60", JNum (5) 1);
    ("corrZSDvsASD_70", JNum (5) 1);
    ("corrZSDvsASD_80", JNum (5) 1);
    ("corrZSDvsASD_90", JNum (5) 1);
    ("corrZSAvsASD_10", JNum (-1) 1);
    ("corrZSAvsASD_20", JNum (-1) 1);
    ("corrZSAvsASD_30", JNum (-1) 1);
    ("corrZSAvsASD_40", JNum (-1) 1);
    ("corrZSAvsASD_50", JNum (-1) 1);
    ("corrZSAvsASD_60", JNum (-1) 1);
    ("corrZSAvsASD_70", JNum (-1) 1);
    ("corrZSAvsASD_80", JNum (-1) 1);
    ("corrZSAvsASD_90", JNum (-1) 1);
    ("corrZSDvsASA_10", JNum (0) 1);
    ("corrZSDvsASA_20", JNum (0) 1);
    ("corrZSDvsASA_30", JNum (0) 1);
    ("corrZSDvsASA_40", JNum (0) 1);
    ("corrZSDvsASA_50", JNum (0) 1);
    ("corrZSDvsASA_60", JNum (0) 1);
    ("corrZSDvsASA_70", JNum (0) 1);
    ("corrZSDvsASA_80", JNum (0) 1);
    ("corrZSDvsASA_90", JNum (0) 1);
    ("corrZSAvsASA_10", JNum (0) 1);
    ("corrZSAvsASA_20", JNum (0) 1);
    ("corrZSAvsASA_30", JNum (0) 1);
    ("corrZSAvsASA_40", JNum (0) 1);
    ("corrZSAvsASA_50", JNum (0) 1);
    ("corrZSAvsASA_60", JNum (0) 1);
    ("corrZSAvsASA_70", JNum (0) 1);
    ("corrZSAvsASA_80", JNum (0) 1);
    ("corrZSAvsASA_90", JNum (0) 1);
    ("corrZSDvsZSA_10", JNum (0) 1);
    ("corrZSDvsZSA_20", JNum (0) 1);
    ("corrZSDvsZSA_30", JNum (0) 1);
    ("corrZSDvsZSA_40", JNum (0) 1);
    ("corrZSDvsZSA_50", JNum (0) 1);
    ("corrZSDvsZSA_60", JNum (0) 1);
    ("corrZSDvsZSA_70", JNum (0) 1);
    ("corrZSDvsZSA_80", JNum (0) 1);
    ("corrZSDvsZSA_90", JNum (0) 1) ].

(* /repo/OpenNTN/models/Dense_Urban_NLOS_S_band_DL.json *)
Definition tab_Dense_Urban_NLOS_S_band_DL : json_obj :=
  [ ("muDS_10", JNum (-684) 2);
    ("muDS_20", JNum (-681) 2);
    ("muDS_30", JNum (-694) 2);
    ("muDS_40", JNum (-714) 2);
    ("muDS_50", JNum (-734) 2);
    ("muDS_60", JNum (-753) 2);
    ("muDS_70", JNum (-767) 2);
    ("muDS_80", JNum (-782) 2);
    ("muDS_90", JNum (-784) 2);
    ("sigmaDS_10", JNum (82) 2);
    ("sigmaDS_20", JNum (61) 2);
    ("sigmaDS_30", JNum (49) 2);
    ("sigmaDS_40", JNum (49) 2);
    ("sigmaDS_50", JNum (51) 2);
    ("sigmaDS_60", JNum (47) 2);
    ("sigmaDS_70", JNum (44) 2);
    ("sigmaDS_80", JNum (42) 2);
    ("sigmaDS_90", JNum (55) 2);
    ("muASD_10", JStr "-inf");
    ("muASD_20", JStr "-inf");
    ("muASD_30", JStr "-inf");
    ("muASD_40", JStr "-inf");
    ("muASD_50", JStr "-inf");
    ("muASD_60", JStr "-inf");
    ("muASD_70", JStr "-inf");
    ("muASD_80", JStr "-inf");
    ("muASD_90", JStr "-inf");
    ("sigmaASD_10", JNum (0) 1);
    ("sigmaASD_20", JNum (0) 1);
    ("sigmaASD_30", JNum (0) 1);
    ("sigmaASD_40", JNum (0) 1);
    ("sigmaASD_50", JNum (0) 1);
    ("sigmaASD_60", JNum (0) 1);
    ("sigmaASD_70", JNum (0) 1);
    ("sigmaASD_80", JNum (0) 1);
    ("sigmaASD_90", JNum (0) 1);
    ("muASA_10", JNum (100) 2);
    ("muASA_20", JNum (144) 2);
    ("muASA_30", JNum (154) 2);
    ("muASA_40", JNum (153) 2);
    ("muASA_50", JNum (148) 2);
    ("muASA_60", JNum (139) 2);
    ("muASA_70", JNum (142) 2);
    ("muASA_80", JNum (138) 2);
    ("muASA_90", JNum (123) 2);
    ("sigmaASA_10", JNum (160) 2);
    ("sigmaASA_20", JNum (87) 2);
    ("sigmaASA_30", JNum (64) 2);
    ("sigmaASA_40", JNum (56) 2);
    ("sigmaASA_50", JNum (54) 2);
    ("sigmaASA_60", JNum (68) 2);
    ("sigmaASA_70", JNum (55) 2);
    ("sigmaASA_80", JNum (60) 2);
    ("sigmaASA_90", JNum (60) 2);
    ("muZSA_10", JNum (100) 2);
    ("muZSA_20", JNum (94) 2);
    ("muZSA_30", JNum (115) 2);
    ("muZSA_40", JNum (135) 2);
    ("muZSA_50", JNum (144) 2);
    ("muZSA_60", JNum (156) 2);
    ("muZSA_70", JNum (164) 2);
    ("muZSA_80", JNum (170) 2);
    ("muZSA_90", JNum (170) 2);
    ("sigmaZSA_10", JNum (63) 2);
    ("sigmaZSA_20", JNum (65) 2);
    ("sigmaZSA_30", JNum (42) 2);
    ("sigmaZSA_40", JNum (28) 2);
    ("sigmaZSA_50", JNum (25) 2);
    ("sigmaZSA_60", JNum (16) 2);
    ("sigmaZSA_70", JNum (18) 2);
    ("sigmaZSA_80", JNum (9) 2);
    ("sigmaZSA_90", JNum (17) 2);
    ("muZSD_10", JStr "-inf");
    ("muZSD_20", JStr "-inf");
    ("muZSD_30", JStr "-inf");
    ("muZSD_40", JStr "-inf");
    ("muZSD_50", JStr "-inf");
    ("muZSD_60", JStr "-inf");
    ("muZSD_70", JStr "-inf");
    ("muZSD_80", JStr "-inf");
    ("muZSD_90", JStr "-inf");
    ("sigmaZSD_10", JNum (0) 1);
    ("sigmaZSD_20", JNum (0) 1);
    ("sigmaZSD_30", JNum (0) 1);
    ("sigmaZSD_40", JNum (0) 1);
    ("sigmaZSD_50", JNum (0) 1);
    ("sigmaZSD_60", JNum (0) 1);
    ("sigmaZSD_70", JNum (0) 1);
    ("sigmaZSD_80", JNum (0) 1);
    ("sigmaZSD_90", JNum (0) 1);
    ("sigmaSF_10", JNum (155) 1);
    ("sigmaSF_20", JNum (139) 1);
    ("sigmaSF_30", JNum (124) 1);
    ("sigmaSF_40", JNum (117) 1);
    ("sigmaSF_50", JNum (106) 1);
    ("sigmaSF_60", JNum (105) 1);
    ("sigmaSF_70", JNum (101) 1);
    ("sigmaSF_80", JNum (92) 1);
    ("sigmaSF_90", JNum (92) 1);
    ("CL_10", JNum (343) 1);
    ("CL_20", JNum (309) 1);
    ("CL_30", JNum (290) 1);
    ("CL_40", JNum (277) 1);
    ("CL_50", JNum (268) 1);
    ("CL_60", JNum (262) 1);
    ("CL_70", JNum (258) 1);
    ("CL_80", JNum (255) 1);
    ("CL_90", JNum (255) 1);
    ("muK_10", JNum (0) 1);
    ("muK_20", JNum (0) 1);
    ("muK_30", JNum (0) 1);
    ("muK_40", JNum (0) 1);
    ("muK_50", JNum (0) 1);
    ("muK_60", JNum (0) 1);
    ("muK_70", JNum (0) 1);
    ("muK_80", JNum (0) 1);
    ("muK_90", JNum (0) 1);
    ("sigmaK_10", JNum (0) 1);
    ("sigmaK_20", JNum (0) 1);
    ("sigmaK_30", JNum (0) 1);
    ("sigmaK_40", JNum (0) 1);
    ("sigmaK_50", JNum (0) 1);
    ("sigmaK_60", JNum (0) 1);
    ("sigmaK_70", JNum (0) 1);
    ("sigmaK_80", JNum (0) 1);
    ("sigmaK_90", JNum (0) 1);
    ("muXPR_10", JNum (238) 1);
    ("muXPR_20", JNum (219) 1);
    ("muXPR_30", JNum (197) 1);
    ("muXPR_40", JNum (181) 1);
    ("muXPR_50", JNum (163) 1);
    ("muXPR_60", JNum (140) 1);
    ("muXPR_70", JNum (121) 1);
    ("muXPR_80", JNum (87) 1);
    ("muXPR_90", JNum (64) 1);
    ("sigmaXPR_10", JNum (44) 1);
    ("sigmaXPR_20", JNum (63) 1);
    ("sigmaXPR_30", JNum (81) 1);
    ("sigmaXPR_40", JNum (93) 1);
    ("sigmaXPR_50", JNum (115) 1);
    ("sigmaXPR_60", JNum (133) 1);
    ("sigmaXPR_70", JNum (149) 1);
    ("sigmaXPR_80", JNum (170) 1);
    ("sigmaXPR_90", JNum (123) 1);
    ("rTau_10", JNum (23) 1);
    ("rTau_20", JNum (23) 1);
    ("rTau_30", JNum (23) 1);
    ("rTau_40", JNum (23) 1);
    ("rTau_50", JNum (23) 1);
    ("rTau_60", JNum (23) 1);
    ("rTau_70", JNum (23) 1);
    ("rTau_80", JNum (23) 1);
    ("rTau_90", JNum (23) 1);
    ("numClusters_10", JInt (4));
    ("numClusters_20", JInt (4));
    ("numClusters_30", JInt (4));
    ("numClusters_40", JInt (4));
    ("numClusters_50", JInt (4));
    ("numClusters_60", JInt (4));
    ("numClusters_70", JInt (4));
    ("numClusters_80", JInt (4));
    ("numClusters_90", JInt (4));
    ("zeta_10", JNum (30) 1);
    ("zeta_20", JNum (30) 1);
    ("zeta_30", JNum (30) 1);
    ("zeta_40", JNum (30) 1);
    ("zeta_50", JNum (30) 1);
    ("zeta_60", JNum (30) 1);
    ("zeta_70", JNum (30) 1);
    ("zeta_80", JNum (30) 1);
    ("zeta_90", JNum (30) 1);
    ("cDS_10", JNum (39) 1);
    ("cDS_20", JNum (39) 1);
    ("cDS_30", JNum (39) 1);
    ("cDS_40", JNum (39) 1);
    ("cDS_50", JNum (39) 1);
    ("cDS_60", JNum (39) 1);
    ("cDS_70", JNum (39) 1);
    ("cDS_80", JNum (39) 1);
    ("cDS_90", JNum (39) 1);
    ("cASD_10", JNum (0) 1);
    ("cASD_20", JNum (0) 1);
    ("cASD_30", JNum (0) 1);
    ("cASD_40", JNum (0) 1);
    ("cASD_50", JNum (0) 1);
    ("cASD_60", JNum (0) 1);
    ("cASD_70", JNum (0) 1);
    ("cASD_80", JNum (0) 1);
    ("cASD_90", JNum (0) 1);
    ("cASA_10", JNum (150) 1);
    ("cASA_20", JNum (150) 1);
    ("cASA_30", JNum (150) 1);
    ("cASA_40", JNum (150) 1);
    ("cASA_50", JNum (150) 1);
    ("cASA_60", JNum (150) 1);
    ("cASA_70", JNum (150) 1);
    ("cASA_80", JNum (150) 1);
    ("cASA_90", JNum (150) 1);
    ("cZSA_10", JNum (70) 1);
    ("cZSA_20", JNum (70) 1);
    ("cZSA_30", JNum (70) 1);
    ("cZSA_40", JNum (70) 1);
    ("cZSA_50", JNum (70) 1);
    ("cZSA_60", JNum (70) 1);
    ("cZSA_70", JNum (70) 1);
    ("cZSA_80", JNum (70) 1);
    ("cZSA_90", JNum (70) 1);
    ("LoS_p_10", JNum (282) 3);
    ("LoS_p_20", JNum (331) 3);
    ("LoS_p_30", JNum (398) 3);
    ("LoS_p_40", JNum (468) 3);
    ("LoS_p_50", JNum (537) 3);
    ("LoS_p_60", JNum (612) 3);
    ("LoS_p_70", JNum (738) 3);
    ("LoS_p_80", JNum (82) 2);
    ("LoS_p_90", JNum (981) 3);
    ("CPhiNLoS", JNum (779) 3);
    ("CThetaNLoS", JNum (697) 3);
    ("corrDistDS_10", JNum (400) 1);
    ("corrDistDS_20", JNum (400) 1);
    ("corrDistDS_30", JNum (400) 1);
    ("corrDistDS_40", JNum (400) 1);
    ("corrDistDS_50", JNum (400) 1);
    ("corrDistDS_60", JNum (400) 1);
    ("corrDistDS_70", JNum (400) 1);
    ("corrDistDS_80", JNum (400) 1);
    ("corrDistDS_90", JNum (400) 1);
    ("corrDistASD_10", JNum (500) 1);
    ("corrDistASD_20", JNum (500) 1);
    ("corrDistASD_30", JNum (500) 1);
    ("corrDistASD_40", JNum (500) 1);
    ("corrDistASD_50", JNum (500) 1);
    ("corrDistASD_60", JNum (500) 1);
    ("corrDistASD_70", JNum (500) 1);
    ("corrDistASD_80", JNum (500) 1);
    ("corrDistASD_90", JNum (500) 1);
    ("corrDistASA_10", JNum (500) 1);
    ("corrDistASA_20", JNum (500) 1);
    ("corrDistASA_30", JNum (500) 1);
    ("corrDistASA_40", JNum (500) 1);
    ("corrDistASA_50", JNum (500) 1);
    ("corrDistASA_60", JNum (500) 1);
    ("corrDistASA_70", JNum (500) 1);
    ("corrDistASA_80", JNum (500) 1);
    ("corrDistASA_90", JNum (500) 1);
    ("corrDistSF_10", JNum (500) 1);
    ("corrDistSF_20", JNum (500) 1);
    ("corrDistSF_30", JNum (500) 1);
    ("corrDistSF_40", JNum (500) 1);
    ("corrDistSF_50", JNum (500) 1);
    ("corrDistSF_60", JNum (500) 1);
    ("corrDistSF_70", JNum (500) 1);
    ("corrDistSF_80", JNum (500) 1);
    ("corrDistSF_90", JNum (500) 1);
    ("corrDistK_10", JNum (10) 1);
    ("corrDistK_20", JNum (10) 1);
    ("corrDistK_30", JNum (10) 1);
    ("corrDistK_40", JNum (10) 1);
    ("corrDistK_50", JNum (10) 1);
    ("corrDistK_60", JNum (10) 1);
    ("corrDistK_70", JNum (10) 1);
    ("corrDistK_80", JNum (10) 1);
    ("corrDistK_90", JNum (10) 1);
    ("corrDistZSA_10", JNum (500) 1);
    ("corrDistZSA_20", JNum (500) 1);
    ("corrDistZSA_30", JNum (500) 1);
    ("corrDistZSA_40", JNum (500) 1);
    ("corrDistZSA_50", JNum (500) 1);
    ("corrDistZSA_60", JNum (500) 1);
    ("corrDistZSA_70", JNum (500) 1);
    ("corrDistZSA_80", JNum (500) 1);
    ("corrDistZSA_90", JNum (500) 1);
    ("corrDistZSD_10", JNum (500) 1);
    ("corrDistZSD_20", JNum (500) 1);
    ("corrDistZSD_30", JNum (500) 1);
    ("corrDistZSD_40", JNum (500) 1);
    ("corrDistZSD_50", JNum (500) 1);
    ("corrDistZSD_60", JNum (500) 1);
    ("corrDistZSD_70", JNum (500) 1);
    ("corrDistZSD_80", JNum (500) 1);
    ("corrDistZSD_90", JNum (500) 1);
    ("corrASDvsDS_10", JNum (0) 1);
    ("corrASDvsDS_20", JNum (0) 1);
    ("corrASDvsDS_30", JNum (0) 1);
    ("corrASDvsDS_40", JNum (0) 1);
    ("corrASDvsDS_50", JNum (0) 1);
    ("corrASDvsDS_60", JNum (0) 1);
    ("corrASDvsDS_70", JNum (0) 1);
    ("corrASDvsDS_80", JNum (0) 1);
    ("corrASDvsDS_90", JNum (0) 1);
    ("corrASAvsDS_10", JNum (6) 1);
    ("corrASAvsDS_20", JNum (6) 1);
    ("corrASAvsDS_30", JNum (6) 1);
    ("corrASAvsDS_40", JNum (6) 1);
    ("corrASAvsDS_50", JNum (6) 1);
    ("corrASAvsDS_60", JNum (6) 1);
    ("corrASAvsDS_70", JNum (6) 1);
    ("corrASAvsDS_80", JNum (6) 1);
    ("corrASAvsDS_90", JNum (6) 1);
    ("corrASAvsSF_10", JNum (0) 1);
    ("corrASAvsSF_20", JNum (0) 1);
    ("corrASAvsSF_30", JNum (0) 1);
    ("corrASAvsSF_40", JNum (0) 1);
    ("corrASAvsSF_50", JNum (0) 1);
    ("corrASAvsSF_60", JNum (0) 1);
    ("corrASAvsSF_70", JNum (0) 1);
    ("corrASAvsSF_80", JNum (0) 1);
    ("corrASAvsSF_90", JNum (0) 1);
    ("corrASDvsSF_10", JNum (0) 1);
    ("corrASDvsSF_20", JNum (0) 1);
    ("corrASDvsSF_30", JNum (0) 1);
    ("corrASDvsSF_40", JNum (0) 1);
    ("corrASDvsSF_50", JNum (0) 1);
    ("corrASDvsSF_60", JNum (0) 1);
    ("corrASDvsSF_70", JNum (0) 1);
    ("corrASDvsSF_80", JNum (0) 1);
    ("corrASDvsSF_90", JNum (0) 1);
    ("corrDSvsSF_10", JNum (-4) 1);
    ("corrDSvsSF_20", JNum (-4) 1);
    ("corrDSvsSF_30", JNum (-4) 1);
    ("corrDSvsSF_40", JNum (-4) 1);
    ("corrDSvsSF_50", JNum (-4) 1);
    ("corrDSvsSF_60", JNum (-4) 1);
    ("corrDSvsSF_70", JNum (-4) 1);
    ("corrDSvsSF_80", JNum (-4) 1);
    ("corrDSvsSF_90", JNum (-4) 1);
    ("corrASDvsASA_10", JNum (0) 1);
    ("corrASDvsASA_20", JNum (0) 1);
    ("corrASDvsASA_30", JNum (0) 1);
    ("corrASDvsASA_40", JNum (0) 1);
    ("corrASDvsASA_50", JNum (0) 1);
    ("corrASDvsASA_60", JNum (0) 1);
    ("corrASDvsASA_70", JNum (0) 1);
    ("corrASDvsASA_80", JNum (0) 1);
    ("corrASDvsASA_90", JNum (0) 1);
    ("corrASDvsK_10", JNum (0) 1);
    ("corrASDvsK_20", JNum (0) 1);
    ("corrASDvsK_30", JNum (0) 1);
    ("corrASDvsK_40", JNum (0) 1);
    ("corrASDvsK_50", JNum (0) 1);
    ("corrASDvsK_60", JNum (0) 1);
    ("corrASDvsK_70", JNum (0) 1);
    ("corrASDvsK_80", JNum (0) 1);
    ("corrASDvsK_90", JNum (0) 1);
    ("corrASAvsK_10", JNum (0) 1);
    ("corrASAvsK_20", JNum (0) 1);
    ("corrASAvsK_30", JNum (0) 1);
    ("corrASAvsK_40", JNum (0) 1);
    ("corrASAvsK_50", JNum (0) 1);
    ("corrASAvsK_60", JNum (0) 1);
    ("corrASAvsK_70", JNum (0) 1);
    ("corrASAvsK_80", JNum (0) 1);
    ("corrASAvsK_90", JNum (0) 1);
    ("corrDSvsK_10", JNum (0) 1);
    ("corrDSvsK_20", JNum (0) 1);
    ("corrDSvsK_30", JNum (0) 1);
    ("corrDSvsK_40", JNum (0) 1);
    ("corrDSvsK_50", JNum (0) 1);
    ("corrDSvsK_60", JNum (0) 1);
    ("corrDSvsK_70", JNum (0) 1);
    ("corrDSvsK_80", JNum (0) 1);
    ("corrDSvsK_90", JNum (0) 1);
    ("corrSFvsK_10", JNum (0) 1);
    ("corrSFvsK_20", JNum (0) 1);
    ("corrSFvsK_30", JNum (0) 1);
    ("corrSFvsK_40", JNum (0) 1);
    ("corrSFvsK_50", JNum (0) 1);
    ("corrSFvsK_60", JNum (0) 1);
    ("corrSFvsK_70", JNum (0) 1);
    ("corrSFvsK_80", JNum (0) 1);
    ("corrSFvsK_90", JNum (0) 1);
    ("corrZSDvsSF_10", JNum (0) 1);
    ("corrZSDvsSF_20", JNum (0) 1);
    ("corrZSDvsSF_30", JNum (0) 1);
    ("corrZSDvsSF_40", JNum (0) 1);
    ("corrZSDvsSF_50", JNum (0) 1);
    ("corrZSDvsSF_60", JNum (0) 1);
    ("corrZSDvsSF_70", JNum (0) 1);
    ("corrZSDvsSF_80", JNum (0) 1);
    ("corrZSDvsSF_90", JNum (0) 1);
    ("corrZSAvsSF_10", JNum (-4) 1);
    ("corrZSAvsSF_20", JNum (-4) 1);
    ("corrZSAvsSF_30", JNum (-4) 1);
    ("corrZSAvsSF_40", JNum (-4) 1);
    ("corrZSAvsSF_50", JNum (-4) 1);
    ("corrZSAvsSF_60", JNum (-4) 1);
    ("corrZSAvsSF_70", JNum (-4) 1);
    ("corrZSAvsSF_80", JNum (-4) 1);
    ("corrZSAvsSF_90", JNum (-4) 1);
    ("corrZSDvsK_10", JNum (0) 1);
    ("corrZSDvsK_20", JNum (0) 1);
    ("corrZSDvsK_30", JNum (0) 1);
    ("corrZSDvsK_40", JNum (0) 1);
    ("corrZSDvsK_50", JNum (0) 1);
    ("corrZSDvsK_60", JNum (0) 1);
    ("corrZSDvsK_70", JNum (0) 1);
    ("corrZSDvsK_80", JNum (0) 1);
    ("corrZSDvsK_90", JNum (0) 1);
    ("corrZSAvsK_10", JNum (0) 1);
    ("corrZSAvsK_20", JNum (0) 1);
    ("corrZSAvsK_30", JNum (0) 1);
    ("corrZSAvsK_40", JNum (0) 1);
    ("corrZSAvsK_50", JNum (0) 1);
    ("corrZSAvsK_60", JNum (0) 1);
    ("corrZSAvsK_70", JNum (0) 1);
    ("corrZSAvsK_80", JNum (0) 1);
    ("corrZSAvsK_90", JNum (0) 1);
    ("corrZSDvsDS_10", JNum (0) 1);
    ("corrZSDvsDS_20", JNum (0) 1);
    ("corrZSDvsDS_30", JNum (0) 1);
    ("corrZSDvsDS_40", JNum (0) 1);
    ("corrZSDvsDS_50", JNum (0) 1);
    ("corrZSDvsDS_60", JNum (0) 1);
    ("corrZSDvsDS_70", JNum (0) 1);
    ("corrZSDvsDS_80", JNum (0) 1);
    ("corrZSDvsDS_90", JNum (0) 1);
    ("corrZSAvsDS_10", JNum (0) 1);
    ("corrZSAvsDS_20", JNum (0) 1);
    ("corrZSAvsDS_30", JNum (0) 1);
    ("corrZSAvsDS_40", JNum (0) 1);
    ("corrZSAvsDS_50", JNum (0) 1);
    ("corrZSAvsDS_60", JNum (0) 1);
    ("corrZSAvsDS_70", JNum (0) 1);
    ("corrZSAvsDS_80", JNum (0) 1);
    ("corrZSAvsDS_90", JNum (0) 1);
    ("corrZSDvsASD_10", JNum (0) 1);
    ("corrZSDvsASD_20", JNum (0) 1);
    ("corrZSDvsASD_30", JNum (0) 1);
    ("corrZSDvsASD_40", JNum (0) 1);
    ("corrZSDvsASD_50", JNum (0) 1);
    ("corrZSDvsASD_60", JNum (0) 1);
    ("corrZSDvsASD_70", JNum (0) 1);
    ("corrZSDvsASD_80", JNum (0) 1);
    ("corrZSDvsASD_90", JNum (0) 1);
    ("corrZSAvsASD_10", JNum (0) 1);
    ("corrZSAvsASD_20", JNum (0) 1);
    ("corrZSAvsASD_30", JNum (0) 1);
    ("corrZSAvsASD_40", JNum (0) 1);
    ("corrZSAvsASD_50", JNum (0) 1);
    ("corrZSAvsASD_60", JNum (0) 1);
    ("corrZSAvsASD_70", JNum (0) 1);
    ("corrZSAvsASD_80", JNum (0) 1);
    ("corrZSAvsASD_90", JNum (0) 1);
    ("corrZSDvsASA_10", JNum (0) 1);
    ("corrZSDvsASA_20", JNum (0) 1);
    ("corrZSDvsASA_30", JNum (0) 1);
    ("corrZSDvsASA_40", JNum (0) 1);
    ("corrZSDvsASA_50", JNum (0) 1);
    ("corrZSDvsASA_60", JNum (0) 1);
    ("corrZSDvsASA_70", JNum (0) 1);
    ("corrZSDvsASA_80", JNum (0) 1);
    ("corrZSDvsASA_90", JNum (0) 1);
    ("corrZSAvsASA_10", JNum (0) 1);
    ("corrZSAvsASA_20", JNum (0) 1);
    ("corrZSAvsASA_30", JNum (0) 1);
    ("corrZSAvsASA_40", JNum (0) 1);
    ("corrZSAvsASA_50", JNum (0) 1);
    ("corrZSAvsASA_60", JNum (0) 1);
    ("corrZSAvsASA_70", JNum (0) 1);
    ("corrZSAvsASA_80", JNum (0) 1);
    ("corrZSAvsASA_90", JNum (0) 1);
    ("corrZSDvsZSA_10", JNum (0) 1);
    ("corrZSDvsZSA_20", JNum (0) 1);
    ("corrZSDvsZSA_30", JNum (0) 1);
    ("corrZSDvsZSA_40", JNum (0) 1);
    ("corrZSDvsZSA_50", JNum (0) 1);
    ("corrZSDvsZSA_60", JNum (0) 1);
    ("corrZSDvsZSA_70", JNum (0) 1);
    ("corrZSDvsZSA_80", JNum (0) 1);
    ("corrZSDvsZSA_90", JNum (0) 1) ].

(* /repo/OpenNTN/models/Dense_Urban_NLOS_S_band_UL.json *)
Definition tab_Dense_Urban_NLOS_S_band_UL : json_obj :=
  [ ("muDS_10", JNum (-684) 2);
    ("muDS_20", JNum (-681) 2);
    ("muDS_30", JNum (-694) 2);
    ("muDS_40", JNum (-714) 2);
    ("muDS_50", JNum (-734) 2);
    ("muDS_60", JNum (-753) 2);
    ("muDS_70", JNum (-767) 2);
    ("muDS_80", JNum (-782) 2);
    ("muDS_90", JNum (-784) 2);
    ("sigmaDS_10", JNum (82) 2);
    ("sigmaDS_20", JNum (61) 2);
    ("sigmaDS_30", JNum (49) 2);
    ("sigmaDS_40", JNum (49) 2);
    ("sigmaDS_50", JNum (51) 2);
    ("sigmaDS_60", JNum (47) 2);
    ("sigmaDS_70", JNum (44) 2);
    ("sigmaDS_80", JNum (42) 2);
    ("sigmaDS_90", JNum (55) 2);
    ("muASD_10", JNum (-208) 2);
    ("muASD_20", JNum (-168) 2);
    ("muASD_30", JNum (-146) 2);
    ("muASD_40", JNum (-143) 2);
    ("muASD_50", JNum (-144) 2);
    ("muASD_60", JNum (-133) 2);
    ("muASD_70", JNum (-131) 2);
    ("muASD_80", JNum (-111) 2);
    ("muASD_90", JNum (-11) 2);
    ("sigmaASD_10", JNum (87) 2);
    ("sigmaASD_20", JNum (73) 2);
    ("sigmaASD_30", JNum (53) 2);
    ("sigmaASD_40", JNum (50) 2);
    ("sigmaASD_50", JNum (58) 2);
    ("sigmaASD_60", JNum (49) 2);
    ("sigmaASD_70", JNum (65) 2);
    ("sigmaASD_80", JNum (69) 2);
    ("sigmaASD_90", JNum (53) 2);
    ("muASA_10", JNum (100) 2);
    ("muASA_20", JNum (144) 2);
    ("muASA_30", JNum (154) 2);
    ("muASA_40", JNum (153) 2);
    ("muASA_50", JNum (148) 2);
    ("muASA_60", JNum (139) 2);
    ("muASA_70", JNum (142) 2);
    ("muASA_80", JNum (138) 2);
    ("muASA_90", JNum (123) 2);
    ("sigmaASA_10", JNum (160) 2);
    ("sigmaASA_20", JNum (87) 2);
    ("sigmaASA_30", JNum (64) 2);
    ("sigmaASA_40", JNum (56) 2);
    ("sigmaASA_50", JNum (54) 2);
    ("sigmaASA_60", JNum (68) 2);
    ("sigmaASA_70", JNum (55) 2);
    ("sigmaASA_80", JNum (60) 2);
    ("sigmaASA_90", JNum (60) 2);
    ("muZSA_10", JNum (100) 2);
    ("muZSA_20", JNum (94) 2);
    ("muZSA_30", JNum (115) 2);
    ("muZSA_40", JNum (135) 2);
    ("muZSA_50", JNum (144) 2);
    ("muZSA_60", JNum (156) 2);
    ("muZSA_70", JNum (164) 2);
    ("muZSA_80", JNum (170) 2);
    ("muZSA_90", JNum (170) 2);
    ("sigmaZSA_10", JNum (63) 2);
    ("sigmaZSA_20", JNum (65) 2);
    ("sigmaZSA_30", JNum (42) 2);
    ("sigmaZSA_40", JNum (28) 2);
    ("sigmaZSA_50", JNum (25) 2);
    ("sigmaZSA_60", JNum (16) 2);
    ("sigmaZSA_70", JNum (18) 2);
    ("sigmaZSA_80", JNum (9) 2);
    ("sigmaZSA_90", JNum (17) 2);
    ("muZSD_10", JNum (-208) 2);
    ("muZSD_20", JNum (-166) 2);
    ("muZSD_30", JNum (-148) 2);
    ("muZSD_40", JNum (-146) 2);
    ("muZSD_50", JNum (-153) 2);
    ("muZSD_60", JNum (-161) 2);
    ("muZSD_70", JNum (-177) 2);
    ("muZSD_80", JNum (-190) 2);
    ("muZSD_90", JNum (-199) 2);
    ("sigmaZSD_10", JNum (58) 2);
    ("sigmaZSD_20", JNum (50) 2);
    ("sigmaZSD_30", JNum (40) 2);
    ("sigmaZSD_40", JNum (37) 2);
    ("sigmaZSD_50", JNum (47) 2);
    ("sigmaZSD_60", JNum (43) 2);
    ("sigmaZSD_70", JNum (50) 2);
    ("sigmaZSD_80", JNum (42) 2);
    ("sigmaZSD_90", JNum (50) 2);
    ("sigmaSF_10", JNum (155) 1);
    ("sigmaSF_20", JNum (139) 1);
    ("sigmaSF_30", JNum (124) 1);
    ("sigmaSF_40", JNum (117) 1);
    ("sigmaSF_50", JNum (106) 1);
    ("sigmaSF_60", JNum (105) 1);
    ("sigmaSF_70", JNum (101) 1);
    ("sigmaSF_80", JNum (92) 1);
    ("sigmaSF_90", JNum (92) 1);
    ("CL_10", JNum (343) 1);
    ("CL_20", JNum (309) 1);
    ("CL_30", JNum (290) 1);
    ("CL_40", JNum (277) 1);
    ("CL_50", JNum (268) 1);
    ("CL_60", JNum (262) 1);
    ("CL_70", JNum (258) 1);
    ("CL_80", JNum (255) 1);
    ("CL_90", JNum (255) 1);
    ("muK_10", JNum (0) 1);
    ("muK_20", JNum (0) 1);
    ("muK_30", JNum (0) 1);
    ("muK_40", JNum (0) 1);
    ("muK_50", JNum (0) 1);
    ("muK_60", JNum (0) 1);
    ("muK_70", JNum (0) 1);
    ("muK_80", JNum (0) 1);
    ("muK_90", JNum (0) 1);
    ("sigmaK_10", JNum (0) 1);
    ("sigmaK_20", JNum (0) 1);
    ("sigmaK_30", JNum (0) 1);
    ("sigmaK_40", JNum (0) 1);
    ("sigmaK_50", JNum (0) 1);
    ("sigmaK_60", JNum (0) 1);
    ("sigmaK_70", JNum (0) 1);
    ("sigmaK_80", JNum (0) 1);
    ("sigmaK_90", JNum (0) 1);
    ("muXPR_10", JNum (238) 1);
    ("muXPR_20", JNum (219) 1);
    ("muXPR_30", JNum (197) 1);
    ("muXPR_40", JNum (181) 1);
    ("muXPR_50", JNum (163) 1);
    ("muXPR_60", JNum (140) 1);
    ("muXPR_70", JNum (121) 1);
    ("muXPR_80", JNum (87) 1);
    ("muXPR_90", JNum (64) 1);
    ("sigmaXPR_10", JNum (44) 1);
    ("sigmaXPR_20", JNum (63) 1);
    ("sigmaXPR_30", JNum (81) 1);
    ("sigmaXPR_40", JNum (93) 1);
    ("sigmaXPR_50", JNum (115) 1);
    ("sigmaXPR_60", JNum (133) 1);
    ("sigmaXPR_70", JNum (149) 1);
    ("sigmaXPR_80", JNum (170) 1);
    ("sigmaXPR_90", JNum (123) 1);
    ("rTau_10", JNum (23) 1);
    ("rTau_20", JNum (23) 1);
    ("rTau_30", JNum (23) 1);
    ("rTau_40", JNum (23) 1);
    ("rTau_50", JNum (23) 1);
    ("rTau_60", JNum (23) 1);
    ("rTau_70", JNum (23) 1);
    ("rTau_80", JNum (23) 1);
    ("rTau_90", JNum (23) 1);
    ("numClusters_10", JInt (4));
    ("numClusters_20", JInt (4));
    ("numClusters_30", JInt (4));
    ("numClusters_40", JInt (4));
    ("numClusters_50", JInt (4));
    ("numClusters_60", JInt (4));
    ("numClusters_70", JInt (4));
    ("numClusters_80", JInt (4));
    ("numClusters_90", JInt (4));
    ("zeta_10", JNum (30) 1);
    ("zeta_20", JNum (30) 1);
    ("zeta_30", JNum (30) 1);
    ("zeta_40", JNum (30) 1);
    ("zeta_50", JNum (30) 1);
    ("zeta_60", JNum (30) 1);
    ("zeta_70", JNum (30) 1);
    ("zeta_80", JNum (30) 1);
    ("zeta_90", JNum (30) 1);
    ("cDS_10", JNum (39) 1);
    ("cDS_20", JNum (39) 1);
    ("cDS_30", JNum (39) 1);
    ("cDS_40", JNum (39) 1);
    ("cDS_50", JNum (39) 1);
    ("cDS_60", JNum (39) 1);
    ("cDS_70", JNum (39) 1);
    ("cDS_80", JNum (39) 1);
    ("cDS_90", JNum (39) 1);
    ("cASD_10", JNum (0) 1);
    ("cASD_20", JNum (0) 1);
    ("cASD_30", JNum (0) 1);
    ("cASD_40", JNum (0) 1);
    ("cASD_50", JNum (0) 1);
    ("cASD_60", JNum (0) 1);
    ("cASD_70", JNum (0) 1);
    ("cASD_80", JNum (0) 1);
    ("cASD_90", JNum (0) 1);
    ("cASA_10", JNum (150) 1);
    ("cASA_20", JNum (150) 1);
    ("cASA_30", JNum (150) 1);
    ("cASA_40", JNum (150) 1);
    ("cASA_50", JNum (150) 1);
    ("cASA_60", JNum (150) 1);
    ("cASA_70", JNum (150) 1);
    ("cASA_80", JNum (150) 1);
    ("cASA_90", JNum (150) 1);
    ("cZSA_10", JNum (70) 1);
    ("cZSA_20", JNum (70) 1);
    ("cZSA_30", JNum (70) 1);
    ("cZSA_40", JNum (70) 1);
    ("cZSA_50", JNum (70) 1);
    ("cZSA_60", JNum (70) 1);
    ("cZSA_70", JNum (70) 1);
    ("cZSA_80", JNum (70) 1);
    ("cZSA_90", JNum (70) 1);
    ("LoS_p_10", JNum (282) 3);
    ("LoS_p_20", JNum (331) 3);
    ("LoS_p_30", JNum (398) 3);
    ("LoS_p_40", JNum (468) 3);
    ("LoS_p_50", JNum (537) 3);
    ("LoS_p_60", JNum (612) 3);
    ("LoS_p_70", JNum (738) 3);
    ("LoS_p_80", JNum (82) 2);
    ("LoS_p_90", JNum (981) 3);
    ("CPhiNLoS", JNum (779) 3);
    ("CThetaNLoS", JNum (697) 3);
    ("corrDistDS_10", JNum (400) 1);
    ("corrDistDS_20", JNum (400) 1);
    ("corrDistDS_30", JNum (400) 1);
    ("corrDistDS_40", JNum (400) 1);
    ("corrDistDS_50", JNum (400) 1);
    ("corrDistDS_60", JNum (400) 1);
    ("corrDistDS_70", JNum (400) 1);
    ("corrDistDS_80", JNum (400) 1);
    ("corrDistDS_90", JNum (400) 1);
    ("corrDistASD_10", JNum (500) 1);
    ("corrDistASD_20", JNum (500) 1);
    ("corrDistASD_30", JNum (500) 1);
    ("corrDistASD_40", JNum (500) 1);
    ("corrDistASD_50", JNum (500) 1);
    ("corrDistASD_60", JNum (500) 1);
    ("corrDistASD_70", JNum (500) 1);
    ("corrDistASD_80", JNum (500) 1);
    ("corrDistASD_90", JNum (500) 1);
    ("corrDistASA_10", JNum (500) 1);
    ("corrDistASA_20", JNum (500) 1);
    ("corrDistASA_30", JNum (500) 1);
    ("corrDistASA_40", JNum (500) 1);
    ("corrDistASA_50", JNum (500) 1);
    ("corrDistASA_60", JNum (500) 1);
    ("corrDistASA_70", JNum (500) 1);
    ("corrDistASA_80", JNum (500) 1);
    ("corrDistASA_90", JNum (500) 1);
    ("corrDistSF_10", JNum (500) 1);
    ("corrDistSF_20", JNum (500) 1);
    ("corrDistSF_30", JNum (500) 1);
    ("corrDistSF_40", JNum (500) 1);
    ("corrDistSF_50", JNum (500) 1);
    ("corrDistSF_60", JNum (500) 1);
    ("corrDistSF_70", JNum (500) 1);
    ("corrDistSF_80", JNum (500) 1);
    ("corrDistSF_90", JNum (500) 1);
    ("corrDistK_10", JNum (10) 1);
    ("corrDistK_20", JNum (10) 1);
    ("corrDistK_30", JNum (10) 1);
    ("corrDistK_40", JNum (10) 1);
    ("corrDistK_50", JNum (10) 1);
    ("corrDistK_60", JNum (10) 1);
    ("corrDistK_70", JNum (10) 1);
    ("corrDistK_80", JNum (10) 1);
    ("corrDistK_90", JNum (10) 1);
    ("corrDistZSA_10", JNum (500) 1);
    ("corrDistZSA_20", JNum (500) 1);
    ("corrDistZSA_30", JNum (500) 1);
    ("corrDistZSA_40", JNum (500) 1);
    ("corrDistZSA_50", JNum (500) 1);
    ("corrDistZSA_60", JNum (500) 1);
    ("corrDistZSA_70", JNum (500) 1);
    ("corrDistZSA_80", JNum (500) 1);
    ("corrDistZSA_90", JNum (500) 1);
    ("corrDistZSD_10", JNum (500) 1);
    ("corrDistZSD_20", JNum (500) 1);
    ("corrDistZSD_30", JNum (500) 1);
    ("corrDistZSD_40", JNum (500) 1);
    ("corrDistZSD_50", JNum (500) 1);
    ("corrDistZSD_60", JNum (500) 1);
    ("corrDistZSD_70", JNum (500) 1);
    ("corrDistZSD_80", JNum (500) 1);
    ("corrDistZSD_90", JNum (500) 1);
    ("corrASDvsDS_10", JNum (4) 1);
    ("corrASDvsDS_20", JNum (4) 1);
    ("corrASDvsDS_30", JNum (4) 1);
    ("corrASDvsDS_40", JNum (4) 1);
    ("corrASDvsDS_50", JNum (4) 1);
    ("corrASDvsDS_60", JNum (4) 1);
    ("corrASDvsDS_70", JNum (4) 1);
    ("corrASDvsDS_80", JNum (4) 1);
    ("corrASDvsDS_90", JNum (4) 1);
    ("corrASAvsDS_10", JNum (6) 1);
    ("corrASAvsDS_20", JNum (6) 1);
    ("corrASAvsDS_30", JNum (6) 1);
    ("corrASAvsDS_40", JNum (6) 1);
    ("corrASAvsDS_50", JNum (6) 1);
    ("corrASAvsDS_60", JNum (6) 1);
    ("corrASAvsDS_70", JNum (6) 1);
    ("corrASAvsDS_80", JNum (6) 1);
    ("corrASAvsDS_90", JNum (6) 1);
    ("corrASAvsSF_10", JNum (0) 1);
    ("corrASAvsSF_20", JNum (0) 1);
    ("corrASAvsSF_30", JNum (0) 1);
    ("corrASAvsSF_40", JNum (0) 1);
    ("corrASAvsSF_50", JNum (0) 1);
    ("corrASAvsSF_60", JNum (0) 1);
    ("corrASAvsSF_70", JNum (0) 1);
    ("corrASAvsSF_80", JNum (0) 1);
    ("corrASAvsSF_90", JNum (0) 1);
    ("corrASDvsSF_10", JNum (-6) 1);
    ("corrASDvsSF_20", JNum (-6) 1);
    ("corrASDvsSF_30", JNum (-6) 1);
    ("corrASDvsSF_40", JNum (-6) 1);
    ("corrASDvsSF_50", JNum (-6) 1);
    ("corrASDvsSF_60", JNum (-6) 1);
    ("corrASDvsSF_70", JNum (-6) 1);
    ("corrASDvsSF_80", JNum (-6) 1);
    ("corrASDvsSF_90", JNum (-6) 1);
    ("corrDSvsSF_10", JNum (-4) 1);
    ("corrDSvsSF_20", JNum (-4) 1);
    ("corrDSvsSF_30", JNum (-4) 1);
    ("corrDSvsSF_40", JNum (-4) 1);
    ("corrDSvsSF_50", JNum (-4) 1);
    ("corrDSvsSF_60", JNum (-4) 1);
    ("corrDSvsSF_70", JNum (-4) 1);
    ("corrDSvsSF_80", JNum (-4) 1);
    ("corrDSvsSF_90", JNum (-4) 1);
    ("corrASDvsASA_10", JNum (4) 1);
    ("corrASDvsASA_20", JNum (4) 1);
    ("corrASDvsASA_30", JNum (4) 1);
    ("corrASDvsASA_40", JNum (4) 1);
    ("corrASDvsASA_50", JNum (4) 1);
    ("corrASDvsASA_60", JNum (4) 1);
    ("corrASDvsASA_70", JNum (4) 1);
    ("corrASDvsASA_80", JNum (4) 1);
    ("corrASDvsASA_90", JNum (4) 1);
    ("corrASDvsK_10", JNum (0) 1);
    ("corrASDvsK_20", JNum (0) 1);
    ("corrASDvsK_30", JNum (0) 1);
    ("corrASDvsK_40", JNum (0) 1);
    ("corrASDvsK_50", JNum (0) 1);
    ("corrASDvsK_60", JNum (0) 1);
    ("corrASDvsK_70", JNum (0) 1);
    ("corrASDvsK_80", JNum (0) 1);
    ("corrASDvsK_90", JNum (0) 1);
    ("corrASAvsK_10", JNum (0) 1);
    ("corrASAvsK_20", JNum (0) 1);
    ("corrASAvsK_30", JNum (0) 1);
    ("corrASAvsK_40", JNum (0) 1);
    ("corrASAvsK_50", JNum (0) 1);
    ("corrASAvsK_60", JNum (0) 1);
    ("corrASAvsK_70", JNum (0) 1);
    ("corrASAvsK_80", JNum (0) 1);
    ("corrASAvsK_90", JNum (0) 1);
    ("corrDSvsK_10", JNum (0) 1);
    ("corrDSvsK_20", JNum (0) 1);
    ("corrDSvsK_30", JNum (0) 1);
    ("corrDSvsK_40", JNum (0) 1);
    ("corrDSvsK_50", JNum (0) 1);
    ("corrDSvsK_60", JNum (0) 1);
    ("corrDSvsK_70", JNum (0) 1);
    ("corrDSvsK_80", JNum (0) 1);
    ("corrDSvsK_90", JNum (0) 1);
    ("corrSFvsK_10", JNum (0) 1);
    ("corrSFvsK_20", JNum (0) 1);
    ("corrSFvsK_30", JNum (0) 1);
    ("corrSFvsK_40", JNum (0) 1);
    ("corrSFvsK_50", JNum (0) 1);
    ("corrSFvsK_60", JNum (0) 1);
    ("corrSFvsK_70", JNum (0) 1);
    ("corrSFvsK_80", JNum (0) 1);
    ("corrSFvsK_90", JNum (0) 1);
    ("corrZSDvsSF_10", JNum (0) 1);
    ("corrZSDvsSF_20", JNum (0) 1);
    ("corrZSDvsSF_30", JNum (0) 1);
    ("corrZSDvsSF_40", JNum (0) 1);
    ("corrZSDvsSF_50", JNum (0) 1);
    ("corrZSDvsSF_60", JNum (0) 1);
    ("corrZSDvsSF_70", JNum (0) 1);
    ("corrZSDvsSF_80", JNum (0) 1);
    ("corrZSDvsSF_90", JNum (0) 1);
    ("corrZSAvsSF_10", JNum (-4) 1);
    ("corrZSAvsSF_20", JNum (-4) 1);
    ("corrZSAvsSF_30", JNum (-4) 1);
    ("corrZSAvsSF_40", JNum (-4) 1);
    ("corrZSAvsSF_50", JNum (-4) 1);
    ("corrZSAvsSF_60", JNum (-4) 1);
    ("corrZSAvsSF_70", JNum (-4) 1);
    ("corrZSAvsSF_80", JNum (-4) 1);
    ("corrZSAvsSF_90", JNum (-4) 1);
    ("corrZSDvsK_10", JNum (0) 1);
    ("corrZSDvsK_20", JNum (0) 1);
    ("corrZSDvsK_30", JNum (0) 1);
    ("corrZSDvsK_40", JNum (0) 1);
    ("corrZSDvsK_50", JNum (0) 1);
    ("corrZSDvsK_60", JNum (0) 1);
    ("corrZSDvsK_70", JNum (0) 1);
    ("corrZSDvsK_80", JNum (0) 1);
    ("corrZSDvsK_90", JNum (0) 1);
    ("corrZSAvsK_10", JNum (0) 1);
    ("corrZSAvsK_20", JNum (0) 1);
    ("corrZSAvsK_30", JNum (0) 1);
    ("corrZSAvsK_40", JNum (0) 1);
    ("corrZSAvsK_50", JNum (0) 1);
    ("corrZSAvsK_60", JNum (0) 1);
    ("corrZSAvsK_70", JNum (0) 1);
    ("corrZSAvsK_80", JNum (0) 1);
    ("corrZSAvsK_90", JNum (0) 1);
    ("corrZSDvsDS_10", JNum (-5) 1);
    ("corrZSDvsDS_20", JNum (-5) 1);
    ("corrZSDvsDS_30", JNum (-5) 1);
    ("corrZSDvsDS_40", JNum (-5) 1);
    ("corrZSDvsDS_50", JNum (-5) 1);
    ("corrZSDvsDS_60", JNum (-5) 1);
    ("corrZSDvsDS_70", JNum (-5) 1);
    ("corrZSDvsDS_80", JNum (-5) 1);
    ("corrZSDvsDS_90", JNum (-5) 1);
    ("corrZSAvsDS_10", JNum (0) 1);
    ("corrZSAvsDS_20", JNum (0) 1);
    ("corrZSAvsDS_30", JNum (0) 1);
    ("corrZSAvsDS_40", JNum (0) 1);
    ("corrZSAvsDS_50", JNum (0) 1);
    ("corrZSAvsDS_60", JNum (0) 1);
    ("corrZSAvsDS_70", JNum (0) 1);
    ("corrZSAvsDS_80", JNum (0) 1);
    ("corrZSAvsDS_90", JNum (0) 1);
    ("corrZSDvsASD_10", JNum (5) 1);
    ("corrZSDvsASD_20", JNum (5) 1);
    ("corrZSDvsASD_30", JNum (5) 1);
    ("corrZSDvsASD_40", JNum (5) 1);
    ("corrZSDvsASD_50", JNum (5) 1);
    ("corrZSDvsASD_60", JNum (5) 1);
    ("corrZSDvsASD_70", JNum (5) 1);
    ("corrZSDvsASD_80", JNum (5) 1);
    ("corrZSDvsASD_90", JNum (5) 1);
    ("corrZSAvsASD_10", JNum (-1) 1);
    ("corrZSAvsASD_20", JNum (-1) 1);
    ("corrZSAvsASD_30", JNum (-1) 1);
    ("corrZSAvsASD_40", JNum (-1) 1);
    ("corrZSAvsASD_50", JNum (-1) 1);
    ("corrZSAvsASD_60", JNum (-1) 1);
    ("corrZSAvsASD_70", JNum (-1) 1);
    ("corrZSAvsASD_80", JNum (-1) 1);
    ("corrZSAvsASD_90", JNum (-1) 1);
    ("corrZSDvsASA_10", JNum (0) 1);
    ("corrZSDvsASA_20", JNum (0) 1);
    ("corrZSDvsASA_30", JNum (0) 1);
    ("corrZSDvsASA_40", JNum (0) 1);
    ("corrZSDvsASA_50", JNum (0) 1);
    ("corrZSDvsASA_60", JNum (0) 1);
    ("corrZSDvsASA_70", JNum (0) 1);
    ("corrZSDvsASA_80", JNum (0) 1);
    ("corrZSDvsASA_90", JNum (0) 1);
    ("corrZSAvsASA_10", JNum (0) 1);
    ("corrZSAvsASA_20", JNum (0) 1);
    ("corrZSAvsASA_30", JNum (0) 1);
    ("corrZSAvsASA_40", JNum (0) 1);
    ("corrZSAvsASA_50", JNum (0) 1);
    ("corrZSAvsASA_60", JNum (0) 1);
    ("corrZSAvsASA_70", JNum (0) 1);
    ("corrZSAvsASA_80", JNum (0) 1);
    ("corrZSAvsASA_90", JNum (0) 1);
    ("corrZSDvsZSA_10", JNum (0) 1);
    ("corrZSDvsZSA_20", JNum (0) 1);
    ("corrZSDvsZSA_30", JNum (0) 1);
    ("corrZSDvsZSA_40", JNum (0) 1);
    ("corrZSDvsZSA_50", JNum (0) 1);
    ("corrZSDvsZSA_60", JNum (0) 1);
    ("corrZSDvsZSA_70", JNum (0) 1);
    ("corrZSDvsZSA_80", JNum (0) 1);
    ("corrZSDvsZSA_90", JNum (0) 1) ].

