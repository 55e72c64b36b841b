(* GENERATED by tools/gen_tables.py from /repo/OpenNTN/models -- do not edit.
   One definition per JSON file; entries in file order, literals kept exactly. *)
From Coq Require Import ZArith List String.
From Verif Require Import M_Json.
Import ListNotations.
Open Scope string_scope.
Open Scope Z_scope.

(* /repo/OpenNTN/models/Urban_LOS_Ka_band_DL.json *)
Definition tab_Urban_LOS_Ka_band_DL : json_obj :=
  [ ("muDS_10", JNum (-852) 2);
    ("muDS_20", JNum (-859) 2);
    ("muDS_30", JNum (-851) 2);
    ("muDS_40", JNum (-849) 2);
    ("muDS_50", JNum (-848) 2);
    ("muDS_60", JNum (-844) 2);
    ("muDS_70", JNum (-840) 2);
    ("muDS_80", JNum (-837) 2);
    ("muDS_90", JNum (-835) 2);
    ("sigmaDS_10", JNum (92) 2);
    ("sigmaDS_20", JNum (79) 2);
    ("sigmaDS_30", JNum (65) 2);
    ("sigmaDS_40", JNum (48) 2);
    ("sigmaDS_50", JNum (46) 2);
    ("sigmaDS_60", JNum (34) 2);
    ("sigmaDS_70", JNum (27) 2);
    ("sigmaDS_80", JNum (19) 2);
    ("sigmaDS_90", JNum (14) 2);
    ("muASD_10", JStr "-inf");
    ("muASD_20", JStr "-inf");
    ("muASD_30", JStr "-inf");
    ("muASD_40", JStr "-inf");
    ("muASD_50", JStr "-inf");
    ("muASD_60", JStr "-inf");
    ("muASD_70", JStr "-inf");
    ("muASD_80", JStr "-inf");
    ("muASD_90", JStr "-inf");
    ("sigmaASD_10", JNum (0) 1);
    ("sigmaASD_20", JNum (0) 1);
    ("sigmaASD_30", JNum (0) 1);
    ("sigmaASD_40", JNum (0) 1);
    ("sigmaASD_50", JNum (0) 1);
    ("sigmaASD_60", JNum (0) 1);
    ("sigmaASD_70", JNum (0) 1);
    ("sigmaASD_80", JNum (0) 1);
    ("sigmaASD_90", JNum (0) 1);
    ("muASA_10", JNum (-40) 2);
    ("muASA_20", JNum (-15) 2);
    ("muASA_30", JNum (-18) 2);
    ("muASA_40", JNum (-31) 2);
    ("muASA_50", JNum (-58) 2);
    ("muASA_60", JNum (-90) 2);
    ("muASA_70", JNum (-116) 2);
    ("muASA_80", JNum (-148) 2);
    ("muASA_90", JNum (-114) 2);
    ("sigmaASA_10", JNum (77) 2);
    ("sigmaASA_20", JNum (97) 2);
    ("sigmaASA_30", JNum (158) 2);
    ("sigmaASA_40", JNum (169) 2);
    ("sigmaASA_50", JNum (213) 2);
    ("sigmaASA_60", JNum (251) 2);
    ("sigmaASA_70", JNum (247) 2);
    ("sigmaASA_80", JNum (261) 2);
    ("sigmaASA_90", JNum (170) 2);
    ("muZSA_10", JNum (-67) 2);
    ("muZSA_20", JNum (-34) 2);
    ("muZSA_30", JNum (7) 2);
    ("muZSA_40", JNum (-8) 2);
    ("muZSA_50", JNum (-21) 2);
    ("muZSA_60", JNum (-25) 2);
    ("muZSA_70", JNum (-61) 2);
    ("muZSA_80", JNum (-79) 2);
    ("muZSA_90", JNum (-58) 2);
    ("sigmaZSA_10", JNum (222) 2);
    ("sigmaZSA_20", JNum (304) 2);
    ("sigmaZSA_30", JNum (133) 2);
    ("sigmaZSA_40", JNum (145) 2);
    ("sigmaZSA_50", JNum (162) 2);
    ("sigmaZSA_60", JNum (106) 2);
    ("sigmaZSA_70", JNum (188) 2);
    ("sigmaZSA_80", JNum (187) 2);
    ("sigmaZSA_90", JNum (119) 2);
    ("muZSD_10", JStr "-inf");
    ("muZSD_20", JStr "-inf");
    ("muZSD_30", JStr "-inf");
    ("muZSD_40", JStr "-inf");
    ("muZSD_50", JStr "-inf");
    ("muZSD_60", JStr "-inf");
    ("muZSD_70", JStr "-inf");
    ("muZSD_80", JStr "-inf");
    ("muZSD_90", JStr "-inf");
    ("sigmaZSD_10", JNum (0) 1);
    ("sigmaZSD_20", JNum (0) 1);
    ("sigmaZSD_30", JNum (0) 1);
    ("sigmaZSD_40", JNum (0) 1);
    ("sigmaZSD_50", JNum (0) 1);
    ("sigmaZSD_60", JNum (0) 1);
    ("sigmaZSD_70", JNum (0) 1);
    ("sigmaZSD_80", JNum (0) 1);
    ("sigmaZSD_90", JNum (0) 1);
    ("sigmaSF_10", JNum (40) 1);
    ("sigmaSF_20", JNum (40) 1);
    ("sigmaSF_30", JNum (40) 1);
    ("sigmaSF_40", JNum (40) 1);
    ("sigmaSF_50", JNum (40) 1);
    ("sigmaSF_60", JNum (40) 1);
    ("sigmaSF_70", JNum (40) 1);
    ("sigmaSF_80", JNum (40) 1);
    ("sigmaSF_90", JNum (40) 1);
    ("muK_10", JNum (4018) 2);
    ("muK_20", JNum (2362) 2);
    ("muK_30", JNum (1248) 2);
    ("muK_40", JNum (856) 2);
    ("muK_50", JNum (742) 2);
    ("muK_60", JNum (597) 2);
    ("muK_70", JNum (488) 2);
    ("muK_80", JNum (422) 2);
    ("muK_90", JNum (381) 2);
    ("sigmaK_10", JNum (1699) 2);
    ("sigmaK_20", JNum (1896) 2);
    ("sigmaK_30", JNum (1423) 2);
    ("sigmaK_40", JNum (1106) 2);
    ("sigmaK_50", JNum (1121) 2);
    ("sigmaK_60", JNum (947) 2);
    ("sigmaK_70", JNum (724) 2);
    ("sigmaK_80", JNum (579) 2);
    ("sigmaK_90", JNum (425) 2);
    ("muXPR_10", JNum (80) 1);
    ("muXPR_20", JNum (80) 1);
    ("muXPR_30", JNum (80) 1);
    ("muXPR_40", JNum (80) 1);
    ("muXPR_50", JNum (80) 1);
    ("muXPR_60", JNum (80) 1);
    ("muXPR_70", JNum (80) 1);
    ("muXPR_80", JNum (80) 1);
    ("muXPR_90", JNum (80) 1);
    ("sigmaXPR_10", JNum (40) 1);
    ("sigmaXPR_20", JNum (40) 1);
    ("sigmaXPR_30", JNum (40) 1);
    ("sigmaXPR_40", JNum (40) 1);
    ("sigmaXPR_50", JNum (40) 1);
    ("sigmaXPR_60", JNum (40) 1);
    ("sigmaXPR_70", JNum (40) 1);
    ("sigmaXPR_80", JNum (40) 1);
    ("sigmaXPR_90", JNum (40) 1);
    ("rTau_10", JNum (25) 1);
    ("rTau_20", JNum (25) 1);
    ("rTau_30", JNum (25) 1);
    ("rTau_40", JNum (25) 1);
    ("rTau_50", JNum (25) 1);
    ("rTau_60", JNum (25) 1);
    ("rTau_70", JNum (25) 1);
    ("rTau_80", JNum (25) 1);
    ("rTau_90", JNum (25) 1);
    ("numClusters_10", JInt (4));
    ("numClusters_20", JInt (3));
    ("numClusters_30", JInt (3));
    ("numClusters_40", JInt (3));
    ("numClusters_50", JInt (3));
    ("numClusters_60", JInt (3));
    ("numClusters_70", JInt (3));
    ("numClusters_80", JInt (3));
    ("numClusters_90", JInt (3));
    ("zeta_10", JNum (30) 1);
    ("zeta_20", JNum (30) 1);
    ("zeta_30", JNum (30) 1);
    ("zeta_40", JNum (30) 1);
    ("zeta_50", JNum (30) 1);
    ("zeta_60", JNum (30) 1);
    ("zeta_70", JNum (30) 1);
    ("zeta_80", JNum (30) 1);
    ("zeta_90", JNum (30) 1);
    ("cDS_10", JNum (16) 1);
    ("cDS_20", JNum (16) 1);
    ("cDS_30", JNum (16) 1);
    ("cDS_40", JNum (16) 1);
    ("cDS_50", JNum (16) 1);
    ("cDS_60", JNum (16) 1);
    ("cDS_70", JNum (16) 1);
    ("cDS_80", JNum (16) 1);
    ("cDS_90", JNum (16) 1);
    ("cASD_10", JNum (9) 2);
    ("cASD_20", JNum (9) 2);
    ("cASD_30", JNum (11) 2);
    ("cASD_40", JNum (15) 2);
    ("cASD_50", JNum (18) 2);
    ("cASD_60", JNum (27) 2);
    ("cASD_70", JNum (42) 2);
    ("cASD_80", JNum (86) 2);
    ("cASD_90", JNum (255) 2);
    ("cASA_10", JNum (1178) 2);
    ("cASA_20", JNum (1160) 2);
    ("cASA_30", JNum (1305) 2);
    ("cASA_40", JNum (1456) 2);
    ("cASA_50", JNum (1535) 2);
    ("cASA_60", JNum (1697) 2);
    ("cASA_70", JNum (1796) 2);
    ("cASA_80", JNum (2068) 2);
    ("cASA_90", JNum (2508) 2);
    ("cZSA_10", JNum (114) 2);
    ("cZSA_20", JNum (278) 2);
    ("cZSA_30", JNum (387) 2);
    ("cZSA_40", JNum (494) 2);
    ("cZSA_50", JNum (541) 2);
    ("cZSA_60", JNum (631) 2);
    ("cZSA_70", JNum (666) 2);
    ("cZSA_80", JNum (731) 2);
    ("cZSA_90", JNum (923) 2);
    ("LoS_p_10", JNum (246) 3);
    ("LoS_p_20", JNum (386) 3);
    ("LoS_p_30", JNum (493) 3);
    ("LoS_p_40", JNum (613) 3);
    ("LoS_p_50", JNum (726) 3);
    ("LoS_p_60", JNum (805) 3);
    ("LoS_p_70", JNum (919) 3);
    ("LoS_p_80", JNum (968) 3);
    ("LoS_p_90", JNum (992) 3);
    ("CPhiNLoS", JNum (680) 3);
    ("CThetaNLoS", JNum (594) 3);
    ("corrDistDS_10", JNum (300) 1);
    ("corrDistDS_20", JNum (300) 1);
    ("corrDistDS_30", JNum (300) 1);
    ("corrDistDS_40", JNum (300) 1);
    ("corrDistDS_50", JNum (300) 1);
    ("corrDistDS_60", JNum (300) 1);
    ("corrDistDS_70", JNum (300) 1);
    ("corrDistDS_80", JNum (300) 1);
    ("corrDistDS_90", JNum (300) 1);
    ("corrDistASD_10", JNum (180) 1);
    ("corrDistASD_20", JNum (180) 1);
    ("corrDistASD_30", JNum (180) 1);
    ("corrDistASD_40", JNum (180) 1);
    ("corrDistASD_50", JNum (180) 1);
    ("corrDistASD_60", JNum (180) 1);
    ("corrDistASD_70", JNum (180) 1);
    ("corrDistASD_80", JNum (180) 1);
    ("corrDistASD_90", JNum (180) 1);
    ("corrDistASA_10", JNum (150) 1);
    ("corrDistASA_20", JNum (150) 1);
    ("corrDistASA_30", JNum (150) 1);
    ("corrDistASA_40", JNum (150) 1);
    ("corrDistASA_50", JNum (150) 1);
    ("corrDistASA_60", JNum (150) 1);
    ("corrDistASA_70", JNum (150) 1);
    ("corrDistASA_80", JNum (150) 1);
    ("corrDistASA_90", JNum (150) 1);
    ("corrDistSF_10", JNum (370) 1);
    ("corrDistSF_20", JNum (370) 1);
    ("corrDistSF_30", JNum (370) 1);
    ("corrDistSF_40", JNum (370) 1);
    ("corrDistSF_50", JNum (370) 1);
    ("corrDistSF_60", JNum (370) 1);
    ("corrDistSF_70", JNum (370) 1);
    ("corrDistSF_80", JNum (370) 1);
    ("corrDistSF_90", JNum (370) 1);
    ("corrDistK_10", JNum (120) 1);
    ("corrDistK_20", JNum (120) 1);
    ("corrDistK_30", JNum (120) 1);
    ("corrDistK_40", JNum (120) 1);
    ("corrDistK_50", JNum (120) 1);
    ("corrDistK_60", JNum (120) 1);
    ("corrDistK_70", JNum (120) 1);
    ("corrDistK_80", JNum (120) 1);
    ("corrDistK_90", JNum (120) 1);
    ("corrDistZSA_10", JNum (150) 1);
    ("corrDistZSA_20", JNum (150) 1);
    ("corrDistZSA_30", JNum (150) 1);
    ("corrDistZSA_40", JNum (150) 1);
    ("corrDistZSA_50", JNum (150) 1);
    ("corrDistZSA_60", JNum (150) 1);
    ("corrDistZSA_70", JNum (150) 1);
    ("corrDistZSA_80", JNum (150) 1);
    ("corrDistZSA_90", JNum (150) 1);
    ("corrDistZSD_10", JNum (150) 1);
    ("corrDistZSD_20", JNum (150) 1);
    ("corrDistZSD_30", JNum (150) 1);
    ("corrDistZSD_40", JNum (150) 1);
    ("corrDistZSD_50", JNum (150) 1);
    ("corrDistZSD_60", JNum (150) 1);
    ("corrDistZSD_70", JNum (150) 1);
    ("corrDistZSD_80", JNum (150) 1);
    ("corrDistZSD_90", JNum (150) 1);
    ("corrASDvsDS_10", JNum (0) 1);
    ("corrASDvsDS_20", JNum (0) 1);
    ("corrASDvsDS_30", JNum (0) 1);
    ("corrASDvsDS_40", JNum (0) 1);
    ("corrASDvsDS_50", JNum (0) 1);
    ("corrASDvsDS_60", JNum (0) 1);
    ("corrASDvsDS_70", JNum (0) 1);
    ("corrASDvsDS_80", JNum (0) 1);
    ("corrASDvsDS_90", JNum (0) 1);
    ("corrASAvsDS_10", JNum (8) 1);
    ("corrASAvsDS_20", JNum (8) 1);
    ("corrASAvsDS_30", JNum (8) 1);
    ("corrASAvsDS_40", JNum (8) 1);
    ("corrASAvsDS_50", JNum (8) 1);
    ("corrASAvsDS_60", JNum (8) 1);
    ("corrASAvsDS_70", JNum (8) 1);
    ("corrASAvsDS_80", JNum (8) 1);
    ("corrASAvsDS_90", JNum (8) 1);
    ("corrASAvsSF_10", JNum (-5) 1);
    ("corrASAvsSF_20", JNum (-5) 1);
    ("corrASAvsSF_30", JNum (-5) 1);
    ("corrASAvsSF_40", JNum (-5) 1);
    ("corrASAvsSF_50", JNum (-5) 1);
    ("corrASAvsSF_60", JNum (-5) 1);
    ("corrASAvsSF_70", JNum (-5) 1);
    ("corrASAvsSF_80", JNum (-5) 1);
    ("corrASAvsSF_90", JNum (-5) 1);
    ("corrASDvsSF_10", JNum (0) 1);
    ("corrASDvsSF_20", JNum (0) 1);
    ("corrASDvsSF_30", JNum (0) 1);
    ("corrASDvsSF_40", JNum (0) 1);
    ("corrASDvsSF_50", JNum (0) 1);
    ("corrASDvsSF_60", JNum (0) 1);
    ("corrASDvsSF_70", JNum (0) 1);
    ("corrASDvsSF_80", JNum (0) 1);
    ("corrASDvsSF_90", JNum (0) 1);
    ("corrDSvsSF_10", JNum (-4) 1);
    ("corrDSvsSF_20", JNum (-4) 1);
    ("corrDSvsSF_30", JNum (-4) 1);
    ("corrDSvsSF_40", JNum (-4) 1);
    ("corrDSvsSF_50", JNum (-4) 1);
    ("corrDSvsSF_60", JNum (-4) 1);
    ("corrDSvsSF_70", JNum (-4) 1);
    ("corrDSvsSF_80", JNum (-4) 1);
    ("corrDSvsSF_90", JNum (-4) 1);
    ("corrASDvsASA_10", JNum (0) 1);
    ("corrASDvsASA_20", JNum (0) 1);
    ("corrASDvsASA_30", JNum (0) 1);
    ("corrASDvsASA_40", JNum (0) 1);
    ("corrASDvsASA_50", JNum (0) 1);
    ("corrASDvsASA_60", JNum (0) 1);
    ("corrASDvsASA_70", JNum (0) 1);
    ("corrASDvsASA_80", JNum (0) 1);
    ("corrASDvsASA_90", JNum (0) 1);
    ("corrASDvsK_10", JNum (0) 1);
    ("corrASDvsK_20", JNum (0) 1);
    ("corrASDvsK_30", JNum (0) 1);
    ("corrASDvsK_40", JNum (0) 1);
    ("corrASDvsK_50", JNum (0) 1);
    ("corrASDvsK_60", JNum (0) 1);
    ("corrASDvsK_70", JNum (0) 1);
    ("corrASDvsK_80", JNum (0) 1);
    ("corrASDvsK_90", JNum (0) 1);
    ("corrASAvsK_10", JNum (-2) 1);
    ("corrASAvsK_20", JNum (-2) 1);
    ("corrASAvsK_30", JNum (-2) 1);
    ("corrASAvsK_40", JNum (-2) 1);
    ("corrASAvsK_50", JNum (-2) 1);
    ("corrASAvsK_60", JNum (-2) 1);
    ("corrASAvsK_70", JNum (-2) 1);
    ("corrASAvsK_80", JNum (-2) 1);
    ("corrASAvsK_90", JNum (-2) 1);
    ("corrDSvsK_10", JNum (-4) 1);
    ("corrDSvsK_20", JNum (-4) 1);
    ("corrDSvsK_30", JNum (-4) 1);
    ("corrDSvsK_40", JNum (-4) 1);
    ("corrDSvsK_50", JNum (-4) 1);
    ("corrDSvsK_60", JNum (-4) 1);
    ("corrDSvsK_70", JNum (-4) 1);
    ("corrDSvsK_80", JNum (-4) 1);
    ("corrDSvsK_90", JNum (-4) 1);
    ("corrSFvsK_10", JNum (0) 1);
    ("corrSFvsK_20", JNum (0) 1);
    ("corrSFvsK_30", JNum (0) 1);
    ("corrSFvsK_40", JNum (0) 1);
    ("corrSFvsK_50", JNum (0) 1);
    ("corrSFvsK_60", JNum (0) 1);
    ("corrSFvsK_70", JNum (0) 1);
    ("corrSFvsK_80", JNum (0) 1);
    ("corrSFvsK_90", JNum (0) 1);
    ("corrZSDvsSF_10", JNum (0) 1);
    ("corrZSDvsSF_20", JNum (0) 1);
    ("corrZSDvsSF_30", JNum (0) 1);
    ("corrZSDvsSF_40", JNum (0) 1);
    ("corrZSDvsSF_50", JNum (0) 1);
    ("corrZSDvsSF_60", JNum (0) 1);
    ("corrZSDvsSF_70", JNum (0) 1);
    ("corrZSDvsSF_80", JNum (0) 1);
    ("corrZSDvsSF_90", JNum (0) 1);
    ("corrZSAvsSF_10", JNum (-8) 1);
    ("corrZSAvsSF_20", JNum (-8) 1);
    ("corrZSAvsSF_30", JNum (-8) 1);
    ("corrZSAvsSF_40", JNum (-8) 1);
    ("corrZSAvsSF_50", JNum (-8) 1);
    ("corrZSAvsSF_60", JNum (-8) 1);
    ("corrZSAvsSF_70", JNum (-8) 1);
    ("corrZSAvsSF_80", JNum (-8) 1);
    ("corrZSAvsSF_90", JNum (-8) 1);
    ("corrZSDvsK_10", JNum (0) 1);
    ("corrZSDvsK_20", JNum (0) 1);
    ("corrZSDvsK_30", JNum (0) 1);
    ("corrZSDvsK_40", JNum (0) 1);
    ("corrZSDvsK_50", JNum (0) 1);
    ("corrZSDvsK_60", JNum (0) 1);
    ("corrZSDvsK_70", JNum (0) 1);
    ("corrZSDvsK_80", JNum (0) 1);
    ("corrZSDvsK_90", JNum (0) 1);
    ("corrZSAvsK_10", JNum (0) 1);
    ("corrZSAvsK_20", JNum (0) 1);
    ("corrZSAvsK_30", JNum (0) 1);
    ("corrZSAvsK_40", JNum (0) 1);
    ("corrZSAvsK_50", JNum (0) 1);
    ("corrZSAvsK_60", JNum (0) 1);
    ("corrZSAvsK_70", JNum (0) 1);
    ("corrZSAvsK_80", JNum (0) 1);
    ("corrZSAvsK_90", JNum (0) 1);
    ("corrZSDvsDS_10", JNum (0) 1);
    ("corrZSDvsDS_20", JNum (0) 1);
    ("corrZSDvsDS_30", JNum (0) 1);
    ("corrZSDvsDS_40", JNum (0) 1);
    ("corrZSDvsDS_50", JNum (0) 1);
    ("corrZSDvsDS_60", JNum (0) 1);
    ("corrZSDvsDS_70", JNum (0) 1);
    ("corrZSDvsDS_80", JNum (0) 1);
    ("corrZSDvsDS_90", JNum (0) 1);
    ("corrZSAvsDS_10", JNum (0) 1);
    ("corrZSAvsDS_20", JNum (0) 1);
    ("corrZSAvsDS_30", JNum (0) 1);
    ("corrZSAvsDS_40", JNum (0) 1);
    ("corrZSAvsDS_50", JNum (0) 1);
    ("corrZSAvsDS_60", JNum (0) 1);
    ("corrZSAvsDS_70", JNum (0) 1);
    ("corrZSAvsDS_80", JNum (0) 1);
    ("corrZSAvsDS_90", JNum (0) 1);
    ("corrZSDvsASD_10", JNum (0) 1);
    ("corrZSDvsASD_20", JNum (0) 1);
    ("corrZSDvsASD_30", JNum (0) 1);
    ("corrZSDvsASD_40", JNum (0) 1);
    ("corrZSDvsASD_50", JNum (0) 1);
    ("corrZSDvsASD_60", JNum (0) 1);
    ("corrZSDvsASD_70", JNum (0) 1);
    ("corrZSDvsASD_80", JNum (0) 1);
    ("corrZSDvsASD_90", JNum (0) 1);
    ("corrZSAvsASD_10", JNum (0) 1);
    ("corrZSAvsASD_20", JNum (0) 1);
    ("corrZSAvsASD_30", JNum (0) 1);
    ("corrZSAvsASD_40", JNum (0) 1);
    ("corrZSAvsASD_50", JNum (0) 1);
    ("corrZSAvsASD_60", JNum (0) 1);
    ("corrZSAvsASD_70", JNum (0) 1);
    ("corrZSAvsASD_80", JNum (0) 1);
    ("corrZSAvsASD_90", JNum (0) 1);
    ("corrZSDvsASA_10", JNum (0) 1);
    ("corrZSDvsASA_20", JNum (0) 1);
    ("corrZSDvsASA_30", JNum (0) 1);
    ("corrZSDvsASA_40", JNum (0) 1);
    ("corrZSDvsASA_50", JNum (0) 1);
    ("corrZSDvsASA_60", JNum (0) 1);
    ("corrZSDvsASA_70", JNum (0) 1);
    ("corrZSDvsASA_80", JNum (0) 1);
    ("corrZSDvsASA_90", JNum (0) 1);
    ("corrZSAvsASA_10", JNum (4) 1);
    ("corrZSAvsASA_20", JNum (4) 1);
    ("corrZSAvsASA_30", JNum (4) 1);
    ("corrZSAvsASA_40", JNum (4) 1);
    ("corrZSAvsASA_50", JNum (4) 1);
    ("corrZSAvsASA_60", JNum (4) 1);
    ("corrZSAvsASA_70", JNum (4) 1);
    ("corrZSAvsASA_80", JNum (4) 1);
    ("corrZSAvsASA_90", JNum (4) 1);
    ("corrZSDvsZSA_10", JNum (0) 1);
    ("corrZSDvsZSA_20", JNum (0) 1);
    ("corrZSDvsZSA_30", JNum (0) 1);
    ("corrZSDvsZSA_40", JNum (0) 1);
    ("corrZSDvsZSA_50", JNum (0) 1);
    ("corrZSDvsZSA_60", JNum (0) 1);
    ("corrZSDvsZSA_70", JNum (0) 1);
    ("corrZSDvsZSA_80", JNum (0) 1);
    ("corrZSDvsZSA_90", JNum (0) 1) ].

(* /repo/OpenNTN/models/Urban_LOS_Ka_band_UL.json *)
Definition tab_Urban_LOS_Ka_band_UL : json_obj :=
  [ ("muDS_10", JNum (-852) 2);
    ("muDS_20", JNum (-859) 2);
    ("muDS_30", JNum (-851) 2);
    ("muDS_40", JNum (-849) 2);
    ("muDS_50", JNum (-848) 2);
    ("muDS_60", JNum (-844) 2);
    ("muDS_70", JNum (-840) 2);
    ("muDS_80", JNum (-837) 2);
    ("muDS_90", JNum (-835) 2);
    ("sigmaDS_10", JNum (92) 2);
    ("sigmaDS_20", JNum (79) 2);
    ("sigmaDS_30", JNum (65) 2);
    ("sigmaDS_40", JNum (48) 2);
    ("sigmaDS_50", JNum (46) 2);
    ("sigmaDS_60", JNum (34) 2);
    ("sigmaDS_70", JNum (27) 2);
    ("sigmaDS_80", JNum (19) 2);
    ("sigmaDS_90", JNum (14) 2);
    ("muASD_10", JNum (-318) 2);
    ("muASD_20", JNum (-305) 2);
    ("muASD_30", JNum (-298) 2);
    ("muASD_40", JNum (-311) 2);
    ("muASD_50", JNum (-319) 2);
    ("muASD_60", JNum (-325) 2);
    ("muASD_70", JNum (-333) 2);
    ("muASD_80", JNum (-322) 2);
    ("muASD_90", JNum (-283) 2);
    ("sigmaASD_10", JNum (79) 2);
    ("sigmaASD_20", JNum (87) 2);
    ("sigmaASD_30", JNum (104) 2);
    ("sigmaASD_40", JNum (106) 2);
    ("sigmaASD_50", JNum (112) 2);
    ("sigmaASD_60", JNum (114) 2);
    ("sigmaASD_70", JNum (125) 2);
    ("sigmaASD_80", JNum (135) 2);
    ("sigmaASD_90", JNum (162) 2);
    ("muASA_10", JNum (-40) 2);
    ("muASA_20", JNum (-15) 2);
    ("muASA_30", JNum (-18) 2);
    ("muASA_40", JNum (-31) 2);
    ("muASA_50", JNum (-58) 2);
    ("muASA_60", JNum (-90) 2);
    ("muASA_70", JNum (-116) 2);
    ("muASA_80", JNum (-148) 2);
    ("muASA_90", JNum (-114) 2);
    ("sigmaASA_10", JNum (77) 2);
    ("sigmaASA_20", JNum (97) 2);
    ("sigmaASA_30", JNum (158) 2);
    ("sigmaASA_40", JNum (169) 2);
    ("sigmaASA_50", JNum (213) 2);
    ("sigmaASA_60", JNum (251) 2);
    ("sigmaASA_70", JNum (247) 2);
    ("sigmaASA_80", JNum (261) 2);
    ("sigmaASA_90", JNum (170) 2);
    ("muZSA_10", JNum (-67) 2);
    ("muZSA_20", JNum (-34) 2);
    ("muZSA_30", JNum (7) 2);
    ("muZSA_40", JNum (-8) 2);
    ("muZSA_50", JNum (-21) 2);
    ("muZSA_60", JNum (-25) 2);
    ("muZSA_70", JNum (-61) 2);
    ("muZSA_80", JNum (-79) 2);
    ("muZSA_90", JNum (-58) 2);
    ("sigmaZSA_10", JNum (222) 2);
    ("sigmaZSA_20", JNum (304) 2);
    ("sigmaZSA_30", JNum (133) 2);
    ("sigmaZSA_40", JNum (145) 2);
    ("sigmaZSA_50", JNum (162) 2);
    ("sigmaZSA_60", JNum (106) 2);
    ("sigmaZSA_70", JNum (188) 2);
    ("sigmaZSA_80", JNum (187) 2);
    ("sigmaZSA_90", JNum (119) 2);
    ("muZSD_10", JNum (-261) 2);
    ("muZSD_20", JNum (-282) 2);
    ("muZSD_30", JNum (-248) 2);
    ("muZSD_40", JNum (-276) 2);
    ("muZSD_50", JNum (-293) 2);
    ("muZSD_60", JNum (-305) 2);
    ("muZSD_70", JNum (-345) 2);
    ("muZSD_80", JNum (-366) 2);
    ("muZSD_90", JNum (-356) 2);
    ("sigmaZSD_10", JNum (241) 2);
    ("sigmaZSD_20", JNum (259) 2);
    ("sigmaZSD_30", JNum (102) 2);
    ("sigmaZSD_40", JNum (127) 2);
    ("sigmaZSD_50", JNum (138) 2);
    ("sigmaZSD_60", JNum (96) 2);
    ("sigmaZSD_70", JNum (151) 2);
    ("sigmaZSD_80", JNum (149) 2);
    ("sigmaZSD_90", JNum (89) 2);
    ("sigmaSF_10", JNum (40) 1);
    ("sigmaSF_20", JNum (40) 1);
    ("sigmaSF_30", JNum (40) 1);
    ("sigmaSF_40", JNum (40) 1);
    ("sigmaSF_50", JNum (40) 1);
    ("sigmaSF_60", JNum (40) 1);
    ("sigmaSF_70", JNum (40) 1);
    ("sigmaSF_80", JNum (40) 1);
    ("sigmaSF_90", JNum (40) 1);
    ("muK_10", JNum (4018) 2);
    ("muK_20", JNum (2362) 2);
    ("muK_30", JNum (1248) 2);
    ("muK_40", JNum (856) 2);
    ("muK_50", JNum (742) 2);
    ("muK_60", JNum (597) 2);
    ("muK_70", JNum (488) 2);
    ("muK_80", JNum (422) 2);
    ("muK_90", JNum (381) 2);
    ("sigmaK_10", JNum (1699) 2);
    ("sigmaK_20", JNum (1896) 2);
    ("sigmaK_30", JNum (1423) 2);
    ("sigmaK_40", JNum (1106) 2);
    ("sigmaK_50", JNum (1121) 2);
    ("sigmaK_60", JNum (947) 2);
    ("sigmaK_70", JNum (724) 2);
    ("sigmaK_80", JNum (579) 2);
    ("sigmaK_90", JNum (425) 2);
    ("muXPR_10", JNum (80) 1);
    ("muXPR_20", JNum (80) 1);
    ("muXPR_30", JNum (80) 1);
    ("muXPR_40", JNum (80) 1);
    ("muXPR_50", JNum (80) 1);
    ("muXPR_60", JNum (80) 1);
    ("muXPR_70", JNum (80) 1);
    ("muXPR_80", JNum (80) 1);
    ("muXPR_90", JNum (80) 1);
    ("sigmaXPR_10", JNum (40) 1);
    ("sigmaXPR_20", JNum (40) 1);
    ("sigmaXPR_30", JNum (40) 1);
    ("sigmaXPR_40", JNum (40) 1);
    ("sigmaXPR_50", JNum (40) 1);
    ("sigmaXPR_60", JNum (40) 1);
    ("sigmaXPR_70", JNum (40) 1);
    ("sigmaXPR_80", JNum (40) 1);
    ("sigmaXPR_90", JNum (40) 1);
    ("rTau_10", JNum (25) 1);
    ("rTau_20", JNum (25) 1);
    ("rTau_30", JNum (25) 1);
    ("rTau_40", JNum (25) 1);
    ("rTau_50", JNum (25) 1);
    ("rTau_60", JNum (25) 1);
    ("rTau_70", JNum (25) 1);
    ("rTau_80", JNum (25) 1);
    ("rTau_90", JNum (25) 1);
    ("numClusters_10", JInt (4));
    ("numClusters_20", JInt (3));
    ("numClusters_30", JInt (3));
    ("numClusters_40", JInt (3));
    ("numClusters_50", JInt (3));
    ("numClusters_60", JInt (3));
    ("numClusters_70", JInt (3));
    ("numClusters_80", JInt (3));
    ("numClusters_90", JInt (3));
    ("zeta_10", JNum (30) 1);
    ("zeta_20", JNum (30) 1);
    ("zeta_30", JNum (30) 1);
    ("zeta_40", JNum (30) 1);
    ("zeta_50", JNum (30) 1);
    ("zeta_60", JNum (30) 1);
    ("zeta_70", JNum (30) 1);
    ("zeta_80", JNum (30) 1);
    ("zeta_90", JNum (30) 1);
    ("cDS_10", JNum (16) 1);
    ("cDS_20", JNum (16) 1);
    ("cDS_30", JNum (16) 1);
    ("cDS_40", JNum (16) 1);
    ("cDS_50", JNum (16) 1);
    ("cDS_60", JNum (16) 1);
    ("cDS_70", JNum (16) 1);
    ("cDS_80", JNum (16) 1);
    ("cDS_90", JNum (16) 1);
    ("cASD_10", JNum (9) 2);
    ("cASD_20", JNum (9) 2);
    ("cASD_30", JNum (11) 2);
    ("cASD_40", JNum (15) 2);
    ("cASD_50", JNum (18) 2);
    ("cASD_60", JNum (27) 2);
    ("cASD_70", JNum (42) 2);
    ("cASD_80", JNum (86) 2);
    ("cASD_90", JNum (255) 2);
    ("cASA_10", JNum (1178) 2);
    ("cASA_20", JNum (1160) 2);
    ("cASA_30", JNum (1305) 2);
    ("cASA_40", JNum (1456) 2);
    ("cASA_50", JNum (1535) 2);
    ("cASA_60", JNum (1697) 2);
    ("cASA_70", JNum (1796) 2);
    ("cASA_80", JNum (2068) 2);
    ("cASA_90", JNum (2508) 2);
    ("cZSA_10", JNum (114) 2);
    ("cZSA_20", JNum (278) 2);
    ("cZSA_30", JNum (387) 2);
    ("cZSA_40", JNum (494) 2);
    ("cZSA_50", JNum (541) 2);
    ("cZSA_60", JNum (631) 2);
    ("cZSA_70", JNum (666) 2);
    ("cZSA_80", JNum (731) 2);
    ("cZSA_90", JNum (923) 2);
    ("LoS_p_10", JNum (246) 3);
    ("LoS_p_20", JNum (386) 3);
    ("LoS_p_30", JNum (493) 3);
    ("LoS_p_40", JNum (613) 3);
    ("LoS_p_50", JNum (726) 3);
    ("LoS_p_60", JNum (805) 3);
    ("LoS_p_70", JNum (919) 3);
    ("LoS_p_80", JNum (968) 3);
    ("LoS_p_90", JNum (992) 3);
    ("CPhiNLoS", JNum (680) 3);
    ("CThetaNLoS", JNum (594) 3);
    ("corrDistDS_10", JNum (300) 1);
    ("corrDistDS_20", JNum (300) 1);
    ("corrDistDS_30", JNum (300) 1);
    ("corrDistDS_40", JNum (300) 1);
    ("corrDistDS_50", JNum (300) 1);
    ("corrDistDS_60", JNum (300) 1);
    ("corrDistDS_70", JNum (300) 1);
    ("corrDistDS_80", JNum (300) 1);
    ("corrDistDS_90", JNum (300) 1);
    ("corrDistASD_10", JInt (18));
    ("corrDistASD_20", JInt (18));
    ("corrDistASD_30", JInt (18));
    ("corrDistASD_40", JInt (18));
    ("corrDistASD_50", JInt (18));
    ("corrDistASD_60", JInt (18));
    ("corrDistASD_70", JInt (18));
    ("corrDistASD_80", JInt (18));
    ("corrDistASD_90", JInt (18));
    ("corrDistASA_10", JInt (15));
    ("corrDistASA_20", JInt (15));
    ("corrDistASA_30", JInt (15));
    ("corrDistASA_40", JInt (15));
    ("corrDistASA_50", JInt (15));
    ("corrDistASA_60", JInt (15));
    ("corrDistASA_70", JInt (15));
    ("corrDistASA_80", JInt (15));
    ("corrDistASA_90", JInt (15));
    ("corrDistSF_10", JInt (37));
    ("corrDistSF_20", JInt (37));
    ("corrDistSF_30", JInt (37));
    ("corrDistSF_40", JInt (37));
    ("corrDistSF_50", JInt (37));
    ("corrDistSF_60", JInt (37));
    ("corrDistSF_70", JInt (37));
    ("corrDistSF_80", JInt (37));
    ("corrDistSF_90", JInt (37));
    ("corrDistK_10", JInt (12));
    ("corrDistK_20", JInt (12));
    ("corrDistK_30", JInt (12));
    ("corrDistK_40", JInt (12));
    ("corrDistK_50", JInt (12));
    ("corrDistK_60", JInt (12));
    ("corrDistK_70", JInt (12));
    ("corrDistK_80", JInt (12));
    ("corrDistK_90", JInt (12));
    ("corrDistZSA_10", JInt (15));
    ("corrDistZSA_20", JInt (15));
    ("corrDistZSA_30", JInt (15));
    ("corrDistZSA_40", JInt (15));
    ("corrDistZSA_50", JInt (15));
    ("corrDistZSA_60", JInt (15));
    ("corrDistZSA_70", JInt (15));
    ("corrDistZSA_80", JInt (15));
    ("corrDistZSA_90", JInt (15));
    ("corrDistZSD_10", JInt (15));
    ("corrDistZSD_20", JInt (15));
    ("corrDistZSD_30", JInt (15));
    ("corrDistZSD_40", JInt (15));
    ("corrDistZSD_50", JInt (15));
    ("corrDistZSD_60", JInt (15));
    ("corrDistZSD_70", JInt (15));
    ("corrDistZSD_80", JInt (15));
    ("corrDistZSD_90", JInt (15));
    ("corrASDvsDS_10", JNum (4) 1);
    ("corrASDvsDS_20", JNum (4) 1);
    ("corrASDvsDS_30", JNum (4) 1);
    ("corrASDvsDS_40", JNum (4) 1);
    ("corrASDvsDS_50", JNum (4) 1);
    ("corrASDvsDS_60", JNum (4) 1);
    ("corrASDvsDS_70", JNum (4) 1);
    ("corrASDvsDS_80", JNum (4) 1);
    ("corrASDvsDS_90", JNum (4) 1);
    ("corrASAvsDS_10", JNum (8) 1);
    ("corrASAvsDS_20", JNum (8) 1);
    ("corrASAvsDS_30", JNum (8) 1);
    ("corrASAvsDS_40", JNum (8) 1);
    ("corrASAvsDS_50", JNum (8) 1);
    ("corrASAvsDS_60", JNum (8) 1);
    ("corrASAvsDS_70", JNum (8) 1);
    ("corrASAvsDS_80", JNum (8) 1);
    ("corrASAvsDS_90", JNum (8) 1);
    ("corrASAvsSF_10", JNum (-5) 1);
    ("corrASAvsSF_20", JNum (-5) 1);
    ("corrASAvsSF_30", JNum (-5) 1);
    ("corrASAvsSF_40", JNum (-5) 1);
    ("corrASAvsSF_50", JNum (-5) 1);
    ("corrASAvsSF_60", JNum (-5) 1);
    ("corrASAvsSF_70", JNum (-5) 1);
    ("corrASAvsSF_80", JNum (-5) 1);
    ("corrASAvsSF_90", JNum (-5) 1);
    ("corrASDvsSF_10", JNum (-5) 1);
    ("corrASDvsSF_20", JNum (-5) 1);
    ("corrASDvsSF_30", JNum (-5) 1);
    ("corrASDvsSF_40", JNum (-5) 1);
    ("corrASDvsSF_50", JNum (-5) 1);
    ("corrASDvsSF_60", JNum (-5) 1);
    ("corrASDvsSF_70", JNum (-5) 1);
    ("corrASDvsSF_80", JNum (-5) 1);
    ("corrASDvsSF_90", JNum (-5) 1);
    ("corrDSvsSF_10", JNum (-4) 1);
    ("corrDSvsSF_20", JNum (-4) 1);
    ("corrDSvsSF_30", JNum (-4) 1);
    ("corrDSvsSF_40", JNum (-4) 1);
    ("corrDSvsSF_50", JNum (-4) 1);
    ("corrDSvsSF_60", JNum (-4) 1);
    ("corrDSvsSF_70", JNum (-4) 1);
    ("corrDSvsSF_80", JNum (-4) 1);
    ("corrDSvsSF_90", JNum (-4) 1);
    ("corrASDvsASA_10", JInt (0));
    ("corrASDvsASA_20", JInt (0));
    ("corrASDvsASA_30", JInt (0));
    ("corrASDvsASA_40", JInt (0));
    ("corrASDvsASA_50", JInt (0));
    ("corrASDvsASA_60", JInt (0));
    ("corrASDvsASA_70", JInt (0));
    ("corrASDvsASA_80", JInt (0));
    ("corrASDvsASA_90", JInt (0));
    ("corrASDvsK_10", JInt (0));
    ("corrASDvsK_20", JInt (0));
    ("corrASDvsK_30", JInt (0));
    ("corrASDvsK_40", JInt (0));
    ("corrASDvsK_50", JInt (0));
    ("corrASDvsK_60", JInt (0));
    ("corrASDvsK_70", JInt (0));
    ("corrASDvsK_80", JInt (0));
    ("corrASDvsK_90", JInt (0));
    ("corrASAvsK_10", JNum (-2) 1);
    ("corrASAvsK_20", JNum (-2) 1);
    ("corrASAvsK_30", JNum (-2) 1);
    ("corrASAvsK_40", JNum (-2) 1);
    ("corrASAvsK_50", JNum (-2) 1);
    ("corrASAvsK_60", JNum (-2) 1);
    ("corrASAvsK_70", JNum (-2) 1);
    ("corrASAvsK_80", JNum (-2) 1);
    ("corrASAvsK_90", JNum (-2) 1);
    ("corrDSvsK_10", JNum (-4) 1);
    ("corrDSvsK_20", JNum (-4) 1);
    ("corrDSvsK_30", JNum (-4) 1);
    ("corrDSvsK_40", JNum (-4) 1);
    ("corrDSvsK_50", JNum (-4) 1);
    ("corrDSvsK_60", JNum (-4) 1);
    ("corrDSvsK_70", JNum (-4) 1);
    ("corrDSvsK_80", JNum (-4) 1);
    ("corrDSvsK_90", JNum (-4) 1);
    ("corrSFvsK_10", JInt (0));
    ("corrSFvsK_20", JInt (0));
    ("corrSFvsK_30", JInt (0));
    ("corrSFvsK_40", JInt (0));
    ("corrSFvsK_50", JInt (0));
    ("corrSFvsK_60", JInt (0));
    ("corrSFvsK_70", JInt (0));
    ("corrSFvsK_80", JInt (0));
    ("corrSFvsK_90", JInt (0));
    ("corrZSDvsSF_10", JInt (0));
    ("corrZSDvsSF_20", JInt (0));
    ("corrZSDvsSF_30", JInt (0));
    ("corrZSDvsSF_40", JInt (0));
    ("corrZSDvsSF_50", JInt (0));
    ("corrZSDvsSF_60", JInt (0));
    ("corrZSDvsSF_70", JInt (0));
    ("corrZSDvsSF_80", JInt (0));
    ("corrZSDvsSF_90", JInt (0));
    ("corrZSAvsSF_10", JNum (-8) 1);
    ("corrZSAvsSF_20", JNum (-8) 1);
    ("corrZSAvsSF_30", JNum (-8) 1);
    ("corrZSAvsSF_40", JNum (-8) 1);
    ("corrZSAvsSF_50", JNum (-8) 1);
    ("corrZSAvsSF_60", JNum (-8) 1);
    ("corrZSAvsSF_70", JNum (-8) 1);
    ("corrZSAvsSF_80", JNum (-8) 1);
    ("corrZSAvsSF_90", JNum (-8) 1);
    ("corrZSDvsK_10", JInt (0));
    ("corrZSDvsK_20", JInt (0));
    ("corrZSDvsK_30", JInt (0));
    ("corrZSDvsK_40", JInt (0));
    ("corrZSDvsK_50", JInt (0));
    ("corrZSDvsK_60", JInt (0));
    ("corrZSDvsK_70", JInt (0));
    ("corrZSDvsK_80", JInt (0));
    ("corrZSDvsK_90", JInt (0));
    ("corrZSAvsK_10", JInt (0));
    ("corrZSAvsK_20", JInt (0));
    ("corrZSAvsK_30", JInt (0));
    ("corrZSAvsK_40", JInt (0));
    ("corrZSAvsK_50", JInt (0));
    ("corrZSAvsK_60", JInt (0));
    ("corrZSAvsK_70", JInt (0));
    ("corrZSAvsK_80", JInt (0));
    ("corrZSAvsK_90", JInt (0));
    ("corrZSDvsDS_10", JNum (-2) 1);
    ("corrZSDvsDS_20", JNum (-2) 1);
    ("corrZSDvsDS_30", JNum (-2) 1);
    ("corrZSDvsDS_40", JNum (-2) 1);
    ("corrZSDvsDS_50", JNum (-2) 1);
    ("corrZSDvsDS_60", JNum (-2) 1);
    ("corrZSDvsDS_70", JNum (-2) 1);
    ("corrZSDvsDS_80", JNum (-2) 1);
    ("corrZSDvsDS_90", JNum (-2) 1);
    ("corrZSAvsDS_10", JInt (0));
    ("corrZSAvsDS_20", JInt (0));
    ("corrZSAvsDS_30", JInt (0));
    ("corrZSAvsDS_40", JInt (0));
    ("corrZSAvsDS_50", JInt (0));
    ("corrZSAvsDS_60", JInt (0));
    ("corrZSAvsDS_70", JInt (0));
    ("corrZSAvsDS_80", JInt (0));
    ("corrZSAvsDS_90", JInt (0));
    ("corrZSDvsASD_10", JNum (5) 1);
    ("corrZSDvsASD_20", JNum (5) 1);
    ("corrZSDvsASD_30", JNum (5) 1);
    ("corrZSDvsASD_40", JNum (5) 1);
    ("corrZSDvsASD_50", JNum (5) 1);
    ("corrZSDvsASD_60", JNum (5) 1);
    ("corrZSDvsASD_70", JNum (5) 1);
    ("corrZSDvsASD_80", JNum (5) 1);
    ("corrZSDvsASD_90", JNum (5) 1);
    ("corrZSAvsASD_10", JInt (0));
    ("corrZSAvsASD_20", JInt (0));
    ("corrZSAvsASD_30", JInt (0));
    ("corrZSAvsASD_40", JInt (0));
    ("corrZSAvsASD_50", JInt (0));
    ("corrZSAvsASD_60", JInt (0));
    ("corrZSAvsASD_70", JInt (0));
    ("corrZSAvsASD_80", JInt (0));
    ("corrZSAvsASD_90", JInt (0));
    ("corrZSDvsASA_10", JNum (-3) 1);
    ("corrZSDvsASA_20", JNum (-3) 1);
    ("corrZSDvsASA_30", JNum (-3) 1);
    ("corrZSDvsASA_40", JNum (-3) 1);
    ("corrZSDvsASA_50", JNum (-3) 1);
    ("corrZSDvsASA_60", JNum (-3) 1);
    ("corrZSDvsASA_70", JNum (-3) 1);
    ("corrZSDvsASA_80", JNum (-3) 1);
    ("corrZSDvsASA_90", JNum (-3) 1);
    ("corrZSAvsASA_10", JNum (4) 1);
    ("corrZSAvsASA_20", JNum (4) 1);
    ("corrZSAvsASA_30", JNum (4) 1);
    ("corrZSAvsASA_40", JNum (4) 1);
    ("corrZSAvsASA_50", JNum (4) 1);
    ("corrZSAvsASA_60", JNum (4) 1);
    ("corrZSAvsASA_70", JNum (4) 1);
    ("corrZSAvsASA_80", JNum (4) 1);
    ("corrZSAvsASA_90", JNum (4) 1);
    ("corrZSDvsZSA_10", JInt (0));
    ("corrZSDvsZSA_20", JInt (0));
    ("corrZSDvsZSA_30", JInt (0));
    ("corrZSDvsZSA_40", JInt (0));
    ("corrZSDvsZSA_50", JInt (0));
    ("corrZSDvsZSA_60", JInt (0));
    ("corrZSDvsZSA_70", JInt (0));
    ("corrZSDvsZSA_80", JInt (0));
    ("corrZSDvsZSA_90", JInt (0)) ].

(* /repo/OpenNTN/models/Urban_LOS_S_band_DL.json *)
Definition tab_Urban_LOS_S_band_DL : json_obj :=
  [ ("muDS_10", JNum (-797) 2);
    ("muDS_20", JNum (-812) 2);
    ("muDS_30", JNum (-821) 2);
    ("muDS_40", JNum (-831) 2);
    ("muDS_50", JNum (-837) 2);
    ("muDS_60", JNum (-839) 2);
    ("muDS_70", JNum (-838) 2);
    ("muDS_80", JNum (-835) 2);
    ("muDS_90", JNum (-834) 2);
    ("sigmaDS_10", JNum (100) 2);
    ("sigmaDS_20", JNum (83) 2);
    ("sigmaDS_30", JNum (68) 2);
    ("sigmaDS_40", JNum (48) 2);
    ("sigmaDS_50", JNum (38) 2);
    ("sigmaDS_60", JNum (24) 2);
    ("sigmaDS_70", JNum (18) 2);
    ("sigmaDS_80", JNum (13) 2);
    ("sigmaDS_90", JNum (9) 2);
    ("muASD_10", JStr "-inf");
    ("muASD_20", JStr "-inf");
    ("muASD_30", JStr "-inf");
    ("muASD_40", JStr "-inf");
    ("muASD_50", JStr "-inf");
    ("muASD_60", JStr "-inf");
    ("muASD_70", JStr "-inf");
    ("muASD_80", JStr "-inf");
    ("muASD_90", JStr "-inf");
    ("sigmaASD_10", JNum (0) 1);
    ("sigmaASD_20", JNum (0) 1);
    ("sigmaASD_30", JNum (0) 1);
    ("sigmaASD_40", JNum (0) 1);
    ("sigmaASD_50", JNum (0) 1);
    ("sigmaASD_60", JNum (0) 1);
    ("sigmaASD_70", JNum (0) 1);
    ("sigmaASD_80", JNum (0) 1);
    ("sigmaASD_90", JNum (0) 1);
    ("muASA_10", JNum (18) 2);
    ("muASA_20", JNum (42) 2);
    ("muASA_30", JNum (41) 2);
    ("muASA_40", JNum (18) 2);
    ("muASA_50", JNum (-7) 2);
    ("muASA_60", JNum (-43) 2);
    ("muASA_70", JNum (-64) 2);
    ("muASA_80", JNum (-91) 2);
    ("muASA_90", JNum (-54) 2);
    ("sigmaASA_10", JNum (74) 2);
    ("sigmaASA_20", JNum (90) 2);
    ("sigmaASA_30", JNum (130) 2);
    ("sigmaASA_40", JNum (169) 2);
    ("sigmaASA_50", JNum (204) 2);
    ("sigmaASA_60", JNum (254) 2);
    ("sigmaASA_70", JNum (247) 2);
    ("sigmaASA_80", JNum (269) 2);
    ("sigmaASA_90", JNum (166) 2);
    ("muZSA_10", JNum (-63) 2);
    ("muZSA_20", JNum (-15) 2);
    ("muZSA_30", JNum (54) 2);
    ("muZSA_40", JNum (35) 2);
    ("muZSA_50", JNum (27) 2);
    ("muZSA_60", JNum (26) 2);
    ("muZSA_70", JNum (-12) 2);
    ("muZSA_80", JNum (-21) 2);
    ("muZSA_90", JNum (-7) 2);
    ("sigmaZSA_10", JNum (260) 2);
    ("sigmaZSA_20", JNum (331) 2);
    ("sigmaZSA_30", JNum (110) 2);
    ("sigmaZSA_40", JNum (159) 2);
    ("sigmaZSA_50", JNum (162) 2);
    ("sigmaZSA_60", JNum (97) 2);
    ("sigmaZSA_70", JNum (199) 2);
    ("sigmaZSA_80", JNum (182) 2);
    ("sigmaZSA_90", JNum (143) 2);
    ("muZSD_10", JStr "-inf");
    ("muZSD_20", JStr "-inf");
    ("muZSD_30", JStr "-inf");
    ("muZSD_40", JStr "-inf");
    ("muZSD_50", JStr "-inf");
    ("muZSD_60", JStr "-inf");
    ("muZSD_70", JStr "-inf");
    ("muZSD_80", JStr "-inf");
    ("muZSD_90", JStr "-inf");
    ("sigmaZSD_10", JNum (0) 1);
    ("sigmaZSD_20", JNum (0) 1);
    ("sigmaZSD_30", JNum (0) 1);
    ("sigmaZSD_40", JNum (0) 1);
    ("sigmaZSD_50", JNum (0) 1);
    ("sigmaZSD_60", JNum (0) 1);
    ("sigmaZSD_70", JNum (0) 1);
    ("sigmaZSD_80", JNum (0) 1);
    ("sigmaZSD_90", JNum (0) 1);
    ("sigmaSF_10", JNum (40) 1);
    ("sigmaSF_20", JNum (40) 1);
    ("sigmaSF_30", JNum (40) 1);
    ("sigmaSF_40", JNum (40) 1);
    ("sigmaSF_50", JNum (40) 1);
    ("sigmaSF_60", JNum (40) 1);
    ("sigmaSF_70", JNum (40) 1);
    ("sigmaSF_80", JNum (40) 1);
    ("sigmaSF_90", JNum (40) 1);
    ("muK_10", JNum (3183) 2);
    ("muK_20", JNum (1878) 2);
    ("muK_30", JNum (1049) 2);
    ("muK_40", JNum (746) 2);
    ("muK_50", JNum (652) 2);
    ("muK_60", JNum (547) 2);
    ("muK_70", JNum (454) 2);
    ("muK_80", JNum (403) 2);
    ("muK_90", JNum (368) 2);
    ("sigmaK_10", JNum (1384) 2);
    ("sigmaK_20", JNum (1378) 2);
    ("sigmaK_30", JNum (1042) 2);
    ("sigmaK_40", JNum (801) 2);
    ("sigmaK_50", JNum (827) 2);
    ("sigmaK_60", JNum (726) 2);
    ("sigmaK_70", JNum (553) 2);
    ("sigmaK_80", JNum (449) 2);
    ("sigmaK_90", JNum (314) 2);
    ("muXPR_10", JNum (80) 1);
    ("muXPR_20", JNum (80) 1);
    ("muXPR_30", JNum (80) 1);
    ("muXPR_40", JNum (80) 1);
    ("muXPR_50", JNum (80) 1);
    ("muXPR_60", JNum (80) 1);
    ("muXPR_70", JNum (80) 1);
    ("muXPR_80", JNum (80) 1);
    ("muXPR_90", JNum (80) 1);
    ("sigmaXPR_10", JNum (40) 1);
    ("sigmaXPR_20", JNum (40) 1);
    ("sigmaXPR_30", JNum (40) 1);
    ("sigmaXPR_40", JNum (40) 1);
    ("sigmaXPR_50", JNum (40) 1);
    ("sigmaXPR_60", JNum (40) 1);
    ("sigmaXPR_70", JNum (40) 1);
    ("sigmaXPR_80", JNum (40) 1);
    ("sigmaXPR_90", JNum (40) 1);
    ("rTau_10", JNum (25) 1);
    ("rTau_20", JNum (25) 1);
    ("rTau_30", JNum (25) 1);
    ("rTau_40", JNum (25) 1);
    ("rTau_50", JNum (25) 1);
    ("rTau_60", JNum (25) 1);
    ("rTau_70", JNum (25) 1);
    ("rTau_80", JNum (25) 1);
    ("rTau_90", JNum (25) 1);
    ("numClusters_10", JInt (4));
    ("numClusters_20", JInt (3));
    ("numClusters_30", JInt (3));
    ("numClusters_40", JInt (3));
    ("numClusters_50", JInt (3));
    ("numClusters_60", JInt (3));
    ("numClusters_70", JInt (3));
    ("numClusters_80", JInt (3));
    ("numClusters_90", JInt (3));
    ("zeta_10", JNum (30) 1);
    ("zeta_20", JNum (30) 1);
    ("zeta_30", JNum (30) 1);
    ("zeta_40", JNum (30) 1);
    ("zeta_50", JNum (30) 1);
    ("zeta_60", JNum (30) 1);
    ("zeta_70", JNum (30) 1);
    ("zeta_80", JNum (30) 1);
    ("zeta_90", JNum (30) 1);
    ("cDS_10", JNum (39) 1);
    ("cDS_20", JNum (39) 1);
    ("cDS_30", JNum (39) 1);
    ("cDS_40", JNum (39) 1);
    ("cDS_50", JNum (39) 1);
    ("cDS_60", JNum (39) 1);
    ("cDS_70", JNum (39) 1);
    ("cDS_80", JNum (39) 1);
    ("cDS_90", JNum (39) 1);
    ("cASD_10", JNum (9) 2);
    ("cASD_20", JNum (9) 2);
    ("cASD_30", JNum (12) 2);
    ("cASD_40", JNum (16) 2);
    ("cASD_50", JNum (20) 2);
    ("cASD_60", JNum (28) 2);
    ("cASD_70", JNum (44) 2);
    ("cASD_80", JNum (90) 2);
    ("cASD_90", JNum (287) 2);
    ("cASA_10", JNum (1255) 2);
    ("cASA_20", JNum (1276) 2);
    ("cASA_30", JNum (1436) 2);
    ("cASA_40", JNum (1642) 2);
    ("cASA_50", JNum (1713) 2);
    ("cASA_60", JNum (1901) 2);
    ("cASA_70", JNum (1931) 2);
    ("cASA_80", JNum (2239) 2);
    ("cASA_90", JNum (2780) 2);
    ("cZSA_10", JNum (125) 2);
    ("cZSA_20", JNum (323) 2);
    ("cZSA_30", JNum (439) 2);
    ("cZSA_40", JNum (572) 2);
    ("cZSA_50", JNum (617) 2);
    ("cZSA_60", JNum (736) 2);
    ("cZSA_70", JNum (730) 2);
    ("cZSA_80", JNum (770) 2);
    ("cZSA_90", JNum (925) 2);
    ("LoS_p_10", JNum (246) 3);
    ("LoS_p_20", JNum (386) 3);
    ("LoS_p_30", JNum (493) 3);
    ("LoS_p_40", JNum (613) 3);
    ("LoS_p_50", JNum (726) 3);
    ("LoS_p_60", JNum (805) 3);
    ("LoS_p_70", JNum (919) 3);
    ("LoS_p_80", JNum (968) 3);
    ("LoS_p_90", JNum (992) 3);
    ("CPhiNLoS", JNum (680) 3);
    ("CThetaNLoS", JNum (594) 3);
    ("corrDistDS_10", JNum (300) 1);
    ("corrDistDS_20", JNum (300) 1);
    ("corrDistDS_30", JNum (300) 1);
    ("corrDistDS_40", JNum (300) 1);
    ("corrDistDS_50", JNum (300) 1);
    ("corrDistDS_60", JNum (300) 1);
    ("corrDistDS_70", JNum (300) 1);
    ("corrDistDS_80", JNum (300) 1);
    ("corrDistDS_90", JNum (300) 1);
    ("corrDistASD_10", JNum (180) 1);
    ("corrDistASD_20", JNum (180) 1);
    ("corrDistASD_30", JNum (180) 1);
    ("corrDistASD_40", JNum (180) 1);
    ("corrDistASD_50", JNum (180) 1);
    ("corrDistASD_60", JNum (180) 1);
    ("corrDistASD_70", JNum (180) 1);
    ("corrDistASD_80", JNum (180) 1);
    ("corrDistASD_90", JNum (180) 1);
    ("corrDistASA_10", JNum (150) 1);
    ("corrDistASA_20", JNum (150) 1);
    ("corrDistASA_30", JNum (150) 1);
    ("corrDistASA_40", JNum (150) 1);
    ("corrDistASA_50", JNum (150) 1);
    ("corrDistASA_60", JNum (150) 1);
    ("corrDistASA_70", JNum (150) 1);
    ("corrDistASA_80", JNum (150) 1);
    ("corrDistASA_90", JNum (150) 1);
    ("corrDistSF_10", JNum (370) 1);
    ("corrDistSF_20", JNum (370) 1);
    ("corrDistSF_30", JNum (370) 1);
    ("corrDistSF_40", JNum (370) 1);
    ("corrDistSF_50", JNum (370) 1);
    ("corrDistSF_60", JNum (370) 1);
    ("corrDistSF_70", JNum (370) 1);
    ("corrDistSF_80", JNum (370) 1);
    ("corrDistSF_90", JNum (370) 1);
    ("corrDistK_10", JNum (120) 1);
    ("corrDistK_20", JNum (120) 1);
    ("corrDistK_30", JNum (120) 1);
    ("corrDistK_40", JNum (120) 1);
    ("corrDistK_50", JNum (120) 1);
    ("corrDistK_60", JNum (120) 1);
    ("corrDistK_70", JNum (120) 1);
    ("corrDistK_80", JNum (120) 1);
    ("corrDistK_90", JNum (120) 1);
    ("corrDistZSA_10", JNum (150) 1);
    ("corrDistZSA_20", JNum (150) 1);
    ("corrDistZSA_30", JNum (150) 1);
    ("corrDistZSA_40", JNum (150) 1);
    ("corrDistZSA_50", JNum (150) 1);
    ("corrDistZSA_60", JNum (150) 1);
    ("corrDistZSA_70", JNum (150) 1);
    ("corrDistZSA_80", JNum (150) 1);
    ("corrDistZSA_90", JNum (150) 1);
    ("corrDistZSD_10", JNum (150) 1);
    ("corrDistZSD_20", JNum (150) 1);
    ("corrDistZSD_30", JNum (150) 1);
    ("corrDistZSD_40", JNum (150) 1);
    ("corrDistZSD_50", JNum (150) 1);
    ("corrDistZSD_60", JNum (150) 1);
    ("corrDistZSD_70", JNum (150) 1);
    ("corrDistZSD_80", JNum (150) 1);
    ("corrDistZSD_90", JNum (150) 1);
    ("corrASDvsDS_10", JNum (0) 1);
    ("corrASDvsDS_20", JNum (0) 1);
    ("corrASDvsDS_30", JNum (0) 1);
    ("corrASDvsDS_40", JNum (0) 1);
    ("corrASDvsDS_50", JNum (0) 1);
    ("corrASDvsDS_60", JNum (0) 1);
    ("corrASDvsDS_70", JNum (0) 1);
    ("corrASDvsDS_80", JNum (0) 1);
    ("corrASDvsDS_90", JNum (0) 1);
    ("corrASAvsDS_10", JNum (8) 1);
    ("corrASAvsDS_20", JNum (8) 1);
    ("corrASAvsDS_30", JNum (8) 1);
    ("corrASAvsDS_40", JNum (8) 1);
    ("corrASAvsDS_50", JNum (8) 1);
    ("corrASAvsDS_60", JNum (8) 1);
    ("corrASAvsDS_70", JNum (8) 1);
    ("corrASAvsDS_80", JNum (8) 1);
    ("corrASAvsDS_90", JNum (8) 1);
    ("corrASAvsSF_10", JNum (-5) 1);
    ("corrASAvsSF_20", JNum (-5) 1);
    ("corrASAvsSF_30", JNum (-5) 1);
    ("corrASAvsSF_40", JNum (-5) 1);
    ("corrASAvsSF_50", JNum (-5) 1);
    ("corrASAvsSF_60", JNum (-5) 1);
    ("corrASAvsSF_70", JNum (-5) 1);
    ("corrASAvsSF_80", JNum (-5) 1);
    ("corrASAvsSF_90", JNum (-5) 1);
    ("corrASDvsSF_10", JNum (0) 1);
    ("corrASDvsSF_20", JNum (0) 1);
    ("corrASDvsSF_30", JNum (0) 1);
    ("corrASDvsSF_40", JNum (0) 1);
    ("corrASDvsSF_50", JNum (0) 1);
    ("corrASDvsSF_60", JNum (0) 1);
    ("corrASDvsSF_70", JNum (0) 1);
    ("corrASDvsSF_80", JNum (0) 1);
    ("corrASDvsSF_90", JNum (0) 1);
    ("corrDSvsSF_10", JNum (-4) 1);
    ("corrDSvsSF_20", JNum (-4) 1);
    ("corrDSvsSF_30", JNum (-4) 1);
    ("corrDSvsSF_40", JNum (-4) 1);
    ("corrDSvsSF_50", JNum (-4) 1);
    ("corrDSvsSF_60", JNum (-4) 1);
    ("corrDSvsSF_70", JNum (-4) 1);
    ("corrDSvsSF_80", JNum (-4) 1);
    ("corrDSvsSF_90", JNum (-4) 1);
    ("corrASDvsASA_10", JNum (0) 1);
    ("corrASDvsASA_20", JNum (0) 1);
    ("corrASDvsASA_30", JNum (0) 1);
    ("corrASDvsASA_40", JNum (0) 1);
    ("corrASDvsASA_50", JNum (0) 1);
    ("corrASDvsASA_60", JNum (0) 1);
    ("corrASDvsASA_70", JNum (0) 1);
    ("corrASDvsASA_80", JNum (0) 1);
    ("corrASDvsASA_90", JNum (0) 1);
    ("corrASDvsK_10", JNum (0) 1);
    ("corrASDvsK_20", JNum (0) 1);
    ("corrASDvsK_30", JNum (0) 1);
    ("corrASDvsK_40", JNum (0) 1);
    ("corrASDvsK_50", JNum (0) 1);
    ("corrASDvsK_60", JNum (0) 1);
    ("corrASDvsK_70", JNum (0) 1);
    ("corrASDvsK_80", JNum (0) 1);
    ("corrASDvsK_90", JNum (0) 1);
    ("corrASAvsK_10", JNum (-2) 1);
    ("corrASAvsK_20", JNum (-2) 1);
    ("corrASAvsK_30", JNum (-2) 1);
    ("corrASAvsK_40", JNum (-2) 1);
    ("corrASAvsK_50", JNum (-2) 1);
    ("corrASAvsK_60", JNum (-2) 1);
    ("corrASAvsK_70", JNum (-2) 1);
    ("corrASAvsK_80", JNum (-2) 1);
    ("corrASAvsK_90", JNum (-2) 1);
    ("corrDSvsK_10", JNum (-4) 1);
    ("corrDSvsK_20", JNum (-4) 1);
    ("corrDSvsK_30", JNum (-4) 1);
    ("corrDSvsK_40", JNum (-4) 1);
    ("corrDSvsK_50", JNum (-4) 1);
    ("corrDSvsK_60", JNum (-4) 1);
    ("corrDSvsK_70", JNum (-4) 1);
    ("corrDSvsK_80", JNum (-4) 1);
    ("corrDSvsK_90", JNum (-4) 1);
    ("corrSFvsK_10", JNum (0) 1);
    ("corrSFvsK_20", JNum (0) 1);
    ("corrSFvsK_30", JNum (0) 1);
    ("corrSFvsK_40", JNum (0) 1);
    ("corrSFvsK_50", JNum (0) 1);
    ("corrSFvsK_60", JNum (0) 1);
    ("corrSFvsK_70", JNum (0) 1);
    ("corrSFvsK_80", JNum (0) 1);
    ("corrSFvsK_90", JNum (0) 1);
    ("corrZSDvsSF_10", JNum (0) 1);
    ("corrZSDvsSF_20", JNum (0) 1);
    ("corrZSDvsSF_30", JNum (0) 1);
    ("corrZSDvsSF_40", JNum (0) 1);
    ("corrZSDvsSF_50", JNum (0) 1);
    ("corrZSDvsSF_60", JNum (0) 1);
    ("corrZSDvsSF_70", JNum (0) 1);
    ("corrZSDvsSF_80", JNum (0) 1);
    ("corrZSDvsSF_90", JNum (0) 1);
    ("corrZSAvsSF_10", JNum (-8) 1);
    ("corrZSAvsSF_20", JNum (-8) 1);
    ("corrZSAvsSF_30", JNum (-8) 1);
    ("corrZSAvsSF_40", JNum (-8) 1);
    ("corrZSAvsSF_50", JNum (-8) 1);
    ("corrZSAvsSF_60", JNum (-8) 1);
    ("corrZSAvsSF_70", JNum (-8) 1);
    ("corrZSAvsSF_80", JNum (-8) 1);
    ("corrZSAvsSF_90", JNum (-8) 1);
    ("corrZSDvsK_10", JNum (0) 1);
    ("corrZSDvsK_20", JNum (0) 1);
    ("corrZSDvsK_30", JNum (0) 1);
    ("corrZSDvsK_40", JNum (0) 1);
    ("corrZSDvsK_50", JNum (0) 1);
    ("corrZSDvsK_60", JNum (0) 1);
    ("corrZSDvsK_70", JNum (0) 1);
    ("corrZSDvsK_80", JNum (0) 1);
    ("corrZSDvsK_90", JNum (0) 1);
    ("corrZSAvsK_10", JNum (0) 1);
    ("corrZSAvsK_20", JNum (0) 1);
    ("corrZSAvsK_30", JNum (0) 1);
    ("corrZSAvsK_40", JNum (0) 1);
    ("corrZSAvsK_50", JNum (0) 1);
    ("corrZSAvsK_60", JNum (0) 1);
    ("corrZSAvsK_70", JNum (0) 1);
    ("corrZSAvsK_80", JNum (0) 1);
    ("corrZSAvsK_90", JNum (0) 1);
    ("corrZSDvsDS_10", JNum (0) 1);
    ("corrZSDvsDS_20", JNum (0) 1);
    ("corrZSDvsDS_30", JNum (0) 1);
    ("corrZSDvsDS_40", JNum (0) 1);
    ("corrZSDvsDS_50", JNum (0) 1);
    ("corrZSDvsDS_60", JNum (0) 1);
    ("corrZSDvsDS_70", JNum (0) 1);
    ("corrZSDvsDS_80", JNum (0) 1);
    ("corrZSDvsDS_90", JNum (0) 1);
    ("corrZSAvsDS_10", JNum (0) 1);
    ("corrZSAvsDS_20", JNum (0) 1);
    ("corrZSAvsDS_30", JNum (0) 1);
    ("corrZSAvsDS_40", JNum (0) 1);
    ("corrZSAvsDS_50", JNum (0) 1);
    ("corrZSAvsDS_60", JNum (0) 1);
    ("corrZSAvsDS_70", JNum (0) 1);
    ("corrZSAvsDS_80", JNum (0) 1);
    ("corrZSAvsDS_90", JNum (0) 1);
    ("corrZSDvsASD_10", JNum (0) 1);
    ("corrZSDvsASD_20", JNum (0) 1);
    ("corrZSDvsASD_30", JNum (0) 1);
    ("corrZSDvsASD_40", JNum (0) 1);
    ("corrZSDvsASD_50", JNum (0) 1);
    ("corrZSDvsASD_60", JNum (0) 1);
    ("corrZSDvsASD_70", JNum (0) 1);
    ("corrZSDvsASD_80", JNum (0) 1);
    ("corrZSDvsASD_90", JNum (0) 1);
    ("corrZSAvsASD_10", JNum (0) 1);
    ("corrZSAvsASD_20", JNum (0) 1);
    ("corrZSAvsASD_30", JNum (0) 1);
    ("corrZSAvsASD_40", JNum (0) 1);
    ("corrZSAvsASD_50", JNum (0) 1);
    ("corrZSAvsASD_60", JNum (0) 1);
    ("corrZSAvsASD_70", JNum (0) 1);
    ("corrZSAvsASD_80", JNum (0) 1);
    ("corrZSAvsASD_90", JNum (0) 1);
    ("corrZSDvsASA_10", JNum (0) 1);
    ("corrZSDvsASA_20", JNum (0) 1);
    ("corrZSDvsASA_30", JNum (0) 1);
    ("corrZSDvsASA_40", JNum (0) 1);
    ("corrZSDvsASA_50", JNum (0) 1);
    ("corrZSDvsASA_60", JNum (0) 1);
    ("corrZSDvsASA_70", JNum (0) 1);
    ("corrZSDvsASA_80", JNum (0) 1);
    ("corrZSDvsASA_90", JNum (0) 1);
    ("corrZSAvsASA_10", JNum (4) 1);
    ("corrZSAvsASA_20", JNum (4) 1);
    ("corrZSAvsASA_30", JNum (4) 1);
    ("corrZSAvsASA_40", JNum (4) 1);
    ("corrZSAvsASA_50", JNum (4) 1);
    ("corrZSAvsASA_60", JNum (4) 1);
    ("corrZSAvsASA_70", JNum (4) 1);
    ("corrZSAvsASA_80", JNum (4) 1);
    ("corrZSAvsASA_90", JNum (4) 1);
    ("corrZSDvsZSA_10", JNum (0) 1);
    ("corrZSDvsZSA_20", JNum (0) 1);
    ("corrZSDvsZSA_30", JNum (0) 1);
    ("corrZSDvsZSA_40", JNum (0) 1);
    ("corrZSDvsZSA_50", JNum (0) 1);
    ("corrZSDvsZSA_60", JNum (0) 1);
    ("corrZSDvsZSA_70", JNum (0) 1);
    ("corrZSDvsZSA_80", JNum (0) 1);
    ("corrZSDvsZSA_90", JNum (0) 1) ].

(* /repo/OpenNTN/models/Urban_LOS_S_band_UL.json *)
Definition tab_Urban_LOS_S_band_UL : json_obj :=
  [ ("muDS_10", JNum (-797) 2);
    ("muDS_20", JNum (-812) 2);
    ("muDS_30", JNum (-821) 2);
    ("muDS_40", JNum (-831) 2);
    ("muDS_50", JNum (-837) 2);
    ("muDS_60", JNum (-839) 2);
    ("muDS_70", JNum (-838) 2);
    ("muDS_80", JNum (-835) 2);
    ("muDS_90", JNum (-834) 2);
    ("sigmaDS_10", JNum (100) 2);
    ("sigmaDS_20", JNum (83) 2);
    ("sigmaDS_30", JNum (68) 2);
    ("sigmaDS_40", JNum (48) 2);
    ("sigmaDS_50", JNum (38) 2);
    ("sigmaDS_60", JNum (24) 2);
    ("sigmaDS_70", JNum (18) 2);
    ("sigmaDS_80", JNum (13) 2);
    ("sigmaDS_90", JNum (9) 2);
    ("muASD_10", JNum (-260) 2);
    ("muASD_20", JNum (-248) 2);
    ("muASD_30", JNum (-244) 2);
    ("muASD_40", JNum (-260) 2);
    ("muASD_50", JNum (-271) 2);
    ("muASD_60", JNum (-276) 2);
    ("muASD_70", JNum (-278) 2);
    ("muASD_80", JNum (-265) 2);
    ("muASD_90", JNum (-227) 2);
    ("sigmaASD_10", JNum (79) 2);
    ("sigmaASD_20", JNum (80) 2);
    ("sigmaASD_30", JNum (91) 2);
    ("sigmaASD_40", JNum (102) 2);
    ("sigmaASD_50", JNum (117) 2);
    ("sigmaASD_60", JNum (117) 2);
    ("sigmaASD_70", JNum (120) 2);
    ("sigmaASD_80", JNum (145) 2);
    ("sigmaASD_90", JNum (185) 2);
    ("muASA_10", JNum (18) 2);
    ("muASA_20", JNum (42) 2);
    ("muASA_30", JNum (41) 2);
    ("muASA_40", JNum (18) 2);
    ("muASA_50", JNum (-7) 2);
    ("muASA_60", JNum (-43) 2);
    ("muASA_70", JNum (-64) 2);
    ("muASA_80", JNum (-91) 2);
    ("muASA_90", JNum (-54) 2);
    ("sigmaASA_10", JNum (74) 2);
    ("sigmaASA_20", JNum (90) 2);
    ("sigmaASA_30", JNum (130) 2);
    ("sigmaASA_40", JNum (169) 2);
    ("sigmaASA_50", JNum (204) 2);
    ("sigmaASA_60", JNum (254) 2);
    ("sigmaASA_70", JNum (247) 2);
    ("sigmaASA_80", JNum (269) 2);
    ("sigmaASA_90", JNum (166) 2);
    ("muZSA_10", JNum (-63) 2);
    ("muZSA_20", JNum (-15) 2);
    ("muZSA_30", JNum (54) 2);
    ("muZSA_40", JNum (35) 2);
    ("muZSA_50", JNum (27) 2);
    ("muZSA_60", JNum (26) 2);
    ("muZSA_70", JNum (-12) 2);
    ("muZSA_80", JNum (-21) 2);
    ("muZSA_90", JNum (-7) 2);
    ("sigmaZSA_10", JNum (260) 2);
    ("sigmaZSA_20", JNum (331) 2);
    ("sigmaZSA_30", JNum (110) 2);
    ("sigmaZSA_40", JNum (159) 2);
    ("sigmaZSA_50", JNum (162) 2);
    ("sigmaZSA_60", JNum (97) 2);
    ("sigmaZSA_70", JNum (199) 2);
    ("sigmaZSA_80", JNum (182) 2);
    ("sigmaZSA_90", JNum (143) 2);
    ("muZSD_10", JNum (-254) 2);
    ("muZSD_20", JNum (-267) 2);
    ("muZSD_30", JNum (-203) 2);
    ("muZSD_40", JNum (-228) 2);
    ("muZSD_50", JNum (-248) 2);
    ("muZSD_60", JNum (-256) 2);
    ("muZSD_70", JNum (-296) 2);
    ("muZSD_80", JNum (-308) 2);
    ("muZSD_90", JNum (-300) 2);
    ("sigmaZSD_10", JNum (262) 2);
    ("sigmaZSD_20", JNum (296) 2);
    ("sigmaZSD_30", JNum (86) 2);
    ("sigmaZSD_40", JNum (119) 2);
    ("sigmaZSD_50", JNum (140) 2);
    ("sigmaZSD_60", JNum (85) 2);
    ("sigmaZSD_70", JNum (161) 2);
    ("sigmaZSD_80", JNum (149) 2);
    ("sigmaZSD_90", JNum (109) 2);
    ("sigmaSF_10", JNum (40) 1);
    ("sigmaSF_20", JNum (40) 1);
    ("sigmaSF_30", JNum (40) 1);
    ("sigmaSF_40", JNum (40) 1);
    ("sigmaSF_50", JNum (40) 1);
    ("sigmaSF_60", JNum (40) 1);
    ("sigmaSF_70", JNum (40) 1);
    ("sigmaSF_80", JNum (40) 1);
    ("sigmaSF_90", JNum (40) 1);
    ("muK_10", JNum (3183) 2);
    ("muK_20", JNum (1878) 2);
    ("muK_30", JNum (1049) 2);
    ("muK_40", JNum (746) 2);
    ("muK_50", JNum (652) 2);
    ("muK_60", JNum (547) 2);
    ("muK_70", JNum (454) 2);
    ("muK_80", JNum (403) 2);
    ("muK_90", JNum (368) 2);
    ("sigmaK_10", JNum (1384) 2);
    ("sigmaK_20", JNum (1378) 2);
    ("sigmaK_30", JNum (1042) 2);
    ("sigmaK_40", JNum (801) 2);
    ("sigmaK_50", JNum (827) 2);
    ("sigmaK_60", JNum (726) 2);
    ("sigmaK_70", JNum (553) 2);
    ("sigmaK_80", JNum (449) 2);
    ("sigmaK_90", JNum (314) 2);
    ("muXPR_10", JNum (80) 1);
    ("muXPR_20", JNum (80) 1);
    ("muXPR_30", JNum (80) 1);
    ("muXPR_40", JNum (80) 1);
    ("muXPR_50", JNum (80) 1);
    ("muXPR_60", JNum (80) 1);
    ("muXPR_70", JNum (80) 1);
    ("muXPR_80", JNum (80) 1);
    ("muXPR_90", JNum (80) 1);
    ("sigmaXPR_10", JNum (40) 1);
    ("sigmaXPR_20", JNum (40) 1);
    ("sigmaXPR_30", JNum (40) 1);
    ("sigmaXPR_40", JNum (40) 1);
    ("sigmaXPR_50", JNum (40) 1);
    ("sigmaXPR_60", JNum (40) 1);
    ("sigmaXPR_70", JNum (40) 1);
    ("sigmaXPR_80", JNum (40) 1);
    ("sigmaXPR_90", JNum (40) 1);
    ("rTau_10", JNum (25) 1);
    ("rTau_20", JNum (25) 1);
    ("rTau_30", JNum (25) 1);
    ("rTau_40", JNum (25) 1);
    ("rTau_50", JNum (25) 1);
    ("rTau_60", JNum (25) 1);
    ("rTau_70", JNum (25) 1);
    ("rTau_80", JNum (25) 1);
    ("rTau_90", JNum (25) 1);
    ("numClusters_10", JInt (4));
    ("numClusters_20", JInt (3));
    ("numClusters_30", JInt (3));
    ("numClusters_40", JInt (3));
    ("numClusters_50", JInt (3));
    ("numClusters_60", JInt (3));
    ("numClusters_70", JInt (3));
    ("numClusters_80", JInt (3));
    ("numClusters_90", JInt (3));
    ("zeta_10", JNum (30) 1);
    ("zeta_20", JNum (30) 1);
    ("zeta_30", JNum (30) 1);
    ("zeta_40", JNum (30) 1);
    ("zeta_50", JNum (30) 1);
    ("zeta_60", JNum (30) 1);
    ("zeta_70", JNum (30) 1);
    ("zeta_80", JNum (30) 1);
    ("zeta_90", JNum (30) 1);
    ("cDS_10", JNum (39) 1);
    ("cDS_20", JNum (39) 1);
    ("cDS_30", JNum (39) 1);
    ("cDS_40", JNum (39) 1);
    ("cDS_50", JNum (39) 1);
    ("cDS_60", JNum (39) 1);
    ("cDS_70", JNum (39) 1);
    ("cDS_80", JNum (39) 1);
    ("cDS_90", JNum (39) 1);
    ("cASD_10", JNum (9) 2);
    ("cASD_20", JNum (9) 2);
    ("cASD_30", JNum (12) 2);
    ("cASD_40", JNum (16) 2);
    ("cASD_50", JNum (20) 2);
    ("cASD_60", JNum (28) 2);
    ("cASD_70", JNum (44) 2);
    ("cASD_80", JNum (90) 2);
    ("cASD_90", JNum (287) 2);
    ("cASA_10", JNum (1255) 2);
    ("cASA_20", JNum (1276) 2);
    ("cASA_30", JNum (1436) 2);
    ("cASA_40", JNum (1642) 2);
    ("cASA_50", JNum (1713) 2);
    ("cASA_60", JNum (1901) 2);
    ("cASA_70", JNum (1931) 2);
    ("cASA_80", JNum (2239) 2);
    ("cASA_90", JNum (2780) 2);
    ("cZSA_10", JNum (125) 2);
    ("cZSA_20", JNum (323) 2);
    ("cZSA_30", JNum (439) 2);
    ("cZSA_40", JNum (572) 2);
    ("cZSA_50", JNum (617) 2);
    ("cZSA_60", JNum (736) 2);
    ("cZSA_70", JNum (730) 2);
    ("cZSA_80", JNum (770) 2);
    ("cZSA_90", JNum (925) 2);
    ("LoS_p_10", JNum (246) 3);
    ("LoS_p_20", JNum (386) 3);
    ("LoS_p_30", JNum (493) 3);
    ("LoS_p_40", JNum (613) 3);
    ("LoS_p_50", JNum (726) 3);
    ("LoS_p_60", JNum (805) 3);
    ("LoS_p_70", JNum (919) 3);
    ("LoS_p_80", JNum (968) 3);
    ("LoS_p_90", JNum (992) 3);
    ("CPhiNLoS", JNum (680) 3);
    ("CThetaNLoS", JNum (594) 3);
    ("corrDistDS_10", JNum (300) 1);
    ("corrDistDS_20", JNum (300) 1);
    ("corrDistDS_30", JNum (300) 1);
    ("corrDistDS_40", JNum (300) 1);
    ("corrDistDS_50", JNum (300) 1);
    ("corrDistDS_60", JNum (300) 1);
    ("corrDistDS_70", JNum (300) 1);
    ("corrDistDS_80", JNum (300) 1);
    ("corrDistDS_90", JNum (300) 1);
    ("corrDistASD_10", JNum (180) 1);
    ("corrDistASD_20", JNum (180) 1);
    ("corrDistASD_30", JNum (180) 1);
    ("corrDistASD_40", JNum (180) 1);
    ("corrDistASD_50", JNum (180) 1);
    ("corrDistASD_60", JNum (180) 1);
    ("corrDistASD_70", JNum (180) 1);
    ("corrDistASD_80", JNum (180) 1);
    ("corrDistASD_90", JNum (180) 1);
    ("corrDistASA_10", JNum (150) 1);
    ("corrDistASA_20", JNum (150) 1);
    ("corrDistASA_30", JNum (150) 1);
    ("corrDistASA_40", JNum (150) 1);
    ("corrDistASA_50", JNum (150) 1);
    ("corrDistASA_60", JNum (150) 1);
    ("corrDistASA_70", JNum (150) 1);
    ("corrDistASA_80", JNum (150) 1);
    ("corrDistASA_90", JNum (150) 1);
    ("corrDistSF_10", JNum (370) 1);
    ("corrDistSF_20", JNum (370) 1);
    ("corrDistSF_30", JNum (370) 1);
    ("corrDistSF_40", JNum (370) 1);
    ("corrDistSF_50", JNum (370) 1);
    ("corrDistSF_60", JNum (370) 1);
    ("corrDistSF_70", JNum (370) 1);
    ("corrDistSF_80", JNum (370) 1);
    ("corrDistSF_90", JNum (370) 1);
    ("corrDistK_10", JNum (120) 1);
    ("corrDistK_20", JNum (120) 1);
    ("corrDistK_30", JNum (120) 1);
    ("corrDistK_40", JNum (120) 1);
    ("corrDistK_50", JNum (120) 1);
    ("corrDistK_60", JNum (120) 1);
    ("corrDistK_70", JNum (120) 1);
    ("corrDistK_80", JNum (120) 1);
    ("corrDistK_90", JNum (120) 1);
    ("corrDistZSA_10", JNum (150) 1);
    ("corrDistZSA_20", JNum (150) 1);
    ("corrDistZSA_30", JNum (150) 1);
    ("corrDistZSA_40", JNum (150) 1);
    ("corrDistZSA_50", JNum (150) 1);
    ("corrDistZSA_60", JNum (150) 1);
    ("corrDistZSA_70", JNum (150) 1);
    ("corrDistZSA_80", JNum (150) 1);
    ("corrDistZSA_90", JNum (150) 1);
    ("corrDistZSD_10", JNum (150) 1);
    ("corrDistZSD_20", JNum (150) 1);
    ("corrDistZSD_30", JNum (150) 1);
    ("corrDistZSD_40", JNum (150) 1);
    ("corrDistZSD_50", JNum (150) 1);
    ("corrDistZSD_60", JNum (150) 1);
    ("corrDistZSD_70", JNum (150) 1);
    ("corrDistZSD_80", JNum (150) 1);
    ("corrDistZSD_90", JNum (150) 1);
    ("corrASDvsDS_10", JNum (4) 1);
    ("corrASDvsDS_20", JNum (4) 1);
    ("corrASDvsDS_30", JNum (4) 1);
    ("corrASDvsDS_40", JNum (4) 1);
    ("corrASDvsDS_50", JNum (4) 1);
    ("corrASDvsDS_60", JNum (4) 1);
    ("corrASDvsDS_70", JNum (4) 1);
    ("corrASDvsDS_80", JNum (4) 1);
    ("corrASDvsDS_90", JNum (4) 1);
    ("corrASAvsDS_10", JNum (8) 1);
    ("corrASAvsDS_20", JNum (8) 1);
    ("corrASAvsDS_30", JNum (8) 1);
    ("corrASAvsDS_40", JNum (8) 1);
    ("corrASAvsDS_50", JNum (8) 1);
    ("corrASAvsDS_60", JNum (8) 1);
    ("corrASAvsDS_70", JNum (8) 1);
    ("corrASAvsDS_80", JNum (8) 1);
    ("corrASAvsDS_90", JNum (8) 1);
    ("corrASAvsSF_10", JNum (-5) 1);
    ("corrASAvsSF_20", JNum (-5) 1);
    ("corrASAvsSF_30", JNum (-5) 1);
    ("corrASAvsSF_40", JNum (-5) 1);
    ("corrASAvsSF_50", JNum (-5) 1);
    ("corrASAvsSF_60", JNum (-5) 1);
    ("corrASAvsSF_70", JNum (-5) 1);
    ("corrASAvsSF_80", JNum (-5) 1);
    ("corrASAvsSF_90", JNum (-5) 1);
    ("corrASDvsSF_10", JNum (-5) 1);
    ("corrASDvsSF_20", JNum (-5) 1);
    ("corrASDvsSF_30", JNum (-5) 1);
    ("corrASDvsSF_40", JNum (-5) 1);
    ("corrASDvsSF_50", JNum (-5) 1);
    ("corrASDvsSF_60", JNum (-5) 1);
    ("corrASDvsSF_70", JNum (-5) 1);
    ("corrASDvsSF_80", JNum (-5) 1);
    ("corrASDvsSF_90", JNum (-5) 1);
    ("corrDSvsSF_10", JNum (-4) 1);
    ("corrDSvsSF_20", JNum (-4) 1);
    ("corrDSvsSF_30", JNum (-4) 1);
    ("corrDSvsSF_40", JNum (-4) 1);
    ("corrDSvsSF_50", JNum (-4) 1);
    ("corrDSvsSF_60", JNum (-4) 1);
    ("corrDSvsSF_70", JNum (-4) 1);
    ("corrDSvsSF_80", JNum (-4) 1);
    ("corrDSvsSF_90", JNum (-4) 1);
    ("corrASDvsASA_10", JNum (0) 1);
    ("corrASDvsASA_20", JNum (0) 1);
    ("corrASDvsASA_30", JNum (0) 1);
    ("corrASDvsASA_40", JNum (0) 1);
    ("corrASDvsASA_50", JNum (0) 1);
    ("corrASDvsASA_60", JNum (0) 1);
    ("corrASDvsASA_70", JNum (0) 1);
    ("corrASDvsASA_80", JNum (0) 1);
    ("corrASDvsASA_90", JNum (0) 1);
    ("corrASDvsK_10", JNum (0) 1);
    ("corrASDvsK_20", JNum (0) 1);
    ("corrASDvsK_30", JNum (0) 1);
    ("corrASDvsK_40", JNum (0) 1);
    ("corrASDvsK_50", JNum (0) 1);
    ("corrASDvsK_60", JNum (0) 1);
    ("corrASDvsK_70", JNum (0) 1);
    ("corrASDvsK_80", JNum (0) 1);
    ("corrASDvsK_90", JNum (0) 1);
    ("corrASAvsK_10", JNum (-2) 1);
    ("corrASAvsK_20", JNum (-2) 1);
    ("corrASAvsK_30", JNum (-2) 1);
    ("corrASAvsK_40", JNum (-2) 1);
    ("corrASAvsK_50", JNum (-2) 1);
    ("corrASAvsK_60", JNum (-2) 1);
    ("corrASAvsK_70", JNum (-2) 1);
    ("corrASAvsK_80", JNum (-2) 1);
    ("corrASAvsK_90", JNum (-2) 1);
    ("corrDSvsK_10", JNum (-4) 1);
    ("corrDSvsK_20", JNum (-4) 1);
    ("corrDSvsK_30", JNum (-4) 1);
    ("corrDSvsK_40", JNum (-4) 1);
    ("corrDSvsK_50", JNum (-4) 1);
    ("corrDSvsK_60", JNum (-4) 1);
    ("corrDSvsK_70", JNum (-4) 1);
    ("corrDSvsK_80", JNum (-4) 1);
    ("corrDSvsK_90", JNum (-4) 1);
    ("corrSFvsK_10", JNum (0) 1);
    ("corrSFvsK_20", JNum (0) 1);
    ("corrSFvsK_30", JNum (0) 1);
    ("corrSFvsK_40", JNum (0) 1);
    ("corrSFvsK_50", JNum (0) 1);
    ("corrSFvsK_60", JNum (0) 1);
    ("corrSFvsK_70", JNum (0) 1);
    ("corrSFvsK_80", JNum (0) 1);
    ("corrSFvsK_90", JNum (0) 1);
    ("corrZSDvsSF_10", JNum (0) 1);
    ("corrZSDvsSF_20", JNum (0) 1);
    ("corrZSDvsSF_30", JNum (0) 1);
    ("corrZSDvsSF_40", JNum (0) 1);
    ("corrZSDvsSF_50", JNum (0) 1);
    ("corrZSDvsSF_60", JNum (0) 1);
    ("corrZSDvsSF_70", JNum (0) 1);
    ("corrZSDvsSF_80", JNum (0) 1);
    ("corrZSDvsSF_90", JNum (0) 1);
    ("corrZSAvsSF_10", JNum (-8) 1);
    ("corrZSAvsSF_20", JNum (-8) 1);
    ("corrZSAvsSF_30", JNum (-8) 1);
    ("corrZSAvsSF_40", JNum (-8) 1);
    ("corrZSAvsSF_50", JNum (-8) 1);
    ("corrZSAvsSF_60", JNum (-8) 1);
    ("corrZSAvsSF_70", JNum (-8) 1);
    ("corrZSAvsSF_80", JNum (-8) 1);
    ("corrZSAvsSF_90", JNum (-8) 1);
    ("corrZSDvsK_10", JNum (0) 1);
    ("corrZSDvsK_20", JNum (0) 1);
    ("corrZSDvsK_30", JNum (0) 1);
    ("corrZSDvsK_40", JNum (0) 1);
    ("corrZSDvsK_50", JNum (0) 1);
    ("corrZSDvsK_60", JNum (0) 1);
    ("corrZSDvsK_70", JNum (0) 1);
    ("corrZSDvsK_80", JNum (0) 1);
    ("corrZSDvsK_90", JNum (0) 1);
    ("corrZSAvsK_10", JNum (0) 1);
    ("corrZSAvsK_20", JNum (0) 1);
    ("corrZSAvsK_30", JNum (0) 1);
    ("corrZSAvsK_40", JNum (0) 1);
    ("corrZSAvsK_50", JNum (0) 1);
    ("corrZSAvsK_60", JNum (0) 1);
    ("corrZSAvsK_70", JNum (0) 1);
    ("corrZSAvsK_80", JNum (0) 1);
    ("corrZSAvsK_90", JNum (0) 1);
    ("corrZSDvsDS_10", JNum (-2) 1);
    ("corrZSDvsDS_20", JNum (-2) 1);
    ("corrZSDvsDS_30", JNum (-2) 1);
    ("corrZSDvsDS_40", JNum (-2) 1);
    ("corrZSDvsDS_50", JNum (-2) 1);
    ("corrZSDvsDS_60", JNum (-2) 1);
    ("corrZSDvsDS_70", JNum (-2) 1);
    ("corrZSDvsDS_80", JNum (-2) 1);
    ("corrZSDvsDS_90", JNum (-2) 1);
    ("corrZSAvsDS_10", JNum (0) 1);
    ("corrZSAvsDS_20", JNum (0) 1);
    ("corrZSAvsDS_30", JNum (0) 1);
    ("corrZSAvsDS_40", JNum (0) 1);
    ("corrZSAvsDS_50", JNum (0) 1);
    ("corrZSAvsDS_60", JNum (0) 1);
    ("corrZSAvsDS_70", JNum (0) 1);
    ("corrZSAvsDS_80", JNum (0) 1);
    ("corrZSAvsDS_90", JNum (0) 1);
    ("corrZSDvsASD_10", JNum (5) 1);
    ("corrZSDvsASD_20", JNum (5) 1);
    ("corrZSDvsASD_30", JNum (5) 1);
    ("corrZSDvsASD_40", JNum (5) 1);
    ("corrZSDvsASD_50", JNum (5) 1);
    ("corrZSDvsASD_60", JNum (5) 1);
    ("corrZSDvsASD_70", JNum (5) 1);
    ("corrZSDvsASD_80", JNum (5) 1);
    ("corrZSDvsASD_90", JNum (5) 1);
    ("corrZSAvsASD_10", JNum (0) 1);
    ("corrZSAvsASD_20", JNum (0) 1);
    ("corrZSAvsASD_30", JNum (0) 1);
    ("corrZSAvsASD_40", JNum (0) 1);
    ("corrZSAvsASD_50", JNum (0) 1);
    ("corrZSAvsASD_60", JNum (0) 1);
    ("corrZSAvsASD_70", JNum (0) 1);
    ("corrZSAvsASD_80", JNum (0) 1);
    ("corrZSAvsASD_90", JNum (0) 1);
    ("corrZSDvsASA_10", JNum (-3) 1);
    ("corrZSDvsASA_20", JNum (-3) 1);
    ("corrZSDvsASA_30", JNum (-3) 1);
    ("corrZSDvsASA_40", JNum (-3) 1);
    ("corrZSDvsASA_50", JNum (-3) 1);
    ("corrZSDvsASA_60", JNum (-3) 1);
    ("corrZSDvsASA_70", JNum (-3) 1);
    ("corrZSDvsASA_80", JNum (-3) 1);
    ("corrZSDvsASA_90", JNum (-3) 1);
    ("corrZSAvsASA_10", JNum (4) 1);
    ("corrZSAvsASA_20", JNum (4) 1);
    ("corrZSAvsASA_30", JNum (4) 1);
    ("corrZSAvsASA_40", JNum (4) 1);
    ("corrZSAvsASA_50", JNum (4) 1);
    ("corrZSAvsASA_60", JNum (4) 1);
    ("corrZSAvsASA_70", JNum (4) 1);
    ("corrZSAvsASA_80", JNum (4) 1);
    ("corrZSAvsASA_90", JNum (4) 1);
    ("corrZSDvsZSA_10", JNum (0) 1);
    ("corrZSDvsZSA_20", JNum (0) 1);
    ("corrZSDvsZSA_30", JNum (0) 1);
    ("corrZSDvsZSA_40", JNum (0) 1);
    ("corrZSDvsZSA_50", JNum (0) 1);
    ("corrZSDvsZSA_60", JNum (0) 1);
    ("corrZSDvsZSA_70", JNum (0) 1);
    ("corrZSDvsZSA_80", JNum (0) 1);
    ("corrZSDvsZSA_90", JNum (0) 1) ].

(* /repo/OpenNTN/models/Urban_NLOS_Ka_band_DL.json *)
Definition tab_Urban_NLOS_Ka_band_DL : json_obj :=
  [ ("muDS_10", JNum (-724) 2);
    ("muDS_20", JNum (-770) 2);
    ("muDS_30", JNum (-782) 2);
    ("muDS_40", JNum (-804) 2);
    ("muDS_50", JNum (-808) 2);
    ("muDS_60", JNum (-810) 2);
    ("muDS_70", JNum (-816) 2);
    ("muDS_80", JNum (-803) 2);
    ("muDS_90", JNum (-833) 2);
    ("sigmaDS_10", JNum (126) 2);
    ("sigmaDS_20", JNum (99) 2);
    ("sigmaDS_30", JNum (86) 2);
    ("sigmaDS_40", JNum (75) 2);
    ("sigmaDS_50", JNum (77) 2);
    ("sigmaDS_60", JNum (76) 2);
    ("sigmaDS_70", JNum (73) 2);
    ("sigmaDS_80", JNum (79) 2);
    ("sigmaDS_90", JNum (70) 2);
    ("muASD_10", JStr "-inf");
    ("muASD_20", JStr "-inf");
    ("muASD_30", JStr "-inf");
    ("muASD_40", JStr "-inf");
    ("muASD_50", JStr "-inf");
    ("muASD_60", JStr "-inf");
    ("muASD_70", JStr "-inf");
    ("muASD_80", JStr "-inf");
    ("muASD_90", JStr "-inf");
    ("sigmaASD_10", JNum (0) 1);
    ("sigmaASD_20", JNum (0) 1);
    ("sigmaASD_30", JNum (0) 1);
    ("sigmaASD_40", JNum (0) 1);
    ("sigmaASD_50", JNum (0) 1);
    ("sigmaASD_60", JNum (0) 1);
    ("sigmaASD_70", JNum (0) 1);
    ("sigmaASD_80", JNum (0) 1);
    ("sigmaASD_90", JNum (0) 1);
    ("muASA_10", JNum (13) 2);
    ("muASA_20", JNum (19) 2);
    ("muASA_30", JNum (44) 2);
    ("muASA_40", JNum (48) 2);
    ("muASA_50", JNum (56) 2);
    ("muASA_60", JNum (55) 2);
    ("muASA_70", JNum (48) 2);
    ("muASA_80", JNum (53) 2);
    ("muASA_90", JNum (32) 2);
    ("sigmaASA_10", JNum (299) 2);
    ("sigmaASA_20", JNum (312) 2);
    ("sigmaASA_30", JNum (269) 2);
    ("sigmaASA_40", JNum (245) 2);
    ("sigmaASA_50", JNum (217) 2);
    ("sigmaASA_60", JNum (193) 2);
    ("sigmaASA_70", JNum (172) 2);
    ("sigmaASA_80", JNum (151) 2);
    ("sigmaASA_90", JNum (120) 2);
    ("muZSA_10", JNum (-113) 2);
    ("muZSA_20", JNum (49) 2);
    ("muZSA_30", JNum (95) 2);
    ("muZSA_40", JNum (115) 2);
    ("muZSA_50", JNum (114) 2);
    ("muZSA_60", JNum (113) 2);
    ("muZSA_70", JNum (116) 2);
    ("muZSA_80", JNum (128) 2);
    ("muZSA_90", JNum (142) 2);
    ("sigmaZSA_10", JNum (266) 2);
    ("sigmaZSA_20", JNum (203) 2);
    ("sigmaZSA_30", JNum (154) 2);
    ("sigmaZSA_40", JNum (102) 2);
    ("sigmaZSA_50", JNum (161) 2);
    ("sigmaZSA_60", JNum (184) 2);
    ("sigmaZSA_70", JNum (181) 2);
    ("sigmaZSA_80", JNum (135) 2);
    ("sigmaZSA_90", JNum (60) 2);
    ("muZSD_10", JStr "-inf");
    ("muZSD_20", JStr "-inf");
    ("muZSD_30", JStr "-inf");
    ("muZSD_40", JStr "-inf");
    ("muZSD_50", JStr "-inf");
    ("muZSD_60", JStr "-inf");
    ("muZSD_70", JStr "-inf");
    ("muZSD_80", JStr "-inf");
    ("muZSD_90", JStr "-inf");
    ("sigmaZSD_10", JNum (0) 1);
    ("sigmaZSD_20", JNum (0) 1);
    ("sigmaZSD_30", JNum (0) 1);
    ("sigmaZSD_40", JNum (0) 1);
    ("sigmaZSD_50", JNum (0) 1);
    ("sigmaZSD_60", JNum (0) 1);
    ("sigmaZSD_70", JNum (0) 1);
    ("sigmaZSD_80", JNum (0) 1);
    ("sigmaZSD_90", JNum (0) 1);
    ("sigmaSF_10", JNum (60) 1);
    ("sigmaSF_20", JNum (60) 1);
    ("sigmaSF_30", JNum (60) 1);
    ("sigmaSF_40", JNum (60) 1);
    ("sigmaSF_50", JNum (60) 1);
    ("sigmaSF_60", JNum (60) 1);
    ("sigmaSF_70", JNum (60) 1);
    ("sigmaSF_80", JNum (60) 1);
    ("sigmaSF_90", JNum (60) 1);
    ("CL_10", JNum (443) 1);
    ("CL_20", JNum (399) 1);
    ("CL_30", JNum (375) 1);
    ("CL_40", JNum (358) 1);
    ("CL_50", JNum (346) 1);
    ("CL_60", JNum (338) 1);
    ("CL_70", JNum (333) 1);
    ("CL_80", JNum (330) 1);
    ("CL_90", JNum (329) 1);
    ("muK_10", JNum (0) 1);
    ("muK_20", JNum (0) 1);
    ("muK_30", JNum (0) 1);
    ("muK_40", JNum (0) 1);
    ("muK_50", JNum (0) 1);
    ("muK_60", JNum (0) 1);
    ("muK_70", JNum (0) 1);
    ("muK_80", JNum (0) 1);
    ("muK_90", JNum (0) 1);
    ("sigmaK_10", JNum (0) 1);
    ("sigmaK_20", JNum (0) 1);
    ("sigmaK_30", JNum (0) 1);
    ("sigmaK_40", JNum (0) 1);
    ("sigmaK_50", JNum (0) 1);
    ("sigmaK_60", JNum (0) 1);
    ("sigmaK_70", JNum (0) 1);
    ("sigmaK_80", JNum (0) 1);
    ("sigmaK_90", JNum (0) 1);
    ("muXPR_10", JNum (70) 1);
    ("muXPR_20", JNum (70) 1);
    ("muXPR_30", JNum (70) 1);
    ("muXPR_40", JNum (70) 1);
    ("muXPR_50", JNum (70) 1);
    ("muXPR_60", JNum (70) 1);
    ("muXPR_70", JNum (70) 1);
    ("muXPR_80", JNum (70) 1);
    ("muXPR_90", JNum (70) 1);
    ("sigmaXPR_10", JNum (30) 1);
    ("sigmaXPR_20", JNum (30) 1);
    ("sigmaXPR_30", JNum (30) 1);
    ("sigmaXPR_40", JNum (30) 1);
    ("sigmaXPR_50", JNum (30) 1);
    ("sigmaXPR_60", JNum (30) 1);
    ("sigmaXPR_70", JNum (30) 1);
    ("sigmaXPR_80", JNum (30) 1);
    ("sigmaXPR_90", JNum (30) 1);
    ("rTau_10", JNum (23) 1);
    ("rTau_20", JNum (23) 1);
    ("rTau_30", JNum (23) 1);
    ("rTau_40", JNum (23) 1);
    ("rTau_50", JNum (23) 1);
    ("rTau_60", JNum (23) 1);
    ("rTau_70", JNum (23) 1);
    ("rTau_80", JNum (23) 1);
    ("rTau_90", JNum (23) 1);
    ("numClusters_10", JInt (3));
    ("numClusters_20", JInt (3));
    ("numClusters_30", JInt (3));
    ("numClusters_40", JInt (3));
    ("numClusters_50", JInt (3));
    ("numClusters_60", JInt (3));
    ("numClusters_70", JInt (2));
    ("numClusters_80", JInt (2));
    ("numClusters_90", JInt (2));
    ("zeta_10", JNum (30) 1);
    ("zeta_20", JNum (30) 1);
    ("zeta_30", JNum (30) 1);
    ("zeta_40", JNum (30) 1);
    ("zeta_50", JNum (30) 1);
    ("zeta_60", JNum (30) 1);
    ("zeta_70", JNum (30) 1);
    ("zeta_80", JNum (30) 1);
    ("zeta_90", JNum (30) 1);
    ("cDS_10", JNum (16) 1);
    ("cDS_20", JNum (16) 1);
    ("cDS_30", JNum (16) 1);
    ("cDS_40", JNum (16) 1);
    ("cDS_50", JNum (16) 1);
    ("cDS_60", JNum (16) 1);
    ("cDS_70", JNum (16) 1);
    ("cDS_80", JNum (16) 1);
    ("cDS_90", JNum (16) 1);
    ("cASD_10", JNum (8) 2);
    ("cASD_20", JNum (10) 2);
    ("cASD_30", JNum (14) 2);
    ("cASD_40", JNum (22) 2);
    ("cASD_50", JNum (31) 2);
    ("cASD_60", JNum (49) 2);
    ("cASD_70", JNum (97) 2);
    ("cASD_80", JNum (152) 2);
    ("cASD_90", JNum (536) 2);
    ("cASA_10", JNum (1472) 2);
    ("cASA_20", JNum (1462) 2);
    ("cASA_30", JNum (1814) 2);
    ("cASA_40", JNum (1604) 2);
    ("cASA_50", JNum (1786) 2);
    ("cASA_60", JNum (1973) 2);
    ("cASA_70", JNum (2050) 2);
    ("cASA_80", JNum (2616) 2);
    ("cASA_90", JNum (2583) 2);
    ("cZSA_10", JNum (157) 2);
    ("cZSA_20", JNum (430) 2);
    ("cZSA_30", JNum (664) 2);
    ("cZSA_40", JNum (921) 2);
    ("cZSA_50", JNum (1032) 2);
    ("cZSA_60", JNum (1030) 2);
    ("cZSA_70", JNum (1020) 2);
    ("cZSA_80", JNum (1227) 2);
    ("cZSA_90", JNum (1275) 2);
    ("LoS_p_10", JNum (246) 3);
    ("LoS_p_20", JNum (386) 3);
    ("LoS_p_30", JNum (493) 3);
    ("LoS_p_40", JNum (613) 3);
    ("LoS_p_50", JNum (726) 3);
    ("LoS_p_60", JNum (805) 3);
    ("LoS_p_70", JNum (919) 3);
    ("LoS_p_80", JNum (968) 3);
    ("LoS_p_90", JNum (992) 3);
    ("CPhiNLoS", JNum (680) 3);
    ("CThetaNLoS", JNum (594) 3);
    ("corrDistDS_10", JNum (400) 1);
    ("corrDistDS_20", JNum (400) 1);
    ("corrDistDS_30", JNum (400) 1);
    ("corrDistDS_40", JNum (400) 1);
    ("corrDistDS_50", JNum (400) 1);
    ("corrDistDS_60", JNum (400) 1);
    ("corrDistDS_70", JNum (400) 1);
    ("corrDistDS_80", JNum (400) 1);
    ("corrDistDS_90", JNum (400) 1);
    ("corrDistASD_10", JNum (500) 1);
    ("corrDistASD_20", JNum (500) 1);
    ("corrDistASD_30", JNum (500) 1);
    ("corrDistASD_40", JNum (500) 1);
    ("corrDistASD_50", JNum (500) 1);
    ("corrDistASD_60", JNum (500) 1);
    ("corrDistASD_70", JNum (500) 1);
    ("corrDistASD_80", JNum (500) 1);
    ("corrDistASD_90", JNum (500) 1);
    ("corrDistASA_10", JNum (500) 1);
    ("corrDistASA_20", JNum (500) 1);
    ("corrDistASA_30", JNum (500) 1);
    ("corrDistASA_40", JNum (500) 1);
    ("corrDistASA_50", JNum (500) 1);
    ("corrDistASA_60", JNum (500) 1);
    ("corrDistASA_70", JNum (500) 1);
    ("corrDistASA_80", JNum (500) 1);
    ("corrDistASA_90", JNum (500) 1);
    ("corrDistSF_10", JNum (500) 1);
    ("corrDistSF_20", JNum (500) 1);
    ("corrDistSF_30", JNum (500) 1);
    ("corrDistSF_40", JNum (500) 1);
    ("corrDistSF_50", JNum (500) 1);
    ("corrDistSF_60", JNum (500) 1);
    ("corrDistSF_70", JNum (500) 1);
    ("corrDistSF_80", JNum (500) 1);
    ("corrDistSF_90", JNum (500) 1);
    ("corrDistK_10", JNum (10) 1);
    ("corrDistK_20", JNum (10) 1);
    ("corrDistK_30", JNum (10) 1);
    ("corrDistK_40", JNum (10) 1);
    ("corrDistK_50", JNum (10) 1);
    ("corrDistK_60", JNum (10) 1);
    ("corrDistK_70", JNum (10) 1);
    ("corrDistK_80", JNum (10) 1);
    ("corrDistK_90", JNum (10) 1);
    ("corrDistZSA_10", JNum (500) 1);
    ("corrDistZSA_20", JNum (500) 1);
    ("corrDistZSA_30", JNum (500) 1);
    ("corrDistZSA_40", JNum (500) 1);
    ("corrDistZSA_50", JNum (500) 1);
    ("corrDistZSA_60", JNum (500) 1);
    ("corrDistZSA_70", JNum (500) 1);
    ("corrDistZSA_80", JNum (500) 1);
    ("corrDistZSA_90", JNum (500) 1);
    ("corrDistZSD_10", JNum (500) 1);
    ("corrDistZSD_20", JNum (500) 1);
    ("corrDistZSD_30", JNum (500) 1);
    ("corrDistZSD_40", JNum (500) 1);
    ("corrDistZSD_50", JNum (500) 1);
    ("corrDistZSD_60", JNum (500) 1);
    ("corrDistZSD_70", JNum (500) 1);
    ("corrDistZSD_80", JNum (500) 1);
    ("corrDistZSD_90", JNum (500) 1);
    ("corrASDvsDS_10", JNum (0) 1);
    ("corrASDvsDS_20", JNum (0) 1);
    ("corrASDvsDS_30", JNum (0) 1);
    ("corrASDvsDS_40", JNum (0) 1);
    ("corrASDvsDS_50", JNum (0) 1);
    ("corrASDvsDS_60", JNum (0) 1);
    ("corrASDvsDS_70", JNum (0) 1);
    ("corrASDvsDS_80", JNum (0) 1);
    ("corrASDvsDS_90", JNum (0) 1);
    ("corrASAvsDS_10", JNum (38) 2);
    ("corrASAvsDS_20", JNum (37) 2);
    ("corrASAvsDS_30", JNum (29) 2);
    ("corrASAvsDS_40", JNum (30) 2);
    ("corrASAvsDS_50", JNum (23) 2);
    ("corrASAvsDS_60", JNum (21) 2);
    ("corrASAvsDS_70", JNum (23) 2);
    ("corrASAvsDS_80", JNum (23) 2);
    ("corrASAvsDS_90", JNum (36) 2);
    ("corrASAvsSF_10", JNum (-5) 2);
    ("corrASAvsSF_20", JNum (-4) 2);
    ("corrASAvsSF_30", JNum (-4) 2);
    ("corrASAvsSF_40", JNum (-4) 2);
    ("corrASAvsSF_50", JNum (-3) 2);
    ("corrASAvsSF_60", JNum (-5) 2);
    ("corrASAvsSF_70", JNum (-3) 2);
    ("corrASAvsSF_80", JNum (-1) 2);
    ("corrASAvsSF_90", JNum (-3) 2);
    ("corrASDvsSF_10", JNum (0) 1);
    ("corrASDvsSF_20", JNum (0) 1);
    ("corrASDvsSF_30", JNum (0) 1);
    ("corrASDvsSF_40", JNum (0) 1);
    ("corrASDvsSF_50", JNum (0) 1);
    ("corrASDvsSF_60", JNum (0) 1);
    ("corrASDvsSF_70", JNum (0) 1);
    ("corrASDvsSF_80", JNum (0) 1);
    ("corrASDvsSF_90", JNum (0) 1);
    ("corrDSvsSF_10", JNum (-21) 2);
    ("corrDSvsSF_20", JNum (-25) 2);
    ("corrDSvsSF_30", JNum (-21) 2);
    ("corrDSvsSF_40", JNum (-26) 2);
    ("corrDSvsSF_50", JNum (-25) 2);
    ("corrDSvsSF_60", JNum (-20) 2);
    ("corrDSvsSF_70", JNum (-19) 2);
    ("corrDSvsSF_80", JNum (-20) 2);
    ("corrDSvsSF_90", JNum (-19) 2);
    ("corrASDvsASA_10", JNum (0) 1);
    ("corrASDvsASA_20", JNum (0) 1);
    ("corrASDvsASA_30", JNum (0) 1);
    ("corrASDvsASA_40", JNum (0) 1);
    ("corrASDvsASA_50", JNum (0) 1);
    ("corrASDvsASA_60", JNum (0) 1);
    ("corrASDvsASA_70", JNum (0) 1);
    ("corrASDvsASA_80", JNum (0) 1);
    ("corrASDvsASA_90", JNum (0) 1);
    ("corrASDvsK_10", JNum (0) 1);
    ("corrASDvsK_20", JNum (0) 1);
    ("corrASDvsK_30", JNum (0) 1);
    ("corrASDvsK_40", JNum (0) 1);
    ("corrASDvsK_50", JNum (0) 1);
    ("corrASDvsK_60", JNum (0) 1);
    ("corrASDvsK_70", JNum (0) 1);
    ("corrASDvsK_80", JNum (0) 1);
    ("corrASDvsK_90", JNum (0) 1);
    ("corrASAvsK_10", JNum (0) 1);
    ("corrASAvsK_20", JNum (0) 1);
    ("corrASAvsK_30", JNum (0) 1);
    ("corrASAvsK_40", JNum (0) 1);
    ("corrASAvsK_50", JNum (0) 1);
    ("corrASAvsK_60", JNum (0) 1);
    ("corrASAvsK_70", JNum (0) 1);
    ("corrASAvsK_80", JNum (0) 1);
    ("corrASAvsK_90", JNum (0) 1);
    ("corrDSvsK_10", JNum (0) 1);
    ("corrDSvsK_20", JNum (0) 1);
    ("corrDSvsK_30", JNum (0) 1);
    ("corrDSvsK_40", JNum (0) 1);
    ("corrDSvsK_50", JNum (0) 1);
    ("corrDSvsK_60", JNum (0) 1);
    ("corrDSvsK_70", JNum (0) 1);
    ("corrDSvsK_80", JNum (0) 1);
    ("corrDSvsK_90", JNum (0) 1);
    ("corrSFvsK_10", JNum (0) 1);
    ("corrSFvsK_20", JNum (0) 1);
    ("corrSFvsK_30", JNum (0) 1);
    ("corrSFvsK_40", JNum (0) 1);
    ("corrSFvsK_50", JNum (0) 1);
    ("corrSFvsK_60", JNum (0) 1);
    ("corrSFvsK_70", JNum (0) 1);
    ("corrSFvsK_80", JNum (0) 1);
    ("corrSFvsK_90", JNum (0) 1);
    ("corrZSDvsSF_10", JNum (0) 1);
    ("corrZSDvsSF_20", JNum (0) 1);
    ("corrZSDvsSF_30", JNum (0) 1);
    ("corrZSDvsSF_40", JNum (0) 1);
    ("corrZSDvsSF_50", JNum (0) 1);
    ("corrZSDvsSF_60", JNum (0) 1);
    ("corrZSDvsSF_70", JNum (0) 1);
    ("corrZSDvsSF_80", JNum (0) 1);
    ("corrZSDvsSF_90", JNum (0) 1);
    ("corrZSAvsSF_10", JNum (-31) 2);
    ("corrZSAvsSF_20", JNum (-32) 2);
    ("corrZSAvsSF_30", JNum (-33) 2);
    ("corrZSAvsSF_40", JNum (-33) 2);
    ("corrZSAvsSF_50", JNum (-41) 2);
    ("corrZSAvsSF_60", JNum (-40) 2);
    ("corrZSAvsSF_70", JNum (-36) 2);
    ("corrZSAvsSF_80", JNum (-37) 2);
    ("corrZSAvsSF_90", JNum (-33) 2);
    ("corrZSDvsK_10", JNum (0) 1);
    ("corrZSDvsK_20", JNum (0) 1);
    ("corrZSDvsK_30", JNum (0) 1);
    ("corrZSDvsK_40", JNum (0) 1);
    ("corrZSDvsK_50", JNum (0) 1);
    ("corrZSDvsK_60", JNum (0) 1);
    ("corrZSDvsK_70", JNum (0) 1);
    ("corrZSDvsK_80", JNum (0) 1);
    ("corrZSDvsK_90", JNum (0) 1);
    ("corrZSAvsK_10", JNum (0) 1);
    ("corrZSAvsK_20", JNum (0) 1);
    ("corrZSAvsK_30", JNum (0) 1);
    ("corrZSAvsK_40", JNum (0) 1);
    ("corrZSAvsK_50", JNum (0) 1);
    ("corrZSAvsK_60", JNum (0) 1);
    ("corrZSAvsK_70", JNum (0) 1);
    ("corrZSAvsK_80", JNum (0) 1);
    ("corrZSAvsK_90", JNum (0) 1);
    ("corrZSDvsDS_10", JNum (0) 1);
    ("corrZSDvsDS_20", JNum (0) 1);
    ("corrZSDvsDS_30", JNum (0) 1);
    ("corrZSDvsDS_40", JNum (0) 1);
    ("corrZSDvsDS_50", JNum (0) 1);
    ("corrZSDvsDS_60", JNum (0) 1);
    ("corrZSDvsDS_70", JNum (0) 1);
    ("corrZSDvsDS_80", JNum (0) 1);
    ("corrZSDvsDS_90", JNum (0) 1);
    ("corrZSAvsDS_10", JNum (6) 2);
    ("corrZSAvsDS_20", JNum (10) 2);
    ("corrZSAvsDS_30", JNum (11) 2);
    ("corrZSAvsDS_40", JNum (13) 2);
    ("corrZSAvsDS_50", JNum (-4) 2);
    ("corrZSAvsDS_60", JNum (-14) 2);
    ("corrZSAvsDS_70", JNum (-11) 2);
    ("corrZSAvsDS_80", JNum (-24) 2);
    ("corrZSAvsDS_90", JNum (-19) 2);
    ("corrZSDvsASD_10", JNum (0) 1);
    ("corrZSDvsASD_20", JNum (0) 1);
    ("corrZSDvsASD_30", JNum (0) 1);
    ("corrZSDvsASD_40", JNum (0) 1);
    ("corrZSDvsASD_50", JNum (0) 1);
    ("corrZSDvsASD_60", JNum (0) 1);
    ("corrZSDvsASD_70", JNum (0) 1);
    ("corrZSDvsASD_80", JNum (0) 1);
    ("corrZSDvsASD_90", JNum (0) 1);
    ("corrZSAvsASD_10", JNum (0) 1);
    ("corrZSAvsASD_20", JNum (0) 1);
    ("corrZSAvsASD_30", JNum (0) 1);
    ("corrZSAvsASD_40", JNum (0) 1);
    ("corrZSAvsASD_50", JNum (0) 1);
    ("corrZSAvsASD_60", JNum (0) 1);
    ("corrZSAvsASD_70", JNum (0) 1);
    ("corrZSAvsASD_80", JNum (0) 1);
    ("corrZSAvsASD_90", JNum (0) 1);
    ("corrZSDvsASA_10", JNum (0) 1);
    ("corrZSDvsASA_20", JNum (0) 1);
    ("corrZSDvsASA_30", JNum (0) 1);
    ("corrZSDvsASA_40", JNum (0) 1);
    ("corrZSDvsASA_50", JNum (0) 1);
    ("corrZSDvsASA_60", JNum (0) 1);
    ("corrZSDvsASA_70", JNum (0) 1);
    ("corrZSDvsASA_80", JNum (0) 1);
    ("corrZSDvsASA_90", JNum (0) 1);
    ("corrZSAvsASA_10", JNum (5) 2);
    ("corrZSAvsASA_20", JNum (13) 2);
    ("corrZSAvsASA_30", JNum (16) 2);
    ("corrZSAvsASA_40", JNum (16) 2);
    ("corrZSAvsASA_50", JNum (18) 2);
    ("corrZSAvsASA_60", JNum (21) 2);
    ("corrZSAvsASA_70", JNum (2) 2);
    ("corrZSAvsASA_80", JNum (-13) 2);
    ("corrZSAvsASA_90", JNum (-35) 2);
    ("corrZSDvsZSA_10", JNum (0) 1);
    ("corrZSDvsZSA_20", JNum (0) 1);
    ("corrZSDvsZSA_30", JNum (0) 1);
    ("corrZSDvsZSA_40", JNum (0) 1);
    ("corrZSDvsZSA_50", JNum (0) 1);
    ("corrZSDvsZSA_60", JNum (0) 1);
    ("corrZSDvsZSA_70", JNum (0) 1);
    ("corrZSDvsZSA_80", JNum (0) 1);
    ("corrZSDvsZSA_90", JNum (0) 1) ].

(* /repo/OpenNTN/models/Urban_NLOS_Ka_band_UL.json *)
Definition tab_Urban_NLOS_Ka_band_UL : json_obj :=
  [ ("muDS_10", JNum (-724) 2);
    ("muDS_20", JNum (-770) 2);
    ("muDS_30", JNum (-782) 2);
    ("muDS_40", JNum (-804) 2);
    ("muDS_50", JNum (-808) 2);
    ("muDS_60", JNum (-810) 2);
    ("muDS_70", JNum (-816) 2);
    ("muDS_80", JNum (-803) 2);
    ("muDS_90", JNum (-833) 2);
    ("sigmaDS_10", JNum (126) 2);
    ("sigmaDS_20", JNum (99) 2);
    ("sigmaDS_30", JNum (86) 2);
    ("sigmaDS_40", JNum (75) 2);
    ("sigmaDS_50", JNum (77) 2);
    ("sigmaDS_60", JNum (76) 2);
    ("sigmaDS_70", JNum (73) 2);
    ("sigmaDS_80", JNum (79) 2);
    ("sigmaDS_90", JNum (70) 2);
    ("muASD_10", JNum (-158) 2);
    ("muASD_20", JNum (-167) 2);
    ("muASD_30", JNum (-184) 2);
    ("muASD_40", JNum (-202) 2);
    ("muASD_50", JNum (-206) 2);
    ("muASD_60", JNum (-199) 2);
    ("muASD_70", JNum (-219) 2);
    ("muASD_80", JNum (-188) 2);
    ("muASD_90", JNum (-200) 2);
    ("sigmaASD_10", JNum (89) 2);
    ("sigmaASD_20", JNum (89) 2);
    ("sigmaASD_30", JNum (130) 2);
    ("sigmaASD_40", JNum (115) 2);
    ("sigmaASD_50", JNum (123) 2);
    ("sigmaASD_60", JNum (102) 2);
    ("sigmaASD_70", JNum (178) 2);
    ("sigmaASD_80", JNum (155) 2);
    ("sigmaASD_90", JNum (140) 2);
    ("muASA_10", JNum (13) 2);
    ("muASA_20", JNum (19) 2);
    ("muASA_30", JNum (44) 2);
    ("muASA_40", JNum (48) 2);
    ("muASA_50", JNum (56) 2);
    ("muASA_60", JNum (55) 2);
    ("muASA_70", JNum (48) 2);
    ("muASA_80", JNum (53) 2);
    ("muASA_90", JNum (32) 2);
    ("sigmaASA_10", JNum (299) 2);
    ("sigmaASA_20", JNum (312) 2);
    ("sigmaASA_30", JNum (269) 2);
    ("sigmaASA_40", JNum (245) 2);
    ("sigmaASA_50", JNum (217) 2);
    ("sigmaASA_60", JNum (193) 2);
    ("sigmaASA_70", JNum (172) 2);
    ("sigmaASA_80", JNum (151) 2);
    ("sigmaASA_90", JNum (120) 2);
    ("muZSA_10", JNum (-113) 2);
    ("muZSA_20", JNum (49) 2);
    ("muZSA_30", JNum (95) 2);
    ("muZSA_40", JNum (115) 2);
    ("muZSA_50", JNum (114) 2);
    ("muZSA_60", JNum (113) 2);
    ("muZSA_70", JNum (116) 2);
    ("muZSA_80", JNum (128) 2);
    ("muZSA_90", JNum (142) 2);
    ("sigmaZSA_10", JNum (266) 2);
    ("sigmaZSA_20", JNum (203) 2);
    ("sigmaZSA_30", JNum (154) 2);
    ("sigmaZSA_40", JNum (102) 2);
    ("sigmaZSA_50", JNum (161) 2);
    ("sigmaZSA_60", JNum (184) 2);
    ("sigmaZSA_70", JNum (181) 2);
    ("sigmaZSA_80", JNum (135) 2);
    ("sigmaZSA_90", JNum (60) 2);
    ("muZSD_10", JNum (-287) 2);
    ("muZSD_20", JNum (-268) 2);
    ("muZSD_30", JNum (-212) 2);
    ("muZSD_40", JNum (-227) 2);
    ("muZSD_50", JNum (-250) 2);
    ("muZSD_60", JNum (-247) 2);
    ("muZSD_70", JNum (-283) 2);
    ("muZSD_80", JNum (-282) 2);
    ("muZSD_90", JNum (-455) 2);
    ("sigmaZSD_10", JNum (276) 2);
    ("sigmaZSD_20", JNum (276) 2);
    ("sigmaZSD_30", JNum (154) 2);
    ("sigmaZSD_40", JNum (177) 2);
    ("sigmaZSD_50", JNum (236) 2);
    ("sigmaZSD_60", JNum (233) 2);
    ("sigmaZSD_70", JNum (284) 2);
    ("sigmaZSD_80", JNum (287) 2);
    ("sigmaZSD_90", JNum (427) 2);
    ("sigmaSF_10", JNum (60) 1);
    ("sigmaSF_20", JNum (60) 1);
    ("sigmaSF_30", JNum (60) 1);
    ("sigmaSF_40", JNum (60) 1);
    ("sigmaSF_50", JNum (60) 1);
    ("sigmaSF_60", JNum (60) 1);
    ("sigmaSF_70", JNum (60) 1);
    ("sigmaSF_80", JNum (60) 1);
    ("sigmaSF_90", JNum (60) 1);
    ("CL_10", JNum (443) 1);
    ("CL_20", JNum (399) 1);
    ("CL_30", JNum (375) 1);
    ("CL_40", JNum (358) 1);
    ("CL_50", JNum (346) 1);
    ("CL_60", JNum (338) 1);
    ("CL_70", JNum (333) 1);
    ("CL_80", JNum (330) 1);
    ("CL_90", JNum (329) 1);
    ("muK_10", JNum (0) 1);
    ("muK_20", JNum (0) 1);
    ("muK_30", JNum (0) 1);
    ("muK_40", JNum (0) 1);
    ("muK_50", JNum (0) 1);
    ("muK_60", JNum (0) 1);
    ("muK_70", JNum (0) 1);
    ("muK_80", JNum (0) 1);
    ("muK_90", JNum (0) 1);
    ("sigmaK_10", JNum (0) 1);
    ("sigmaK_20", JNum (0) 1);
    ("sigmaK_30", JNum (0) 1);
    ("sigmaK_40", JNum (0) 1);
    ("sigmaK_50", JNum (0) 1);
    ("sigmaK_60", JNum (0) 1);
    ("sigmaK_70", JNum (0) 1);
    ("sigmaK_80", JNum (0) 1);
    ("sigmaK_90", JNum (0) 1);
    ("muXPR_10", JNum (70) 1);
    ("muXPR_20", JNum (70) 1);
    ("muXPR_30", JNum (70) 1);
    ("muXPR_40", JNum (70) 1);
    ("muXPR_50", JNum (70) 1);
    ("muXPR_60", JNum (70) 1);
    ("muXPR_70", JNum (70) 1);
    ("muXPR_80", JNum (70) 1);
    ("muXPR_90", JNum (70) 1);
    ("sigmaXPR_10", JNum (30) 1);
    ("sigmaXPR_20", JNum (30) 1);
    ("sigmaXPR_30", JNum (30) 1);
    ("sigmaXPR_40", JNum (30) 1);
    ("sigmaXPR_50", JNum (30) 1);
    ("sigmaXPR_60", JNum (30) 1);
    ("sigmaXPR_70", JNum (30) 1);
    ("sigmaXPR_80", JNum (30) 1);
    ("sigmaXPR_90", JNum (30) 1);
    ("rTau_10", JNum (23) 1);
    ("rTau_20", JNum (23) 1);
    ("rTau_30", JNum (23) 1);
    ("rTau_40", JNum (23) 1);
    ("rTau_50", JNum (23) 1);
    ("rTau_60", JNum (23) 1);
    ("rTau_70", JNum (23) 1);
    ("rTau_80", JNum (23) 1);
    ("rTau_90", JNum (23) 1);
    ("numClusters_10", JInt (3));
    ("numClusters_20", JInt (3));
    ("numClusters_30", JInt (3));
    ("numClusters_40", JInt (3));
    ("numClusters_50", JInt (3));
    ("numClusters_60", JInt (3));
    ("numClusters_70", JInt (2));
    ("numClusters_80", JInt (2));
    ("numClusters_90", JInt (2));
    ("zeta_10", JNum (30) 1);
    ("zeta_20", JNum (30) 1);
    ("zeta_30", JNum (30) 1);
    ("zeta_40", JNum (30) 1);
    ("zeta_50", JNum (30) 1);
    ("zeta_60", JNum (30) 1);
    ("zeta_70", JNum (30) 1);
    ("zeta_80", JNum (30) 1);
    ("zeta_90", JNum (30) 1);
    ("cDS_10", JNum (16) 1);
    ("cDS_20", JNum (16) 1);
    ("cDS_30", JNum (16) 1);
    ("cDS_40", JNum (16) 1);
    ("cDS_50", JNum (16) 1);
    ("cDS_60", JNum (16) 1);
    ("cDS_70", JNum (16) 1);
    ("cDS_80", JNum (16) 1);
    ("cDS_90", JNum (16) 1);
    ("cASD_10", JNum (8) 2);
    ("cASD_20", JNum (10) 2);
    ("cASD_30", JNum (14) 2);
    ("cASD_40", JNum (22) 2);
    ("cASD_50", JNum (31) 2);
    ("cASD_60", JNum (49) 2);
    ("cASD_70", JNum (97) 2);
    ("cASD_80", JNum (152) 2);
    ("cASD_90", JNum (536) 2);
    ("cASA_10", JNum (1472) 2);
    ("cASA_20", JNum (1462) 2);
    ("cASA_30", JNum (1814) 2);
    ("cASA_40", JNum (1604) 2);
    ("cASA_50", JNum (1786) 2);
    ("cASA_60", JNum (1973) 2);
    ("cASA_70", JNum (2050) 2);
    ("cASA_80", JNum (2616) 2);
    ("cASA_90", JNum (2583) 2);
    ("cZSA_10", JNum (157) 2);
    ("cZSA_20", JNum (430) 2);
    ("cZSA_30", JNum (664) 2);
    ("cZSA_40", JNum (921) 2);
    ("cZSA_50", JNum (1032) 2);
    ("cZSA_60", JNum (1030) 2);
    ("cZSA_70", JNum (1020) 2);
    ("cZSA_80", JNum (1227) 2);
    ("cZSA_90", JNum (1275) 2);
    ("LoS_p_10", JNum (246) 3);
    ("LoS_p_20", JNum (386) 3);
    ("LoS_p_30", JNum (493) 3);
    ("LoS_p_40", JNum (613) 3);
    ("LoS_p_50", JNum (726) 3);
    ("LoS_p_60", JNum (805) 3);
    ("LoS_p_70", JNum (919) 3);
    ("LoS_p_80", JNum (968) 3);
    ("LoS_p_90", JNum (992) 3);
    ("CPhiNLoS", JNum (680) 3);
    ("CThetaNLoS", JNum (594) 3);
    ("corrDistDS_10", JNum (400) 1);
    ("corrDistDS_20", JNum (400) 1);
    ("corrDistDS_30", JNum (400) 1);
    ("corrDistDS_40", JNum (400) 1);
    ("corrDistDS_50", JNum (400) 1);
    ("corrDistDS_60", JNum (400) 1);
    ("corrDistDS_70", JNum (400) 1);
    ("corrDistDS_80", JNum (400) 1);
    ("corrDistDS_90", JNum (400) 1);
    ("corrDistASD_10", JNum (500) 1);
    ("corrDistASD_20", JNum (500) 1);
    ("corrDistASD_30", JNum (500) 1);
    ("corrDistASD_40", JNum (500) 1);
    ("corrDistASD_50", JNum (500) 1);
    ("corrDistASD_60", JNum (500) 1);
    ("corrDistASD_70", JNum (500) 1);
    ("corrDistASD_80", JNum (500) 1);
    ("corrDistASD_90", JNum (500) 1);
    ("corrDistASA_10", JNum (500) 1);
    ("corrDistASA_20", JNum (500) 1);
    ("corrDistASA_30", JNum (500) 1);
    ("corrDistASA_40", JNum (500) 1);
    ("corrDistASA_50", JNum (500) 1);
    ("corrDistASA_60", JNum (500) 1);
    ("corrDistASA_70", JNum (500) 1);
    ("corrDistASA_80", JNum (500) 1);
    ("corrDistASA_90", JNum (500) 1);
    ("corrDistSF_10", JNum (500) 1);
    ("corrDistSF_20", JNum (500) 1);
    ("corrDistSF_30", JNum (500) 1);
    ("corrDistSF_40", JNum (500) 1);
    ("corrDistSF_50", JNum (500) 1);
    ("corrDistSF_60", JNum (500) 1);
    ("corrDistSF_70", JNum (500) 1);
    ("corrDistSF_80", JNum (500) 1);
    ("corrDistSF_90", JNum (500) 1);
    ("corrDistK_10", JNum (10) 1);
    ("corrDistK_20", JNum (10) 1);
    ("corrDistK_30", JNum (10) 1);
    ("corrDistK_40", JNum (10) 1);
    ("corrDistK_50", JNum (10) 1);
    ("corrDistK_60", JNum (10) 1);
    ("corrDistK_70", JNum (10) 1);
    ("corrDistK_80", JNum (10) 1);
    ("corrDistK_90", JNum (10) 1);
    ("corrDistZSA_10", JNum (500) 1);
    ("corrDistZSA_20", JNum (500) 1);
    ("corrDistZSA_30", JNum (500) 1);
    ("corrDistZSA_40", JNum (500) 1);
    ("corrDistZSA_50", JNum (500) 1);
    ("corrDistZSA_60", JNum (500) 1);
    ("corrDistZSA_70", JNum (500) 1);
    ("corrDistZSA_80", JNum (500) 1);
    ("corrDistZSA_90", JNum (500) 1);
    ("corrDistZSD_10", JNum (500) 1);
    ("corrDistZSD_20", JNum (500) 1);
    ("corrDistZSD_30", JNum (500) 1);
    ("corrDistZSD_40", JNum (500) 1);
    ("corrDistZSD_50", JNum (500) 1);
    ("corrDistZSD_60", JNum (500) 1);
    ("corrDistZSD_70", JNum (500) 1);
    ("corrDistZSD_80", JNum (500) 1);
    ("corrDistZSD_90", JNum (500) 1);
    ("corrASDvsDS_10", JNum (55) 2);
    ("corrASDvsDS_20", JNum (47) 2);
    ("corrASDvsDS_30", JNum (55) 2);
    ("corrASDvsDS_40", JNum (52) 2);
    ("corrASDvsDS_50", JNum (55) 2);
    ("corrASDvsDS_60", JNum (57) 2);
    ("corrASDvsDS_70", JNum (61) 2);
    ("corrASDvsDS_80", JNum (59) 2);
    ("corrASDvsDS_90", JNum (65) 2);
    ("corrASAvsDS_10", JNum (38) 2);
    ("corrASAvsDS_20", JNum (37) 2);
    ("corrASAvsDS_30", JNum (29) 2);
    ("corrASAvsDS_40", JNum (30) 2);
    ("corrASAvsDS_50", JNum (23) 2);
    ("corrASAvsDS_60", JNum (21) 2);
    ("corrASAvsDS_70", JNum (23) 2);
    ("corrASAvsDS_80", JNum (23) 2);
    ("corrASAvsDS_90", JNum (36) 2);
    ("corrASAvsSF_10", JNum (-5) 2);
    ("corrASAvsSF_20", JNum (-4) 2);
    ("corrASAvsSF_30", JNum (-4) 2);
    ("corrASAvsSF_40", JNum (-4) 2);
    ("corrASAvsSF_50", JNum (-3) 2);
    ("corrASAvsSF_60", JNum (-5) 2);
    ("corrASAvsSF_70", JNum (-3) 2);
    ("corrASAvsSF_80", JNum (-1) 2);
    ("corrASAvsSF_90", JNum (-3) 2);
    ("corrASDvsSF_10", JNum (-48) 2);
    ("corrASDvsSF_20", JNum (-52) 2);
    ("corrASDvsSF_30", JNum (-52) 2);
    ("corrASDvsSF_40", JNum (-53) 2);
    ("corrASDvsSF_50", JNum (-57) 2);
    ("corrASDvsSF_60", JNum (-53) 2);
    ("corrASDvsSF_70", JNum (-50) 2);
    ("corrASDvsSF_80", JNum (-49) 2);
    ("corrASDvsSF_90", JNum (-38) 2);
    ("corrDSvsSF_10", JNum (-21) 2);
    ("corrDSvsSF_20", JNum (-25) 2);
    ("corrDSvsSF_30", JNum (-21) 2);
    ("corrDSvsSF_40", JNum (-26) 2);
    ("corrDSvsSF_50", JNum (-25) 2);
    ("corrDSvsSF_60", JNum (-20) 2);
    ("corrDSvsSF_70", JNum (-19) 2);
    ("corrDSvsSF_80", JNum (-20) 2);
    ("corrDSvsSF_90", JNum (-19) 2);
    ("corrASDvsASA_10", JNum (41) 2);
    ("corrASDvsASA_20", JNum (42) 2);
    ("corrASDvsASA_30", JNum (34) 2);
    ("corrASDvsASA_40", JNum (38) 2);
    ("corrASDvsASA_50", JNum (28) 2);
    ("corrASDvsASA_60", JNum (20) 2);
    ("corrASDvsASA_70", JNum (26) 2);
    ("corrASDvsASA_80", JNum (23) 2);
    ("corrASDvsASA_90", JNum (31) 2);
    ("corrASDvsK_10", JNum (0) 1);
    ("corrASDvsK_20", JNum (0) 1);
    ("corrASDvsK_30", JNum (0) 1);
    ("corrASDvsK_40", JNum (0) 1);
    ("corrASDvsK_50", JNum (0) 1);
    ("corrASDvsK_60", JNum (0) 1);
    ("corrASDvsK_70", JNum (0) 1);
    ("corrASDvsK_80", JNum (0) 1);
    ("corrASDvsK_90", JNum (0) 1);
    ("corrASAvsK_10", JNum (0) 1);
    ("corrASAvsK_20", JNum (0) 1);
    ("corrASAvsK_30", JNum (0) 1);
    ("corrASAvsK_40", JNum (0) 1);
    ("corrASAvsK_50", JNum (0) 1);
    ("corrASAvsK_60", JNum (0) 1);
    ("corrASAvsK_70", JNum (0) 1);
    ("corrASAvsK_80", JNum (0) 1);
    ("corrASAvsK_90", JNum (0) 1);
    ("corrDSvsK_10", JNum (0) 1);
    ("corrDSvsK_20", JNum (0) 1);
    ("corrDSvsK_30", JNum (0) 1);
    ("corrDSvsK_40", JNum (0) 1);
    ("corrDSvsK_50", JNum (0) 1);
    ("corrDSvsK_60", JNum (0) 1);
    ("corrDSvsK_70", JNum (0) 1);
    ("corrDSvsK_80", JNum (0) 1);
    ("corrDSvsK_90", JNum (0) 1);
    ("corrSFvsK_10", JNum (0) 1);
    ("corrSFvsK_20", JNum (0) 1);
    ("corrSFvsK_30", JNum (0) 1);
    ("corrSFvsK_40", JNum (0) 1);
    ("corrSFvsK_50", JNum (0) 1);
    ("corrSFvsK_60", JNum (0) 1);
    ("corrSFvsK_70", JNum (0) 1);
    ("corrSFvsK_80", JNum (0) 1);
    ("corrSFvsK_90", JNum (0) 1);
    ("corrZSDvsSF_10", JNum (-2) 2);
    ("corrZSDvsSF_20", JNum (0) 1);
    ("corrZSDvsSF_30", JNum (1) 2);
    ("corrZSDvsSF_40", JNum (1) 2);
    ("corrZSDvsSF_50", JNum (3) 2);
    ("corrZSDvsSF_60", JNum (3) 2);
    ("corrZSDvsSF_70", JNum (-2) 2);
    ("corrZSDvsSF_80", JNum (-5) 2);
    ("corrZSDvsSF_90", JNum (-12) 2);
    ("corrZSAvsSF_10", JNum (-31) 2);
    ("corrZSAvsSF_20", JNum (-32) 2);
    ("corrZSAvsSF_30", JNum (-33) 2);
    ("corrZSAvsSF_40", JNum (-33) 2);
    ("corrZSAvsSF_50", JNum (-41) 2);
    ("corrZSAvsSF_60", JNum (-40) 2);
    ("corrZSAvsSF_70", JNum (-36) 2);
    ("corrZSAvsSF_80", JNum (-37) 2);
    ("corrZSAvsSF_90", JNum (-33) 2);
    ("corrZSDvsK_10", JNum (0) 1);
    ("corrZSDvsK_20", JNum (0) 1);
    ("corrZSDvsK_30", JNum (0) 1);
    ("corrZSDvsK_40", JNum (0) 1);
    ("corrZSDvsK_50", JNum (0) 1);
    ("corrZSDvsK_60", JNum (0) 1);
    ("corrZSDvsK_70", JNum (0) 1);
    ("corrZSDvsK_80", JNum (0) 1);
    ("corrZSDvsK_90", JNum (0) 1);
    ("corrZSAvsK_10", JNum (0) 1);
    ("corrZSAvsK_20", JNum (0) 1);
    ("corrZSAvsK_30", JNum (0) 1);
    ("corrZSAvsK_40", JNum (0) 1);
    ("corrZSAvsK_50", JNum (0) 1);
    ("corrZSAvsK_60", JNum (0) 1);
    ("corrZSAvsK_70", JNum (0) 1);
    ("corrZSAvsK_80", JNum (0) 1);
    ("corrZSAvsK_90", JNum (0) 1);
    ("corrZSDvsDS_10", JNum (68) 2);
    ("corrZSDvsDS_20", JNum (72) 2);
    ("corrZSDvsDS_30", JNum (68) 2);
    ("corrZSDvsDS_40", JNum (67) 2);
    ("corrZSDvsDS_50", JNum (65) 2);
    ("corrZSDvsDS_60", JNum (67) 2);
    ("corrZSDvsDS_70", JNum (63) 2);
    ("corrZSDvsDS_80", JNum (61) 2);
    ("corrZSDvsDS_90", JNum (54) 2);
    ("corrZSAvsDS_10", JNum (6) 2);
    ("corrZSAvsDS_20", JNum (10) 2);
    ("corrZSAvsDS_30", JNum (11) 2);
    ("corrZSAvsDS_40", JNum (13) 2);
    ("corrZSAvsDS_50", JNum (-4) 2);
    ("corrZSAvsDS_60", JNum (-14) 2);
    ("corrZSAvsDS_70", JNum (-11) 2);
    ("corrZSAvsDS_80", JNum (-24) 2);
    ("corrZSAvsDS_90", JNum (-19) 2);
    ("corrZSDvsASD_10", JNum (52) 2);
    ("corrZSDvsASD_20", JNum (48) 2);
    ("corrZSDvsASD_30", JNum (59) 2);
    ("corrZSDvsASD_40", JNum (55) 2);
    ("corrZSDvsASD_50", JNum (54) 2);
    ("corrZSDvsASD_60", JNum (60) 2);
    ("corrZSDvsASD_70", JNum (64) 2);
    ("corrZSDvsASD_80", JNum (60) 2);
    ("corrZSDvsASD_90", JNum (60) 2);
    ("corrZSAvsASD_10", JNum (6) 2);
    ("corrZSAvsASD_20", JNum (12) 2);
    ("corrZSAvsASD_30", JNum (14) 2);
    ("corrZSAvsASD_40", JNum (18) 2);
    ("corrZSAvsASD_50", JNum (1) 2);
    ("corrZSAvsASD_60", JNum (-10) 2);
    ("corrZSAvsASD_70", JNum (-11) 2);
    ("corrZSAvsASD_80", JNum (-24) 2);
    ("corrZSAvsASD_90", JNum (-20) 2);
    ("corrZSDvsASA_10", JNum (4) 1);
    ("corrZSDvsASA_20", JNum (41) 2);
    ("corrZSDvsASA_30", JNum (34) 2);
    ("corrZSDvsASA_40", JNum (38) 2);
    ("corrZSDvsASA_50", JNum (31) 2);
    ("corrZSDvsASA_60", JNum (25) 2);
    ("corrZSDvsASA_70", JNum (23) 2);
    ("corrZSDvsASA_80", JNum (22) 2);
    ("corrZSDvsASA_90", JNum (29) 2);
    ("corrZSAvsASA_10", JNum (5) 2);
    ("corrZSAvsASA_20", JNum (13) 2);
    ("corrZSAvsASA_30", JNum (16) 2);
    ("corrZSAvsASA_40", JNum (16) 2);
    ("corrZSAvsASA_50", JNum (18) 2);
    ("corrZSAvsASA_60", JNum (21) 2);
    ("corrZSAvsASA_70", JNum (2) 2);
    ("corrZSAvsASA_80", JNum (-13) 2);
    ("corrZSAvsASA_90", JNum (-35) 2);
    ("corrZSDvsZSA_10", JNum (-2) 2);
    ("corrZSDvsZSA_20", JNum (4) 2);
    ("corrZSDvsZSA_30", JNum (9) 2);
    ("corrZSDvsZSA_40", JNum (11) 2);
    ("corrZSDvsZSA_50", JNum (0) 1);
    ("corrZSDvsZSA_60", JNum (-9) 2);
    ("corrZSDvsZSA_70", JNum (-15) 2);
    ("corrZSDvsZSA_80", JNum (-29) 2);
    ("corrZSDvsZSA_90", JNum (-33) 2) ].

(* /repo/OpenNTN/models/Urban_NLOS_S_band_DL.json *)
Definition tab_Urban_NLOS_S_band_DL : json_obj :=
  [ ("muDS_10", JNum (-721) 2);
    ("muDS_20", JNum (-763) 2);
    ("muDS_30", JNum (-775) 2);
    ("muDS_40", JNum (-797) 2);
    ("muDS_50", JNum (-799) 2);
    ("muDS_60", JNum (-801) 2);
    ("muDS_70", JNum (-809) 2);
    ("muDS_80", JNum (-797) 2);
    ("muDS_90", JNum (-817) 2);
    ("sigmaDS_10", JNum (119) 2);
    ("sigmaDS_20", JNum (98) 2);
    ("sigmaDS_30", JNum (84) 2);
    ("sigmaDS_40", JNum (73) 2);
    ("sigmaDS_50", JNum (73) 2);
    ("sigmaDS_60", JNum (72) 2);
    ("sigmaDS_70", JNum (71) 2);
    ("sigmaDS_80", JNum (78) 2);
    ("sigmaDS_90", JNum (67) 2);
    ("muASD_10", JStr "-inf");
    ("muASD_20", JStr "-inf");
    ("muASD_30", JStr "-inf");
    ("muASD_40", JStr "-inf");
    ("muASD_50", JStr "-inf");
    ("muASD_60", JStr "-inf");
    ("muASD_70", JStr "-inf");
    ("muASD_80", JStr "-inf");
    ("muASD_90", JStr "-inf");
    ("sigmaASD_10", JNum (0) 1);
    ("sigmaASD_20", JNum (0) 1);
    ("sigmaASD_30", JNum (0) 1);
    ("sigmaASD_40", JNum (0) 1);
    ("sigmaASD_50", JNum (0) 1);
    ("sigmaASD_60", JNum (0) 1);
    ("sigmaASD_70", JNum (0) 1);
    ("sigmaASD_80", JNum (0) 1);
    ("sigmaASD_90", JNum (0) 1);
    ("muASA_10", JNum (17) 2);
    ("muASA_20", JNum (32) 2);
    ("muASA_30", JNum (52) 2);
    ("muASA_40", JNum (61) 2);
    ("muASA_50", JNum (68) 2);
    ("muASA_60", JNum (64) 2);
    ("muASA_70", JNum (58) 2);
    ("muASA_80", JNum (71) 2);
    ("muASA_90", JNum (49) 2);
    ("sigmaASA_10", JNum (297) 2);
    ("sigmaASA_20", JNum (299) 2);
    ("sigmaASA_30", JNum (271) 2);
    ("sigmaASA_40", JNum (226) 2);
    ("sigmaASA_50", JNum (208) 2);
    ("sigmaASA_60", JNum (193) 2);
    ("sigmaASA_70", JNum (171) 2);
    ("sigmaASA_80", JNum (96) 2);
    ("sigmaASA_90", JNum (116) 2);
    ("muZSA_10", JNum (-97) 2);
    ("muZSA_20", JNum (49) 2);
    ("muZSA_30", JNum (103) 2);
    ("muZSA_40", JNum (112) 2);
    ("muZSA_50", JNum (130) 2);
    ("muZSA_60", JNum (132) 2);
    ("muZSA_70", JNum (135) 2);
    ("muZSA_80", JNum (131) 2);
    ("muZSA_90", JNum (150) 2);
    ("sigmaZSA_10", JNum (235) 2);
    ("sigmaZSA_20", JNum (211) 2);
    ("sigmaZSA_30", JNum (129) 2);
    ("sigmaZSA_40", JNum (145) 2);
    ("sigmaZSA_50", JNum (107) 2);
    ("sigmaZSA_60", JNum (120) 2);
    ("sigmaZSA_70", JNum (110) 2);
    ("sigmaZSA_80", JNum (135) 2);
    ("sigmaZSA_90", JNum (56) 2);
    ("muZSD_10", JStr "-inf");
    ("muZSD_20", JStr "-inf");
    ("muZSD_30", JStr "-inf");
    ("muZSD_40", JStr "-inf");
    ("muZSD_50", JStr "-inf");
    ("muZSD_60", JStr "-inf");
    ("muZSD_70", JStr "-inf");
    ("muZSD_80", JStr "-inf");
    ("muZSD_90", JStr "-inf");
    ("sigmaZSD_10", JNum (0) 1);
    ("sigmaZSD_20", JNum (0) 1);
    ("sigmaZSD_30", JNum (0) 1);
    ("sigmaZSD_40", JNum (0) 1);
    ("sigmaZSD_50", JNum (0) 1);
    ("sigmaZSD_60", JNum (0) 1);
    ("sigmaZSD_70", JNum (0) 1);
    ("sigmaZSD_80", JNum (0) 1);
    ("sigmaZSD_90", JNum (0) 1);
    ("sigmaSF_10", JNum (60) 1);
    ("sigmaSF_20", JNum (60) 1);
    ("sigmaSF_30", JNum (60) 1);
    ("sigmaSF_40", JNum (60) 1);
    ("sigmaSF_50", JNum (60) 1);
    ("sigmaSF_60", JNum (60) 1);
    ("sigmaSF_70", JNum (60) 1);
    ("sigmaSF_80", JNum (60) 1);
    ("sigmaSF_90", JNum (60) 1);
    ("CL_10", JNum (343) 1);
    ("CL_20", JNum (309) 1);
    ("CL_30", JNum (290) 1);
    ("CL_40", JNum (277) 1);
    ("CL_50", JNum (268) 1);
    ("CL_60", JNum (262) 1);
    ("CL_70", JNum (258) 1);
    ("CL_80", JNum (255) 1);
    ("CL_90", JNum (255) 1);
    ("muK_10", JNum (0) 1);
    ("muK_20", JNum (0) 1);
    ("muK_30", JNum (0) 1);
    ("muK_40", JNum (0) 1);
    ("muK_50", JNum (0) 1);
    ("muK_60", JNum (0) 1);
    ("muK_70", JNum (0) 1);
    ("muK_80", JNum (0) 1);
    ("muK_90", JNum (0) 1);
    ("sigmaK_10", JNum (0) 1);
    ("sigmaK_20", JNum (0) 1);
    ("sigmaK_30", JNum (0) 1);
    ("sigmaK_40", JNum (0) 1);
    ("sigmaK_50", JNum (0) 1);
    ("sigmaK_60", JNum (0) 1);
    ("sigmaK_70", JNum (0) 1);
    ("sigmaK_80", JNum (0) 1);
    ("sigmaK_90", JNum (0) 1);
    ("muXPR_10", JNum (70) 1);
    ("muXPR_20", JNum (70) 1);
    ("muXPR_30", JNum (70) 1);
    ("muXPR_40", JNum (70) 1);
    ("muXPR_50", JNum (70) 1);
    ("muXPR_60", JNum (70) 1);
    ("muXPR_70", JNum (70) 1);
    ("muXPR_80", JNum (70) 1);
    ("muXPR_90", JNum (70) 1);
    ("sigmaXPR_10", JNum (30) 1);
    ("sigmaXPR_20", JNum (30) 1);
    ("sigmaXPR_30", JNum (30) 1);
    ("sigmaXPR_40", JNum (30) 1);
    ("sigmaXPR_50", JNum (30) 1);
    ("sigmaXPR_60", JNum (30) 1);
    ("sigmaXPR_70", JNum (30) 1);
    ("sigmaXPR_80", JNum (30) 1);
    ("sigmaXPR_90", JNum (30) 1);
    ("rTau_10", JNum (23) 1);
    ("rTau_20", JNum (23) 1);
    ("rTau_30", JNum (23) 1);
    ("rTau_40", JNum (23) 1);
    ("rTau_50", JNum (23) 1);
    ("rTau_60", JNum (23) 1);
    ("rTau_70", JNum (23) 1);
    ("rTau_80", JNum (23) 1);
    ("rTau_90", JNum (23) 1);
    ("numClusters_10", JInt (3));
    ("numClusters_20", JInt (3));
    ("numClusters_30", JInt (3));
    ("numClusters_40", JInt (3));
    ("numClusters_50", JInt (3));
    ("numClusters_60", JInt (3));
    ("numClusters_70", JInt (2));
    ("numClusters_80", JInt (2));
    ("numClusters_90", JInt (2));
    ("zeta_10", JNum (30) 1);
    ("zeta_20", JNum (30) 1);
    ("zeta_30", JNum (30) 1);
    ("zeta_40", JNum (30) 1);
    ("zeta_50", JNum (30) 1);
    ("zeta_60", JNum (30) 1);
    ("zeta_70", JNum (30) 1);
    ("zeta_80", JNum (30) 1);
    ("zeta_90", JNum (30) 1);
    ("cDS_10", JNum (39) 1);
    ("cDS_20", JNum (39) 1);
    ("cDS_30", JNum (39) 1);
    ("cDS_40", JNum (39) 1);
    ("cDS_50", JNum (39) 1);
    ("cDS_60", JNum (39) 1);
    ("cDS_70", JNum (39) 1);
    ("cDS_80", JNum (39) 1);
    ("cDS_90", JNum (39) 1);
    ("cASD_10", JNum (8) 2);
    ("cASD_20", JNum (10) 2);
    ("cASD_30", JNum (14) 2);
    ("cASD_40", JNum (23) 2);
    ("cASD_50", JNum (33) 2);
    ("cASD_60", JNum (53) 2);
    ("cASD_70", JNum (100) 2);
    ("cASD_80", JNum (140) 2);
    ("cASD_90", JNum (663) 2);
    ("cASA_10", JNum (1507) 2);
    ("cASA_20", JNum (1620) 2);
    ("cASA_30", JNum (1814) 2);
    ("cASA_40", JNum (1996) 2);
    ("cASA_50", JNum (2153) 2);
    ("cASA_60", JNum (2244) 2);
    ("cASA_70", JNum (2359) 2);
    ("cASA_80", JNum (2657) 2);
    ("cASA_90", JNum (3270) 2);
    ("cZSA_10", JNum (166) 2);
    ("cZSA_20", JNum (471) 2);
    ("cZSA_30", JNum (733) 2);
    ("cZSA_40", JNum (982) 2);
    ("cZSA_50", JNum (1152) 2);
    ("cZSA_60", JNum (1175) 2);
    ("cZSA_70", JNum (1093) 2);
    ("cZSA_80", JNum (1219) 2);
    ("cZSA_90", JNum (1668) 2);
    ("LoS_p_10", JNum (246) 3);
    ("LoS_p_20", JNum (386) 3);
    ("LoS_p_30", JNum (493) 3);
    ("LoS_p_40", JNum (613) 3);
    ("LoS_p_50", JNum (726) 3);
    ("LoS_p_60", JNum (805) 3);
    ("LoS_p_70", JNum (919) 3);
    ("LoS_p_80", JNum (968) 3);
    ("LoS_p_90", JNum (992) 3);
    ("CPhiNLoS", JNum (680) 3);
    ("CThetaNLoS", JNum (594) 3);
    ("corrDistDS_10", JNum (400) 1);
    ("corrDistDS_20", JNum (400) 1);
    ("corrDistDS_30", JNum (400) 1);
    ("corrDistDS_40", JNum (400) 1);
    ("corrDistDS_50", JNum (400) 1);
    ("corrDistDS_60", JNum (400) 1);
    ("corrDistDS_70", JNum (400) 1);
    ("corrDistDS_80", JNum (400) 1);
    ("corrDistDS_90", JNum (400) 1);
    ("corrDistASD_10", JNum (500) 1);
    ("corrDistASD_20", JNum (500) 1);
    ("corrDistASD_30", JNum (500) 1);
    ("corrDistASD_40", JNum (500) 1);
    ("corrDistASD_50", JNum (500) 1);
    ("corrDistASD_60", JNum (500) 1);
    ("corrDistASD_70", JNum (500) 1);
    ("corrDistASD_80", JNum (500) 1);
    ("corrDistASD_90", JNum (500) 1);
    ("corrDistASA_10", JNum (500) 1);
    ("corrDistASA_20", JNum (500) 1);
    ("corrDistASA_30", JNum (500) 1);
    ("corrDistASA_40", JNum (500) 1);
    ("corrDistASA_50", JNum (500) 1);
    ("corrDistASA_60", JNum (500) 1);
    ("corrDistASA_70", JNum (500) 1);
    ("corrDistASA_80", JNum (500) 1);
    ("corrDistASA_90", JNum (500) 1);
    ("corrDistSF_10", JNum (500) 1);
    ("corrDistSF_20", JNum (500) 1);
    ("corrDistSF_30", JNum (500) 1);
    ("corrDistSF_40", JNum (500) 1);
    ("corrDistSF_50", JNum (500) 1);
    ("corrDistSF_60", JNum (500) 1);
    ("corrDistSF_70", JNum (500) 1);
    ("corrDistSF_80", JNum (500) 1);
    ("corrDistSF_90", JNum (500) 1);
    ("corrDistK_10", JNum (10) 1);
    ("corrDistK_20", JNum (10) 1);
    ("corrDistK_30", JNum (10) 1);
    ("corrDistK_40", JNum (10) 1);
    ("corrDistK_50", JNum (10) 1);
    ("corrDistK_60", JNum (10) 1);
    ("corrDistK_70", JNum (10) 1);
    ("corrDistK_80", JNum (10) 1);
    ("corrDistK_90", JNum (10) 1);
    ("corrDistZSA_10", JNum (500) 1);
    ("corrDistZSA_20", JNum (500) 1);
    ("corrDistZSA_30", JNum (500) 1);
    ("corrDistZSA_40", JNum (500) 1);
    ("corrDistZSA_50", JNum (500) 1);
    ("corrDistZSA_60", JNum (500) 1);
    ("corrDistZSA_70", JNum (500) 1);
    ("corrDistZSA_80", JNum (500) 1);
    ("corrDistZSA_90", JNum (500) 1);
    ("corrDistZSD_10", JNum (500) 1);
    ("corrDistZSD_20", JNum (500) 1);
    ("corrDistZSD_30", JNum (500) 1);
    ("corrDistZSD_40", JNum (500) 1);
    ("corrDistZSD_50", JNum (500) 1);
    ("corrDistZSD_60", JNum (500) 1);
    ("corrDistZSD_70", JNum (500) 1);
    ("corrDistZSD_80", JNum (500) 1);
    ("corrDistZSD_90", JNum (500) 1);
    ("corrASDvsDS_10", JNum (0) 1);
    ("corrASDvsDS_20", JNum (0) 1);
    ("corrASDvsDS_30", JNum (0) 1);
    ("corrASDvsDS_40", JNum (0) 1);
    ("corrASDvsDS_50", JNum (0) 1);
    ("corrASDvsDS_60", JNum (0) 1);
    ("corrASDvsDS_70", JNum (0) 1);
    ("corrASDvsDS_80", JNum (0) 1);
    ("corrASDvsDS_90", JNum (0) 1);
    ("corrASAvsDS_10", JNum (38) 2);
    ("corrASAvsDS_20", JNum (36) 2);
    ("corrASAvsDS_30", JNum (27) 2);
    ("corrASAvsDS_40", JNum (29) 2);
    ("corrASAvsDS_50", JNum (21) 2);
    ("corrASAvsDS_60", JNum (24) 2);
    ("corrASAvsDS_70", JNum (22) 2);
    ("corrASAvsDS_80", JNum (24) 2);
    ("corrASAvsDS_90", JNum (24) 2);
    ("corrASAvsSF_10", JNum (-5) 2);
    ("corrASAvsSF_20", JNum (-4) 2);
    ("corrASAvsSF_30", JNum (-4) 2);
    ("corrASAvsSF_40", JNum (-4) 2);
    ("corrASAvsSF_50", JNum (-3) 2);
    ("corrASAvsSF_60", JNum (-5) 2);
    ("corrASAvsSF_70", JNum (-2) 2);
    ("corrASAvsSF_80", JNum (-1) 2);
    ("corrASAvsSF_90", JNum (0) 1);
    ("corrASDvsSF_10", JNum (0) 1);
    ("corrASDvsSF_20", JNum (0) 1);
    ("corrASDvsSF_30", JNum (0) 1);
    ("corrASDvsSF_40", JNum (0) 1);
    ("corrASDvsSF_50", JNum (0) 1);
    ("corrASDvsSF_60", JNum (0) 1);
    ("corrASDvsSF_70", JNum (0) 1);
    ("corrASDvsSF_80", JNum (0) 1);
    ("corrASDvsSF_90", JNum (0) 1);
    ("corrDSvsSF_10", JNum (-22) 2);
    ("corrDSvsSF_20", JNum (-26) 2);
    ("corrDSvsSF_30", JNum (-21) 2);
    ("corrDSvsSF_40", JNum (-25) 2);
    ("corrDSvsSF_50", JNum (-21) 2);
    ("corrDSvsSF_60", JNum (-19) 2);
    ("corrDSvsSF_70", JNum (-19) 2);
    ("corrDSvsSF_80", JNum (-20) 2);
    ("corrDSvsSF_90", JNum (-20) 2);
    ("corrASDvsASA_10", JNum (0) 1);
    ("corrASDvsASA_20", JNum (0) 1);
    ("corrASDvsASA_30", JNum (0) 1);
    ("corrASDvsASA_40", JNum (0) 1);
    ("corrASDvsASA_50", JNum (0) 1);
    ("corrASDvsASA_60", JNum (0) 1);
    ("corrASDvsASA_70", JNum (0) 1);
    ("corrASDvsASA_80", JNum (0) 1);
    ("corrASDvsASA_90", JNum (0) 1);
    ("corrASDvsK_10", JNum (0) 1);
    ("corrASDvsK_20", JNum (0) 1);
    ("corrASDvsK_30", JNum (0) 1);
    ("corrASDvsK_40", JNum (0) 1);
    ("corrASDvsK_50", JNum (0) 1);
    ("corrASDvsK_60", JNum (0) 1);
    ("corrASDvsK_70", JNum (0) 1);
    ("corrASDvsK_80", JNum (0) 1);
    ("corrASDvsK_90", JNum (0) 1);
    ("corrASAvsK_10", JNum (0) 1);
    ("corrASAvsK_20", JNum (0) 1);
    ("corrASAvsK_30", JNum (0) 1);
    ("corrASAvsK_40", JNum (0) 1);
    ("corrASAvsK_50", JNum (0) 1);
    ("corrASAvsK_60", JNum (0) 1);
    ("corrASAvsK_70", JNum (0) 1);
    ("corrASAvsK_80", JNum (0) 1);
    ("corrASAvsK_90", JNum (0) 1);
    ("corrDSvsK_10", JNum (0) 1);
    ("corrDSvsK_20", JNum (0) 1);
    ("corrDSvsK_30", JNum (0) 1);
    ("corrDSvsK_40", JNum (0) 1);
    ("corrDSvsK_50", JNum (0) 1);
    ("corrDSvsK_60", JNum (0) 1);
    ("corrDSvsK_70", JNum (0) 1);
    ("corrDSvsK_80", JNum (0) 1);
    ("corrDSvsK_90", JNum (0) 1);
    ("corrSFvsK_10", JNum (0) 1);
    ("corrSFvsK_20", JNum (0) 1);
    ("corrSFvsK_30", JNum (0) 1);
    ("corrSFvsK_40", JNum (0) 1);
    ("corrSFvsK_50", JNum (0) 1);
    ("corrSFvsK_60", JNum (0) 1);
    ("corrSFvsK_70", JNum (0) 1);
    ("corrSFvsK_80", JNum (0) 1);
    ("corrSFvsK_90", JNum (0) 1);
    ("corrZSDvsSF_10", JNum (0) 1);
    ("corrZSDvsSF_20", JNum (0) 1);
    ("corrZSDvsSF_30", JNum (0) 1);
    ("corrZSDvsSF_40", JNum (0) 1);
    ("corrZSDvsSF_50", JNum (0) 1);
    ("corrZSDvsSF_60", JNum (0) 1);
    ("corrZSDvsSF_70", JNum (0) 1);
    ("corrZSDvsSF_80", JNum (0) 1);
    ("corrZSDvsSF_90", JNum (0) 1);
    ("corrZSAvsSF_10", JNum (-31) 2);
    ("corrZSAvsSF_20", JNum (-33) 2);
    ("corrZSAvsSF_30", JNum (-33) 2);
    ("corrZSAvsSF_40", JNum (-33) 2);
    ("corrZSAvsSF_50", JNum (-38) 2);
    ("corrZSAvsSF_60", JNum (-39) 2);
    ("corrZSAvsSF_70", JNum (-37) 2);
    ("corrZSAvsSF_80", JNum (-37) 2);
    ("corrZSAvsSF_90", JNum (-36) 2);
    ("corrZSDvsK_10", JNum (0) 1);
    ("corrZSDvsK_20", JNum (0) 1);
    ("corrZSDvsK_30", JNum (0) 1);
    ("corrZSDvsK_40", JNum (0) 1);
    ("corrZSDvsK_50", JNum (0) 1);
    ("corrZSDvsK_60", JNum (0) 1);
    ("corrZSDvsK_70", JNum (0) 1);
    ("corrZSDvsK_80", JNum (0) 1);
    ("corrZSDvsK_90", JNum (0) 1);
    ("corrZSAvsK_10", JNum (0) 1);
    ("corrZSAvsK_20", JNum (0) 1);
    ("corrZSAvsK_30", JNum (0) 1);
    ("corrZSAvsK_40", JNum (0) 1);
    ("corrZSAvsK_50", JNum (0) 1);
    ("corrZSAvsK_60", JNum (0) 1);
    ("corrZSAvsK_70", JNum (0) 1);
    ("corrZSAvsK_80", JNum (0) 1);
    ("corrZSAvsK_90", JNum (0) 1);
    ("corrZSDvsDS_10", JNum (0) 1);
    ("corrZSDvsDS_20", JNum (0) 1);
    ("corrZSDvsDS_30", JNum (0) 1);
    ("corrZSDvsDS_40", JNum (0) 1);
    ("corrZSDvsDS_50", JNum (0) 1);
    ("corrZSDvsDS_60", JNum (0) 1);
    ("corrZSDvsDS_70", JNum (0) 1);
    ("corrZSDvsDS_80", JNum (0) 1);
    ("corrZSDvsDS_90", JNum (0) 1);
    ("corrZSAvsDS_10", JNum (5) 2);
    ("corrZSAvsDS_20", JNum (9) 2);
    ("corrZSAvsDS_30", JNum (9) 2);
    ("corrZSAvsDS_40", JNum (9) 2);
    ("corrZSAvsDS_50", JNum (-3) 2);
    ("corrZSAvsDS_60", JNum (-15) 2);
    ("corrZSAvsDS_70", JNum (-13) 2);
    ("corrZSAvsDS_80", JNum (-29) 2);
    ("corrZSAvsDS_90", JNum (-19) 2);
    ("corrZSDvsASD_10", JNum (0) 1);
    ("corrZSDvsASD_20", JNum (0) 1);
    ("corrZSDvsASD_30", JNum (0) 1);
    ("corrZSDvsASD_40", JNum (0) 1);
    ("corrZSDvsASD_50", JNum (0) 1);
    ("corrZSDvsASD_60", JNum (0) 1);
    ("corrZSDvsASD_70", JNum (0) 1);
    ("corrZSDvsASD_80", JNum (0) 1);
    ("corrZSDvsASD_90", JNum (0) 1);
    ("corrZSAvsASD_10", JNum (0) 1);
    ("corrZSAvsASD_20", JNum (0) 1);
    ("corrZSAvsASD_30", JNum (0) 1);
    ("corrZSAvsASD_40", JNum (0) 1);
    ("corrZSAvsASD_50", JNum (0) 1);
    ("corrZSAvsASD_60", JNum (0) 1);
    ("corrZSAvsASD_70", JNum (0) 1);
    ("corrZSAvsASD_80", JNum (0) 1);
    ("corrZSAvsASD_90", JNum (0) 1);
    ("corrZSDvsASA_10", JNum (0) 1);
    ("corrZSDvsASA_20", JNum (0) 1);
    ("corrZSDvsASA_30", JNum (0) 1);
    ("corrZSDvsASA_40", JNum (0) 1);
    ("corrZSDvsASA_50", JNum (0) 1);
    ("corrZSDvsASA_60", JNum (0) 1);
    ("corrZSDvsASA_70", JNum (0) 1);
    ("corrZSDvsASA_80", JNum (0) 1);
    ("corrZSDvsASA_90", JNum (0) 1);
    ("corrZSAvsASA_10", JNum (4) 2);
    ("corrZSAvsASA_20", JNum (13) 2);
    ("corrZSAvsASA_30", JNum (16) 2);
    ("corrZSAvsASA_40", JNum (13) 2);
    ("corrZSAvsASA_50", JNum (13) 2);
    ("corrZSAvsASA_60", JNum (14) 2);
    ("corrZSAvsASA_70", JNum (-2) 2);
    ("corrZSAvsASA_80", JNum (-2) 1);
    ("corrZSAvsASA_90", JNum (-46) 2);
    ("corrZSDvsZSA_10", JNum (0) 1);
    ("corrZSDvsZSA_20", JNum (0) 1);
    ("corrZSDvsZSA_30", JNum (0) 1);
    ("corrZSDvsZSA_40", JNum (0) 1);
    ("corrZSDvsZSA_50", JNum (0) 1);
    ("corrZSDvsZSA_60", JNum (0) 1);
    ("corrZSDvsZSA_70", JNum (0) 1);
    ("corrZSDvsZSA_80", JNum (0) 1);
    ("corrZSDvsZSA_90", JNum (0) 1) ].

(* /repo/OpenNTN/models/Urban_NLOS_S_band_UL.json *)
Definition tab_Urban_NLOS_S_band_UL : json_obj :=
  [ ("muDS_10", JNum (-721) 2);
    ("muDS_20", JNum (-763) 2);
    ("muDS_30", JNum (-775) 2);
    ("muDS_40", JNum (-797) 2);
    ("muDS_50", JNum (-799) 2);
    ("muDS_60", JNum (-801) 2);
    ("muDS_70", JNum (-809) 2);
    ("muDS_80", JNum (-797) 2);
    ("muDS_90", JNum (-817) 2);
    ("sigmaDS_10", JNum (119) 2);
    ("sigmaDS_20", JNum (98) 2);
    ("sigmaDS_30", JNum (84) 2);
    ("sigmaDS_40", JNum (73) 2);
    ("sigmaDS_50", JNum (73) 2);
    ("sigmaDS_60", JNum (72) 2);
    ("sigmaDS_70", JNum (71) 2);
    ("sigmaDS_80", JNum (78) 2);
    ("sigmaDS_90", JNum (67) 2);
    ("muASD_10", JNum (-155) 2);
    ("muASD_20", JNum (-161) 2);
    ("muASD_30", JNum (-173) 2);
    ("muASD_40", JNum (-195) 2);
    ("muASD_50", JNum (-194) 2);
    ("muASD_60", JNum (-188) 2);
    ("muASD_70", JNum (-210) 2);
    ("muASD_80", JNum (-180) 2);
    ("muASD_90", JNum (-177) 2);
    ("sigmaASD_10", JNum (87) 2);
    ("sigmaASD_20", JNum (88) 2);
    ("sigmaASD_30", JNum (115) 2);
    ("sigmaASD_40", JNum (113) 2);
    ("sigmaASD_50", JNum (121) 2);
    ("sigmaASD_60", JNum (99) 2);
    ("sigmaASD_70", JNum (177) 2);
    ("sigmaASD_80", JNum (154) 2);
    ("sigmaASD_90", JNum (140) 2);
    ("muASA_10", JNum (17) 2);
    ("muASA_20", JNum (32) 2);
    ("muASA_30", JNum (52) 2);
    ("muASA_40", JNum (61) 2);
    ("muASA_50", JNum (68) 2);
    ("muASA_60", JNum (64) 2);
    ("muASA_70", JNum (58) 2);
    ("muASA_80", JNum (71) 2);
    ("muASA_90", JNum (49) 2);
    ("sigmaASA_10", JNum (297) 2);
    ("sigmaASA_20", JNum (299) 2);
    ("sigmaASA_30", JNum (271) 2);
    ("sigmaASA_40", JNum (226) 2);
    ("sigmaASA_50", JNum (208) 2);
    ("sigmaASA_60", JNum (193) 2);
    ("sigmaASA_70", JNum (171) 2);
    ("sigmaASA_80", JNum (96) 2);
    ("sigmaASA_90", JNum (116) 2);
    ("muZSA_10", JNum (-97) 2);
    ("muZSA_20", JNum (49) 2);
    ("muZSA_30", JNum (103) 2);
    ("muZSA_40", JNum (112) 2);
    ("muZSA_50", JNum (130) 2);
    ("muZSA_60", JNum (132) 2);
    ("muZSA_70", JNum (135) 2);
    ("muZSA_80", JNum (131) 2);
    ("muZSA_90", JNum (150) 2);
    ("sigmaZSA_10", JNum (235) 2);
    ("sigmaZSA_20", JNum (211) 2);
    ("sigmaZSA_30", JNum (129) 2);
    ("sigmaZSA_40", JNum (145) 2);
    ("sigmaZSA_50", JNum (107) 2);
    ("sigmaZSA_60", JNum (120) 2);
    ("sigmaZSA_70", JNum (110) 2);
    ("sigmaZSA_80", JNum (135) 2);
    ("sigmaZSA_90", JNum (56) 2);
    ("muZSD_10", JNum (-286) 2);
    ("muZSD_20", JNum (-264) 2);
    ("muZSD_30", JNum (-205) 2);
    ("muZSD_40", JNum (-218) 2);
    ("muZSD_50", JNum (-224) 2);
    ("muZSD_60", JNum (-221) 2);
    ("muZSD_70", JNum (-269) 2);
    ("muZSD_80", JNum (-281) 2);
    ("muZSD_90", JNum (-429) 2);
    ("sigmaZSD_10", JNum (277) 2);
    ("sigmaZSD_20", JNum (279) 2);
    ("sigmaZSD_30", JNum (153) 2);
    ("sigmaZSD_40", JNum (167) 2);
    ("sigmaZSD_50", JNum (195) 2);
    ("sigmaZSD_60", JNum (187) 2);
    ("sigmaZSD_70", JNum (272) 2);
    ("sigmaZSD_80", JNum (298) 2);
    ("sigmaZSD_90", JNum (437) 2);
    ("sigmaSF_10", JNum (60) 1);
    ("sigmaSF_20", JNum (60) 1);
    ("sigmaSF_30", JNum (60) 1);
    ("sigmaSF_40", JNum (60) 1);
    ("sigmaSF_50", JNum (60) 1);
    ("sigmaSF_60", JNum (60) 1);
    ("sigmaSF_70", JNum (60) 1);
    ("sigmaSF_80", JNum (60) 1);
    ("sigmaSF_90", JNum (60) 1);
    ("CL_10", JNum (343) 1);
    ("CL_20", JNum (309) 1);
    ("CL_30", JNum (290) 1);
    ("CL_40", JNum (277) 1);
    ("CL_50", JNum (268) 1);
    ("CL_60", JNum (262) 1);
    ("CL_70", JNum (258) 1);
    ("CL_80", JNum (255) 1);
    ("CL_90", JNum (255) 1);
    ("muK_10", JNum (0) 1);
    ("muK_20", JNum (0) 1);
    ("muK_30", JNum (0) 1);
    ("muK_40", JNum (0) 1);
    ("muK_50", JNum (0) 1);
    ("muK_60", JNum (0) 1);
    ("muK_70", JNum (0) 1);
    ("muK_80", JNum (0) 1);
    ("muK_90", JNum (0) 1);
    ("sigmaK_10", JNum (0) 1);
    ("sigmaK_20", JNum (0) 1);
    ("sigmaK_30", JNum (0) 1);
    ("sigmaK_40", JNum (0) 1);
    ("sigmaK_50", JNum (0) 1);
    ("sigmaK_60", JNum (0) 1);
    ("sigmaK_70", JNum (0) 1);
    ("sigmaK_80", JNum (0) 1);
    ("sigmaK_90", JNum (0) 1);
    ("muXPR_10", JNum (70) 1);
    ("muXPR_20", JNum (70) 1);
    ("muXPR_30", JNum (70) 1);
    ("muXPR_40", JNum (70) 1);
    ("muXPR_50", JNum (70) 1);
    ("muXPR_60", JNum (70) 1);
    ("muXPR_70", JNum (70) 1);
    ("muXPR_80", JNum (70) 1);
    ("muXPR_90", JNum (70) 1);
    ("sigmaXPR_10", JNum (30) 1);
    ("sigmaXPR_20", JNum (30) 1);
    ("sigmaXPR_30", JNum (30) 1);
    ("sigmaXPR_40", JNum (30) 1);
    ("sigmaXPR_50", JNum (30) 1);
    ("sigmaXPR_60", JNum (30) 1);
    ("sigmaXPR_70", JNum (30) 1);
    ("sigmaXPR_80", JNum (30) 1);
    ("sigmaXPR_90", JNum (30) 1);
    ("rTau_10", JNum (23) 1);
    ("rTau_20", JNum (23) 1);
    ("rTau_30", JNum (23) 1);
    ("rTau_40", JNum (23) 1);
    ("rTau_50", JNum (23) 1);
    ("rTau_60", JNum (23) 1);
    ("rTau_70", JNum (23) 1);
    ("rTau_80", JNum (23) 1);
    ("rTau_90", JNum (23) 1);
    ("numClusters_10", JInt (3));
    ("numClusters_20", JInt (3));
    ("numClusters_30", JInt (3));
    ("numClusters_40", JInt (3));
    ("numClusters_50", JInt (3));
    ("numClusters_60", JInt (3));
    ("numClusters_70", JInt (2));
    ("numClusters_80", JInt (2));
    ("numClusters_90", JInt (2));
    ("zeta_10", JNum (30) 1);
    ("zeta_20", JNum (30) 1);
    ("zeta_30", JNum (30) 1);
    ("zeta_40", JNum (30) 1);
    ("zeta_50", JNum (30) 1);
    ("zeta_60", JNum (30) 1);
    ("zeta_70", JNum (30) 1);
    ("zeta_80", JNum (30) 1);
    ("zeta_90", JNum (30) 1);
    ("cDS_10", JNum (39) 1);
    ("cDS_20", JNum (39) 1);
    ("cDS_30", JNum (39) 1);
    ("cDS_40", JNum (39) 1);
    ("cDS_50", JNum (39) 1);
    ("cDS_60", JNum (39) 1);
    ("cDS_70", JNum (39) 1);
    ("cDS_80", JNum (39) 1);
    ("cDS_90", JNum (39) 1);
    ("cASD_10", JNum (8) 2);
    ("cASD_20", JNum (10) 2);
    ("cASD_30", JNum (14) 2);
    ("cASD_40", JNum (23) 2);
    ("cASD_50", JNum (33) 2);
    ("cASD_60", JNum (53) 2);
    ("cASD_70", JNum (100) 2);
    ("cASD_80", JNum (140) 2);
    ("cASD_90", JNum (663) 2);
    ("cASA_10", JNum (1507) 2);
    ("cASA_20", JNum (1620) 2);
    ("cASA_30", JNum (1814) 2);
    ("cASA_40", JNum (1996) 2);
    ("cASA_50", JNum (2153) 2);
    ("cASA_60", JNum (2244) 2);
    ("cASA_70", JNum (2359) 2);
    ("cASA_80", JNum (2657) 2);
    ("cASA_90", JNum (3270) 2);
    ("cZSA_10", JNum (166) 2);
    ("cZSA_20", JNum (471) 2);
    ("cZSA_30", JNum (733) 2);
    ("cZSA_40", JNum (982) 2);
    ("cZSA_50", JNum (1152) 2);
    ("cZSA_60", JNum (1175) 2);
    ("cZSA_70", JNum (1093) 2);
    ("cZSA_80", JNum (1219) 2);
    ("cZSA_90", JNum (1668) 2);
    ("LoS_p_10", JNum (246) 3);
    ("LoS_p_20", JNum (386) 3);
    ("LoS_p_30", JNum (493) 3);
    ("LoS_p_40", JNum (613) 3);
    ("LoS_p_50", JNum (726) 3);
    ("LoS_p_60", JNum (805) 3);
    ("LoS_p_70", JNum (919) 3);
    ("LoS_p_80", JNum (968) 3);
    ("LoS_p_90", JNum (992) 3);
    ("CPhiNLoS", JNum (680) 3);
    ("CThetaNLoS", JNum (594) 3);
    ("corrDistDS_10", JNum (400) 1);
    ("corrDistDS_20", JNum (400) 1);
    ("corrDistDS_30", JNum (400) 1);
    ("corrDistDS_40", JNum (400) 1);
    ("corrDistDS_50", JNum (400) 1);
    ("corrDistDS_60", JNum (400) 1);
    ("corrDistDS_70", JNum (400) 1);
    ("corrDistDS_80", JNum (400) 1);
    ("corrDistDS_90", JNum (400) 1);
    ("corrDistASD_10", JNum (500) 1);
    ("corrDistASD_20", JNum (500) 1);
    ("corrDistASD_30", JNum (500) 1);
    ("corrDistASD_40", JNum (500) 1);
    ("corrDistASD_50", JNum (500) 1);
    ("corrDistASD_60", JNum (500) 1);
    ("corrDistASD_70", JNum (500) 1);
    ("corrDistASD_80", JNum (500) 1);
    ("corrDistASD_90", JNum (500) 1);
    ("corrDistASA_10", JNum (500) 1);
    ("corrDistASA_20", JNum (500) 1);
    ("corrDistASA_30", JNum (500) 1);
    ("corrDistASA_40", JNum (500) 1);
    ("corrDistASA_50", JNum (500) 1);
    ("corrDistASA_60", JNum (500) 1);
    ("corrDistASA_70", JNum (500) 1);
    ("corrDistASA_80", JNum (500) 1);
    ("corrDistASA_90", JNum (500) 1);
    ("corrDistSF_10", JNum (500) 1);
    ("corrDistSF_20", JNum (500) 1);
    ("corrDistSF_30", JNum (500) 1);
    ("corrDistSF_40", JNum (500) 1);
    ("corrDistSF_50", JNum (500) 1);
    ("corrDistSF_60", JNum (500) 1);
    ("corrDistSF_70", JNum (500) 1);
    ("corrDistSF_80", JNum (500) 1);
    ("corrDistSF_90", JNum (500) 1);
    ("corrDistK_10", JNum (10) 1);
    ("corrDistK_20", JNum (10) 1);
    ("corrDistK_30", JNum (10) 1);
    ("corrDistK_40", JNum (10) 1);
    ("corrDistK_50", JNum (10) 1);
    ("corrDistK_60", JNum (10) 1);
    ("corrDistK_70", JNum (10) 1);
    ("corrDistK_80", JNum (10) 1);
    ("corrDistK_90", JNum (10) 1);
    ("corrDistZSA_10", JNum (500) 1);
    ("corrDistZSA_20", JNum (500) 1);
    ("corrDistZSA_30", JNum (500) 1);
    ("corrDistZSA_40", JNum (500) 1);
    ("corrDistZSA_50", JNum (500) 1);
    ("corrDistZSA_60", JNum (500) 1);
    ("corrDistZSA_70", JNum (500) 1);
    ("corrDistZSA_80", JNum (500) 1);
    ("corrDistZSA_90", JNum (500) 1);
    ("corrDistZSD_10", JNum (500) 1);
    ("corrDistZSD_20", JNum (500) 1);
    ("corrDistZSD_30", JNum (500) 1);
    ("corrDistZSD_40", JNum (500) 1);
    ("corrDistZSD_50", JNum (500) 1);
    ("corrDistZSD_60", JNum (500) 1);
    ("corrDistZSD_70", JNum (500) 1);
    ("corrDistZSD_80", JNum (500) 1);
    ("corrDistZSD_90", JNum (500) 1);
    ("corrASDvsDS_10", JNum (54) 2);
    ("corrASDvsDS_20", JNum (46) 2);
    ("corrASDvsDS_30", JNum (56) 2);
    ("corrASDvsDS_40", JNum (52) 2);
    ("corrASDvsDS_50", JNum (60) 2);
    ("corrASDvsDS_60", JNum (59) 2);
    ("corrASDvsDS_70", JNum (60) 2);
    ("corrASDvsDS_80", JNum (57) 2);
    ("corrASDvsDS_90", JNum (64) 2);
    ("corrASAvsDS_10", JNum (38) 2);
    ("corrASAvsDS_20", JNum (36) 2);
    ("corrASAvsDS_30", JNum (27) 2);
    ("corrASAvsDS_40", JNum (29) 2);
    ("corrASAvsDS_50", JNum (21) 2);
    ("corrASAvsDS_60", JNum (24) 2);
    ("corrASAvsDS_70", JNum (22) 2);
    ("corrASAvsDS_80", JNum (24) 2);
    ("corrASAvsDS_90", JNum (24) 2);
    ("corrASAvsSF_10", JNum (-5) 2);
    ("corrASAvsSF_20", JNum (-4) 2);
    ("corrASAvsSF_30", JNum (-4) 2);
    ("corrASAvsSF_40", JNum (-4) 2);
    ("corrASAvsSF_50", JNum (-3) 2);
    ("corrASAvsSF_60", JNum (-5) 2);
    ("corrASAvsSF_70", JNum (-2) 2);
    ("corrASAvsSF_80", JNum (-1) 2);
    ("corrASAvsSF_90", JNum (0) 1);
    ("corrASDvsSF_10", JNum (-48) 2);
    ("corrASDvsSF_20", JNum (-53) 2);
    ("corrASDvsSF_30", JNum (-52) 2);
    ("corrASDvsSF_40", JNum (-52) 2);
    ("corrASDvsSF_50", JNum (-54) 2);
    ("corrASDvsSF_60", JNum (-51) 2);
    ("corrASDvsSF_70", JNum (-50) 2);
    ("corrASDvsSF_80", JNum (-48) 2);
    ("corrASDvsSF_90", JNum (-43) 2);
    ("corrDSvsSF_10", JNum (-22) 2);
    ("corrDSvsSF_20", JNum (-26) 2);
    ("corrDSvsSF_30", JNum (-21) 2);
    ("corrDSvsSF_40", JNum (-25) 2);
    ("corrDSvsSF_50", JNum (-21) 2);
    ("corrDSvsSF_60", JNum (-19) 2);
    ("corrDSvsSF_70", JNum (-19) 2);
    ("corrDSvsSF_80", JNum (-20) 2);
    ("corrDSvsSF_90", JNum (-20) 2);
    ("corrASDvsASA_10", JNum (41) 2);
    ("corrASDvsASA_20", JNum (40) 2);
    ("corrASDvsASA_30", JNum (33) 2);
    ("corrASDvsASA_40", JNum (37) 2);
    ("corrASDvsASA_50", JNum (23) 2);
    ("corrASDvsASA_60", JNum (23) 2);
    ("corrASDvsASA_70", JNum (22) 2);
    ("corrASDvsASA_80", JNum (23) 2);
    ("corrASDvsASA_90", JNum (21) 2);
    ("corrASDvsK_10", JNum (0) 1);
    ("corrASDvsK_20", JNum (0) 1);
    ("corrASDvsK_30", JNum (0) 1);
    ("corrASDvsK_40", JNum (0) 1);
    ("corrASDvsK_50", JNum (0) 1);
    ("corrASDvsK_60", JNum (0) 1);
    ("corrASDvsK_70", JNum (0) 1);
    ("corrASDvsK_80", JNum (0) 1);
    ("corrASDvsK_90", JNum (0) 1);
    ("corrASAvsK_10", JNum (0) 1);
    ("corrASAvsK_20", JNum (0) 1);
    ("corrASAvsK_30", JNum (0) 1);
    ("corrASAvsK_40", JNum (0) 1);
    ("corrASAvsK_50", JNum (0) 1);
    ("corrASAvsK_60", JNum (0) 1);
    ("corrASAvsK_70", JNum (0) 1);
    ("corrASAvsK_80", JNum (0) 1);
    ("corrASAvsK_90", JNum (0) 1);
    ("corrDSvsK_10", JNum (0) 1);
    ("corrDSvsK_20", JNum (0) 1);
    ("corrDSvsK_30", JNum (0) 1);
    ("corrDSvsK_40", JNum (0) 1);
    ("corrDSvsK_50", JNum (0) 1);
    ("corrDSvsK_60", JNum (0) 1);
    ("corrDSvsK_70", JNum (0) 1);
    ("corrDSvsK_80", JNum (0) 1);
    ("corrDSvsK_90", JNum (0) 1);
    ("corrSFvsK_10", JNum (0) 1);
    ("corrSFvsK_20", JNum (0) 1);
    ("corrSFvsK_30", JNum (0) 1);
    ("corrSFvsK_40", JNum (0) 1);
    ("corrSFvsK_50", JNum (0) 1);
    ("corrSFvsK_60", JNum (0) 1);
    ("corrSFvsK_70", JNum (0) 1);
    ("corrSFvsK_80", JNum (0) 1);
    ("corrSFvsK_90", JNum (0) 1);
    ("corrZSDvsSF_10", JNum (-2) 2);
    ("corrZSDvsSF_20", JNum (0) 1);
    ("corrZSDvsSF_30", JNum (1) 2);
    ("corrZSDvsSF_40", JNum (0) 1);
    ("corrZSDvsSF_50", JNum (1) 2);
    ("corrZSDvsSF_60", JNum (1) 2);
    ("corrZSDvsSF_70", JNum (-2) 2);
    ("corrZSDvsSF_80", JNum (-8) 2);
    ("corrZSDvsSF_90", JNum (-12) 2);
    ("corrZSAvsSF_10", JNum (-31) 2);
    ("corrZSAvsSF_20", JNum (-33) 2);
    ("corrZSAvsSF_30", JNum (-33) 2);
    ("corrZSAvsSF_40", JNum (-33) 2);
    ("corrZSAvsSF_50", JNum (-38) 2);
    ("corrZSAvsSF_60", JNum (-39) 2);
    ("corrZSAvsSF_70", JNum (-37) 2);
    ("corrZSAvsSF_80", JNum (-37) 2);
    ("corrZSAvsSF_90", JNum (-36) 2);
    ("corrZSDvsK_10", JNum (0) 1);
    ("corrZSDvsK_20", JNum (0) 1);
    ("corrZSDvsK_30", JNum (0) 1);
    ("corrZSDvsK_40", JNum (0) 1);
    ("corrZSDvsK_50", JNum (0) 1);
    ("corrZSDvsK_60", JNum (0) 1);
    ("corrZSDvsK_70", JNum (0) 1);
    ("corrZSDvsK_80", JNum (0) 1);
    ("corrZSDvsK_90", JNum (0) 1);
    ("corrZSAvsK_10", JNum (0) 1);
    ("corrZSAvsK_20", JNum (0) 1);
    ("corrZSAvsK_30", JNum (0) 1);
    ("corrZSAvsK_40", JNum (0) 1);
    ("corrZSAvsK_50", JNum (0) 1);
    ("corrZSAvsK_60", JNum (0) 1);
    ("corrZSAvsK_70", JNum (0) 1);
    ("corrZSAvsK_80", JNum (0) 1);
    ("corrZSAvsK_90", JNum (0) 1);
    ("corrZSDvsDS_10", JNum (69) 2);
    ("corrZSDvsDS_20", JNum (72) 2);
    ("corrZSDvsDS_30", JNum (68) 2);
    ("corrZSDvsDS_40", JNum (68) 2);
    ("corrZSDvsDS_50", JNum (64) 2);
    ("corrZSDvsDS_60", JNum (65) 2);
    ("corrZSDvsDS_70", JNum (64) 2);
    ("corrZSDvsDS_80", JNum (61) 2);
    ("corrZSDvsDS_90", JNum (53) 2);
    ("corrZSAvsDS_10", JNum (5) 2);
    ("corrZSAvsDS_20", JNum (9) 2);
    ("corrZSAvsDS_30", JNum (9) 2);
    ("corrZSAvsDS_40", JNum (9) 2);
    ("corrZSAvsDS_50", JNum (-3) 2);
    ("corrZSAvsDS_60", JNum (-15) 2);
    ("corrZSAvsDS_70", JNum (-13) 2);
    ("corrZSAvsDS_80", JNum (-29) 2);
    ("corrZSAvsDS_90", JNum (-19) 2);
    ("corrZSDvsASD_10", JNum (52) 2);
    ("corrZSDvsASD_20", JNum (48) 2);
    ("corrZSDvsASD_30", JNum (60) 2);
    ("corrZSDvsASD_40", JNum (56) 2);
    ("corrZSDvsASD_50", JNum (62) 2);
    ("corrZSDvsASD_60", JNum (60) 2);
    ("corrZSDvsASD_70", JNum (65) 2);
    ("corrZSDvsASD_80", JNum (59) 2);
    ("corrZSDvsASD_90", JNum (64) 2);
    ("corrZSAvsASD_10", JNum (5) 2);
    ("corrZSAvsASD_20", JNum (11) 2);
    ("corrZSAvsASD_30", JNum (13) 2);
    ("corrZSAvsASD_40", JNum (14) 2);
    ("corrZSAvsASD_50", JNum (-2) 2);
    ("corrZSAvsASD_60", JNum (-11) 2);
    ("corrZSAvsASD_70", JNum (-13) 2);
    ("corrZSAvsASD_80", JNum (-26) 2);
    ("corrZSAvsASD_90", JNum (-22) 2);
    ("corrZSDvsASA_10", JNum (4) 1);
    ("corrZSDvsASA_20", JNum (39) 2);
    ("corrZSDvsASA_30", JNum (34) 2);
    ("corrZSDvsASA_40", JNum (37) 2);
    ("corrZSDvsASA_50", JNum (31) 2);
    ("corrZSDvsASA_60", JNum (28) 2);
    ("corrZSDvsASA_70", JNum (23) 2);
    ("corrZSDvsASA_80", JNum (21) 2);
    ("corrZSDvsASA_90", JNum (28) 2);
    ("corrZSAvsASA_10", JNum (4) 2);
    ("corrZSAvsASA_20", JNum (13) 2);
    ("corrZSAvsASA_30", JNum (16) 2);
    ("corrZSAvsASA_40", JNum (13) 2);
    ("corrZSAvsASA_50", JNum (13) 2);
    ("corrZSAvsASA_60", JNum (14) 2);
    ("corrZSAvsASA_70", JNum (-2) 2);
    ("corrZSAvsASA_80", JNum (-2) 1);
    ("corrZSAvsASA_90", JNum (-46) 2);
    ("corrZSDvsZSA_10", JNum (-3) 2);
    ("corrZSDvsZSA_20", JNum (4) 2);
    ("corrZSDvsZSA_30", JNum (7) 2);
    ("corrZSDvsZSA_40", JNum (7) 2);
    ("corrZSDvsZSA_50", JNum (-1) 2);
    ("corrZSDvsZSA_60", JNum (-12) 2);
    ("corrZSDvsZSA_70", JNum (-15) 2);
    ("corrZSDvsZSA_80", JNum (-34) 2);
    ("corrZSDvsZSA_90", JNum (-36) 2) ].

