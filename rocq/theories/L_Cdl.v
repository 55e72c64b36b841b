(* Lemmas about the clustered delay lines: C55, C75. *)
From Coq Require Import Reals String List Bool Arith Lia Lra ZArith.
From Verif Require Import M_Base L_Base L_Trig M_Json D_Links M_Params M_Geometry M_Cplx L_Coeff M_Convert M_Links S_Convert S_Links L_Csum L_Grids L_Convert L_Tdl.
Import ListNotations.
Open Scope string_scope.
Open Scope list_scope.
Open Scope R_scope.

Definition get_reals (k : string) (o : json_obj) : res (list R) := v <- M_Links.field k o ;; as_reals v.
Definition get_real (k : string) (o : json_obj) : res R := v <- M_Links.field k o ;; as_real v.
Definition get_bool (k : string) (o : json_obj) : res bool := v <- M_Links.field k o ;; as_bool v.
Definition get_int (k : string) (o : json_obj) : res Z := v <- M_Links.field k o ;; as_int v.

(* the file of a model holds the documented table *)
Lemma cdl_fields m p g : documented_profile m = Some p -> documented_angles m = Some g ->
  exists o, open_link (if String.eqb m "A" then "CDL-A.json" else if String.eqb m "B" then "CDL-B.json"
                       else if String.eqb m "C" then "CDL-C.json" else "CDL-D.json") links_dir = Ok o /\
  mem m ["A"; "B"; "C"; "D"] = true /\
  get_bool "los" o = Ok (pf_los p) /\ get_int "num_clusters" o = Ok (Z.of_nat (length (tap_powers p))) /\
  get_reals "delays" o = Ok (map fst (pf_rows p)) /\ get_reals "powers" o = Ok (map snd (pf_rows p)) /\
  get_real "cASD" o = Ok 0 /\ get_reals "aod" o = Ok (map (fun _ => 0) (pf_rows p)) /\
  get_real "cASA" o = Ok (cd_asa g) /\ get_reals "aoa" o = Ok (cd_aoa g) /\
  get_real "cZSD" o = Ok 0 /\ get_reals "zod" o = Ok (map (fun _ => 140) (pf_rows p)) /\
  get_real "cZSA" o = Ok (cd_zsa g) /\ get_reals "zoa" o = Ok (cd_zoa g) /\
  get_real "xpr" o = Ok (cd_xpr g) /\ pf_scalable p = true /\
  (pf_los p = true -> (2 <= length (pf_rows p))%nat) /\ (1 <= length (pf_rows p))%nat /\
  length (cd_aoa g) = length (pf_rows p) /\ length (cd_zoa g) = length (pf_rows p).
Proof.
  unfold documented_profile, documented_angles.
  destruct (String.eqb_spec m "A") as [->|_]; [intros [= <-] [= <-]|
  destruct (String.eqb_spec m "B") as [->|_]; [intros [= <-] [= <-]|
  destruct (String.eqb_spec m "C") as [->|_]; [intros [= <-] [= <-]|
  destruct (String.eqb_spec m "D") as [->|_]; [intros [= <-] [= <-]|intros _; discriminate]]]];
  (eexists; split; [reflexivity|]; split; [reflexivity|]; split; [reflexivity|]; split; [reflexivity|];
   do 11 (split; [unfold get_reals, get_real; cbn [map fst snd pf_rows cd_asa cd_aoa cd_zsa cd_zoa cd_xpr]; decimals|]);
   split; [reflexivity|]; split; [intros _; cbn; lia|]; split; [cbn; lia|]; split; reflexivity).
Qed.

Lemma offsets_doc : cdl_offsets = documented_offsets.
Proof. unfold cdl_offsets, documented_offsets. cbn [flat_map app]. repeat (f_equal; try lra). Qed.
Lemma rays_doc l c : generate_rays l c = map (fun a => cluster_rays a c) l.
Proof.
  unfold generate_rays, cluster_rays. rewrite offsets_doc. apply map_ext. intros a. apply map_ext. intros b. reflexivity.
Qed.
Lemma hd_rows (p : profile) (x : R) : (1 <= length (pf_rows p))%nat -> hd 0 (map (fun _ => x) (pf_rows p)) = x.
Proof. destruct (pf_rows p); cbn; [lia|reflexivity]. Qed.

(* ---- what a successful construction contains ---- *)
Definition swap_ends (c : cdl) : cdl :=
  Cdl (cl_los c) (cl_num c) (cl_delays c) (cl_powers c) (cl_k c) (cl_ds c) (cl_min_speed c) (cl_max_speed c) (negb (cl_moving_rx c))
      (cl_los_aod c) (cl_los_zod c) (cl_los_aoa c) (cl_los_zoa c) (cl_aod c) (cl_zod c) (cl_aoa c) (cl_zoa c) (cl_xpr c).

Definition cdl_doc_object (p : profile) (g : cdl_doc) (ds vmin vmax : R) : cdl :=
  let los := pf_los p in
  let lin := map (fun x => x / total_power p) (linear_powers p) in
  Cdl los (Z.of_nat (length (tap_powers p))) (clusters_of los (map fst (pf_rows p)))
      (if los then map (fun x => x / Rsum (tl lin)) (tl lin) else lin)
      (if los then hd 0 lin / Rsum (tl lin) else 1) ds vmin vmax true
      (if los then deg_2_rad (hd 0 (cd_aoa g)) else 0) (if los then deg_2_rad (hd 0 (cd_zoa g)) else 0)
      (if los then deg_2_rad 0 else 0) (if los then deg_2_rad 140 else 0)
      (generate_rays (clusters_of los (cd_aoa g)) (cd_asa g)) (generate_rays (clusters_of los (cd_zoa g)) (cd_zsa g))
      (generate_rays (clusters_of los (map (fun _ => 0) (pf_rows p))) 0)
      (generate_rays (clusters_of los (map (fun _ => 140) (pf_rows p))) 0)
      (db_to_linear (cd_xpr g)).

Lemma cdl_load_doc m p g o (dl : bool) ds vmin vmax : documented_profile m = Some p -> documented_angles m = Some g ->
  open_link (if String.eqb m "A" then "CDL-A.json" else if String.eqb m "B" then "CDL-B.json"
             else if String.eqb m "C" then "CDL-C.json" else "CDL-D.json") links_dir = Ok o ->
  cdl_load dl o ds vmin vmax = Ok (let c := cdl_doc_object p g ds vmin vmax in if dl then c else swap_ends c).
Proof.
  intros D G O. destruct (cdl_fields _ _ _ D G) as (o' & O' & _ & F1 & F2 & F3 & F4 & F5 & F6 & F7 & F8 & F9 & F10 & F11 & F12 & F13 & _ & L2 & L1 & LA & LZ).
  rewrite O in O'. injection O' as <-. clear O.
  unfold get_reals, get_real, get_bool, get_int in *. unfold cdl_load.
  repeat match goal with
  | H : (v <- ?x ;; _) = Ok _ |- context [?x] =>
      destruct x as [?v|?e]; cbn [bind] in *; [rewrite ?H; cbn [bind]; clear H|discriminate]
  end.
  cbv zeta. rewrite (map_map snd db_to_linear).
  change (map (fun x => db_to_linear (snd x)) (pf_rows p)) with (linear_powers p).
  change (Rsum (linear_powers p)) with (total_power p).
  assert (H0 : hd 0 (map (fun _ => 0) (pf_rows p)) = 0) by (apply hd_rows; exact L1).
  assert (H140 : hd 0 (map (fun _ => 140) (pf_rows p)) = 140) by (apply hd_rows; exact L1).
  rewrite H0, H140. unfold cdl_doc_object, clusters_of, swap_ends. cbv zeta.
  destruct (pf_los p), dl; reflexivity.
Qed.

Definition cdl_object (a : cdl_args) (p : profile) (g : cdl_doc) : cdl :=
  let c := cdl_doc_object p g (ca_ds a) (ca_min_speed a) (match ca_max_speed a with None => ca_min_speed a | Some v => v end) in
  if String.eqb (ca_direction a) "downlink" then c else swap_ends c.

Definition cdl_speeds (a : cdl_args) : Prop := match ca_max_speed a with None => True | Some v => ca_min_speed a <= v end.

Lemma cdl_init_object a p g : documented_profile (ca_model a) = Some p -> documented_angles (ca_model a) = Some g ->
  In (ca_direction a) ["uplink"; "downlink"] -> cdl_speeds a -> cdl_init a = Ok (cdl_object a p g).
Proof.
  intros D G I V. destruct (cdl_fields _ _ _ D G) as (o & O & M & _). unfold cdl_init.
  assert (mem (ca_direction a) ["uplink"; "downlink"] = true) as ->.
  { apply existsb_exists. exists (ca_direction a). split; [exact I|apply String.eqb_refl]. }
  cbn [negb]. rewrite M. cbn [negb]. cbv zeta.
  unfold cdl_object. unfold cdl_speeds in V. cbv zeta.
  destruct (ca_max_speed a) as [w|].
  - apply Rleb_true in V. rewrite V. cbn [bind]. rewrite O. cbn [bind]. exact (cdl_load_doc _ _ _ _ _ _ _ _ D G O).
  - cbn [bind]. rewrite O. cbn [bind]. exact (cdl_load_doc _ _ _ _ _ _ _ _ D G O).
Qed.

Lemma mem_in x l : mem x l = true -> In x l.
Proof. intros E. apply existsb_exists in E. destruct E as (y & I & Q). apply String.eqb_eq in Q. subst. exact I. Qed.

Lemma angles_doc m : In m ["A"; "B"; "C"; "D"] -> exists p g, documented_profile m = Some p /\ documented_angles m = Some g.
Proof. intros [<-|[<-|[<-|[<-|[]]]]]; eexists; eexists; split; reflexivity. Qed.
Lemma angles_in m g : documented_angles m = Some g -> In m ["A"; "B"; "C"; "D"].
Proof.
  unfold documented_angles.
  destruct (String.eqb_spec m "A") as [->|_]; [intros _; cbn; tauto|].
  destruct (String.eqb_spec m "B") as [->|_]; [intros _; cbn; tauto|].
  destruct (String.eqb_spec m "C") as [->|_]; [intros _; cbn; tauto|].
  destruct (String.eqb_spec m "D") as [->|_]; [intros _; cbn; tauto|discriminate].
Qed.

Lemma cdl_init_inv a c : cdl_init a = Ok c ->
  exists p g, documented_profile (ca_model a) = Some p /\ documented_angles (ca_model a) = Some g /\
    In (ca_direction a) ["uplink"; "downlink"] /\ cdl_speeds a /\ c = cdl_object a p g.
Proof.
  intros E. assert (E' := E). unfold cdl_init in E.
  destruct (mem (ca_direction a) ["uplink"; "downlink"]) eqn:Md; [|discriminate]. cbn [negb] in E. apply mem_in in Md.
  assert (V : cdl_speeds a).
  { unfold cdl_speeds. destruct (ca_max_speed a) as [w|]; [|exact I]. destruct (Rleb (ca_min_speed a) w) eqn:R1; [apply Rleb_true; exact R1|discriminate]. }
  assert (Mm : mem (ca_model a) ["A"; "B"; "C"; "D"] = true).
  { destruct (ca_max_speed a) as [w|]; [destruct (Rleb (ca_min_speed a) w); [|discriminate]|]; cbn [bind] in E;
    destruct (mem (ca_model a) ["A"; "B"; "C"; "D"]); [reflexivity|discriminate|reflexivity|discriminate]. }
  apply mem_in in Mm. destruct (angles_doc _ Mm) as (p & g & D & G). exists p, g.
  rewrite (cdl_init_object a p g D G Md V) in E'. injection E' as <-. repeat split; assumption.
Qed.

(* C55: construction succeeds exactly for the documented arguments *)
Lemma C55_constructs_l a :
  (exists c, cdl_init a = Ok c) <->
  In (ca_model a) ["A"; "B"; "C"; "D"] /\ In (ca_direction a) ["uplink"; "downlink"] /\
  match ca_max_speed a with None => True | Some v => ca_min_speed a <= v end.
Proof.
  split.
  - intros (c & E). destruct (cdl_init_inv _ _ E) as (p & g & D & G & I & V & _). split; [exact (angles_in _ _ G)|]. split; assumption.
  - intros (M & I & V). destruct (angles_doc _ M) as (p & g & D & G). exists (cdl_object a p g). apply cdl_init_object; assumption.
Qed.
Lemma C55_rejected_l a :
  ~ (In (ca_model a) ["A"; "B"; "C"; "D"] /\ In (ca_direction a) ["uplink"; "downlink"] /\
     match ca_max_speed a with None => True | Some v => ca_min_speed a <= v end) ->
  exists m, cdl_init a = Err (AssertionError m).
Proof.
  intros N. destruct (cdl_init a) as [c|e] eqn:E; [exfalso; apply N, C55_constructs_l; exists c; exact E|].
  unfold cdl_init in E. destruct (mem (ca_direction a) ["uplink"; "downlink"]) eqn:Md; [|injection E as <-; eexists; reflexivity].
  cbn [negb] in E.
  destruct (mem (ca_model a) ["A"; "B"; "C"; "D"]) eqn:Mm.
  - destruct (ca_max_speed a) as [w|] eqn:W.
    + destruct (Rleb (ca_min_speed a) w) eqn:R1; [|injection E as <-; eexists; reflexivity]. exfalso. apply N.
      split; [apply mem_in; exact Mm|]. split; [apply mem_in; exact Md|apply Rleb_true; exact R1].
    + exfalso. apply N. split; [apply mem_in; exact Mm|]. split; [apply mem_in; exact Md|exact I].
  - destruct (ca_max_speed a) as [w|]; [destruct (Rleb (ca_min_speed a) w)|]; cbn [bind negb] in E; injection E as <-; eexists; reflexivity.
Qed.

(* ---- powers, delays, K-factor ---- *)
Lemma object_powers a p g : cdl_powers (cdl_object a p g) = cdl_powers (cdl_doc_object p g (ca_ds a) 0 0) /\
  cdl_delays (cdl_object a p g) = cdl_delays (cdl_doc_object p g (ca_ds a) 0 0) /\
  cdl_k_factor (cdl_object a p g) = cdl_k_factor (cdl_doc_object p g (ca_ds a) 0 0) /\
  cl_num (cdl_object a p g) = Z.of_nat (length (tap_powers p)).
Proof. unfold cdl_object. cbv zeta. destruct (String.eqb (ca_direction a) "downlink"); repeat split. Qed.

Lemma doc_powers p g ds v w : (1 <= length (pf_rows p))%nat -> (pf_los p = true -> (2 <= length (pf_rows p))%nat) ->
  cdl_powers (cdl_doc_object p g ds v w) = map (fun x => x / total_power p) (tap_powers p).
Proof.
  intros L1 L2. pose proof (total_pos p L1) as T. unfold cdl_powers, cdl_doc_object, tap_powers. cbn [cl_los cl_powers cl_k]. cbv zeta.
  destruct (pf_los p) eqn:E; [|reflexivity]. specialize (L2 eq_refl).
  assert (LL : length (linear_powers p) = length (pf_rows p)) by (unfold linear_powers; apply map_length).
  pose proof (linear_pos p) as P. unfold total_power in *.
  destruct (linear_powers p) as [|x [|y l]]; cbn in LL; try lia.
  cbn [map tl hd Rsum] in *. rewrite Rsum_map_div.
  assert (0 < x) by (apply P; left; reflexivity). assert (0 < y) by (apply P; right; left; reflexivity).
  assert (0 <= Rsum l) by (apply Rsum_nonneg; intros z Hz; left; apply P; right; right; exact Hz).
  f_equal; [field; repeat split; lra|]. rewrite !map_map. apply map_ext. intros z. field. repeat split; lra.
Qed.
Lemma doc_delays p g ds v w : cdl_delays (cdl_doc_object p g ds v w) = map (fun d => d * ds) (tap_delays p).
Proof.
  unfold cdl_delays, cdl_doc_object, tap_delays, clusters_of. cbn [cl_delays cl_ds].
  destruct (pf_los p); [|reflexivity]. destruct (pf_rows p); reflexivity.
Qed.

Lemma C55_profile_l a c p : cdl_init a = Ok c -> documented_profile (ca_model a) = Some p ->
  cdl_powers c = map (fun x => x / total_power p) (tap_powers p) /\
  Rsum (cdl_powers c) = 1 /\ Forall (fun x => 0 < x) (cdl_powers c) /\
  cdl_delays c = map (fun d => d * ca_ds a) (tap_delays p) /\
  cl_num c = Z.of_nat (length (cdl_powers c)) /\ length (cdl_delays c) = length (cdl_powers c) /\
  (pf_los p = true -> exists s d rest, linear_powers p = s :: d :: rest /\ cdl_k_factor c = Ok (s / d)) /\
  (pf_los p = false -> exists m, cdl_k_factor c = Err (AssertionError m)).
Proof.
  intros E D. destruct (cdl_init_inv _ _ E) as (p' & g & D' & G & _ & _ & ->). rewrite D in D'. injection D' as <-.
  destruct (cdl_fields _ _ _ D G) as (o & _ & _ & _ & _ & _ & _ & _ & _ & _ & _ & _ & _ & _ & _ & _ & _ & L2 & L1 & _).
  destruct (object_powers a p g) as (-> & -> & -> & ->).
  rewrite (doc_powers p g _ _ _ L1 L2), doc_delays. pose proof (total_pos p L1) as T.
  split; [reflexivity|]. split; [rewrite Rsum_map_div, tap_total; field; lra|]. split.
  { apply Forall_forall. intros x Hx. apply in_map_iff in Hx. destruct Hx as (y & <- & Hy).
    apply Rdiv_lt_0_compat; [exact (tap_pos p y Hy)|exact T]. }
  split; [reflexivity|]. rewrite !map_length. split; [reflexivity|].
  assert (LL : length (linear_powers p) = length (pf_rows p)) by (unfold linear_powers; apply map_length).
  split.
  { unfold tap_delays, tap_powers. destruct (pf_los p); [|rewrite map_length; symmetry; exact LL].
    specialize (L2 eq_refl). destruct (linear_powers p) as [|x [|y l]]; cbn in LL; try lia.
    destruct (pf_rows p) as [|r1 [|r2 rs]]; cbn in *; try lia. rewrite map_length. lia. }
  unfold cdl_k_factor, cdl_doc_object. cbn [cl_los cl_powers cl_k]. cbv zeta. split; intros EL; rewrite EL; [|eexists; reflexivity].
  specialize (L2 EL). pose proof (linear_pos p) as P. unfold total_power in *.
  destruct (linear_powers p) as [|x [|y l]]; cbn in LL; try lia. exists x, y, l. split; [reflexivity|].
  cbn [map tl hd Rsum] in *. rewrite Rsum_map_div.
  assert (0 < x) by (apply P; left; reflexivity). assert (0 < y) by (apply P; right; left; reflexivity).
  assert (0 <= Rsum l) by (apply Rsum_nonneg; intros z Hz; left; apply P; right; right; exact Hz).
  f_equal. field. repeat split; lra.
Qed.

(* ---- rays ---- *)
(* angle lists seen from the satellite-to-ground direction: the ground end of the object *)
Definition ground_azimuths (c : cdl) := if cl_moving_rx c then cl_aoa c else cl_aod c.
Definition ground_zeniths (c : cdl) := if cl_moving_rx c then cl_zoa c else cl_zod c.
Definition space_azimuths (c : cdl) := if cl_moving_rx c then cl_aod c else cl_aoa c.
Definition space_zeniths (c : cdl) := if cl_moving_rx c then cl_zod c else cl_zoa c.
Lemma rays_const l a : generate_rays (map (fun _ : R * R => a) l) 0 = map (fun _ => repeat (a * (PI / 180)) 20) l.
Proof.
  rewrite rays_doc, map_map. apply map_ext. intros _. unfold cluster_rays, documented_offsets. cbn [flat_map app map repeat].
  repeat match goal with |- context [?x + 0 * ?o] => replace (x + 0 * o) with x by ring end. reflexivity.
Qed.
Lemma clusters_map {A B} (f : A -> B) los l : clusters_of los (map f l) = map f (clusters_of los l).
Proof. unfold clusters_of. destruct los; [destruct l; reflexivity|reflexivity]. Qed.

Lemma C55_rays_l a c p g : cdl_init a = Ok c -> documented_profile (ca_model a) = Some p -> documented_angles (ca_model a) = Some g ->
  let azimuths := if String.eqb (ca_direction a) "downlink" then cl_aoa c else cl_aod c in     (* at the ground end *)
  let zeniths := if String.eqb (ca_direction a) "downlink" then cl_zoa c else cl_zod c in
  let sat_azimuths := if String.eqb (ca_direction a) "downlink" then cl_aod c else cl_aoa c in (* at the satellite *)
  let sat_zeniths := if String.eqb (ca_direction a) "downlink" then cl_zod c else cl_zoa c in
  azimuths = map (fun x => cluster_rays x (cd_asa g)) (clusters_of (pf_los p) (cd_aoa g)) /\
  zeniths = map (fun x => cluster_rays x (cd_zsa g)) (clusters_of (pf_los p) (cd_zoa g)) /\
  sat_azimuths = map (fun _ => repeat 0 20) (cdl_powers c) /\
  sat_zeniths = map (fun _ => repeat (140 * (PI / 180)) 20) (cdl_powers c) /\
  length azimuths = length (cdl_powers c) /\ length zeniths = length (cdl_powers c) /\
  cl_xpr c = Rpower 10 (cd_xpr g / 10) /\
  cl_moving_rx c = String.eqb (ca_direction a) "downlink".
Proof.
  intros E D G.
  pose proof (C55_profile_l _ _ _ E D) as (EP & _ & _ & _ & _ & _ & _).
  rewrite EP. destruct (cdl_init_inv _ _ E) as (p' & g' & D' & G' & _ & _ & ->).
  rewrite D in D'. injection D' as <-. rewrite G in G'. injection G' as <-.
  destruct (cdl_fields _ _ _ D G) as (o & _ & _ & _ & _ & _ & _ & _ & _ & _ & _ & _ & _ & _ & _ & _ & _ & L2 & L1 & LA & LZ).
  assert (LC : forall l : list R, length l = length (pf_rows p) -> length (clusters_of (pf_los p) l) = length (tap_powers p)).
  { intros l Hl. unfold clusters_of, tap_powers. assert (LL : length (linear_powers p) = length (pf_rows p)) by (unfold linear_powers; apply map_length).
    destruct (pf_los p); [|congruence]. specialize (L2 eq_refl). destruct (linear_powers p) as [|x [|y r]]; cbn in LL; try lia.
    destruct l; cbn in *; lia. }
  assert (LR : length (clusters_of (pf_los p) (pf_rows p)) = length (tap_powers p)).
  { rewrite <- (LC (map fst (pf_rows p))) by apply map_length. rewrite clusters_map, map_length. reflexivity. }
  assert (K : forall (x : R) (l : list (R * R)) (q : list R), length l = length q ->
     map (fun _ => repeat x 20) l = map (fun _ : R => repeat x 20) q).
  { intros x l. induction l as [|r l IH]; intros [|y q] Hl; cbn in *; try lia; [reflexivity|]. f_equal. apply IH. lia. }
  unfold cdl_object. cbv zeta.
  destruct (String.eqb (ca_direction a) "downlink"); unfold swap_ends, cdl_doc_object; cbv zeta;
    cbn [cl_aoa cl_zoa cl_aod cl_zod cl_xpr cl_moving_rx negb];
    rewrite !rays_doc, !map_length, !LC by assumption;
    rewrite <- !rays_doc, !clusters_map, !rays_const, !map_map; rewrite !rays_doc;
    (split; [reflexivity|]; split; [reflexivity|]; split; [rewrite Rmult_0_l; apply K; exact LR|]; split; [apply K; exact LR|];
     split; [reflexivity|]; split; [reflexivity|]; split; [unfold db_to_linear; reflexivity|reflexivity]).
Qed.

(* the mean of the rays of a cluster is its centre *)
Lemma cluster_rays_mean x c : Rsum (cluster_rays x c) = 20 * (x * (PI / 180)) /\ length (cluster_rays x c) = 20%nat.
Proof. split; [unfold cluster_rays, documented_offsets; cbn [flat_map app map Rsum]; ring|reflexivity]. Qed.

(* the uplink object is the downlink object seen from the other end *)
Lemma C55_reciprocal_l m ds vmin vmax d u :
  cdl_init (CdlArgs m ds "downlink" vmin vmax) = Ok d -> cdl_init (CdlArgs m ds "uplink" vmin vmax) = Ok u ->
  cl_aoa u = cl_aod d /\ cl_aod u = cl_aoa d /\ cl_zoa u = cl_zod d /\ cl_zod u = cl_zoa d /\
  cl_los_aoa u = cl_los_aod d /\ cl_los_aod u = cl_los_aoa d /\ cl_los_zoa u = cl_los_zod d /\ cl_los_zod u = cl_los_zoa d /\
  cl_moving_rx d = true /\ cl_moving_rx u = false /\
  cdl_powers u = cdl_powers d /\ cdl_delays u = cdl_delays d /\ cdl_k_factor u = cdl_k_factor d /\ cl_xpr u = cl_xpr d /\
  cl_min_speed u = cl_min_speed d /\ cl_max_speed u = cl_max_speed d.
Proof.
  intros E1 E2. destruct (cdl_init_inv _ _ E1) as (p & g & D & G & _ & _ & ->). destruct (cdl_init_inv _ _ E2) as (p' & g' & D' & G' & _ & _ & ->).
  cbn [ca_model] in *. rewrite D in D'. injection D' as <-. rewrite G in G'. injection G' as <-.
  unfold cdl_object. cbn [ca_direction ca_ds ca_min_speed ca_max_speed]. cbv zeta. change (String.eqb "downlink" "downlink") with true.
  change (String.eqb "uplink" "downlink") with false. cbv iota. repeat split.
Qed.

(* in a LoS model the direct ray leaves and arrives in opposite directions *)
Lemma C55_direct_l a c : cdl_init a = Ok c -> cl_los c = true ->
  (cl_los_zoa c + cl_los_zod c = PI) /\ (cl_los_aoa c - cl_los_aod c = PI \/ cl_los_aoa c - cl_los_aod c = - PI).
Proof.
  intros E L. destruct (cdl_init_inv _ _ E) as (p & g & D & G & _ & _ & ->).
  assert (LP : pf_los p = true).
  { unfold cdl_object in L. cbv zeta in L. destruct (String.eqb (ca_direction a) "downlink"); exact L. }
  unfold cdl_object, cdl_doc_object. cbv zeta.
  assert (Hg : hd 0 (cd_aoa g) = -180 /\ hd 0 (cd_zoa g) = 40).
  { revert D G LP. unfold documented_profile, documented_angles.
    destruct (String.eqb (ca_model a) "A"); [intros [= <-]; discriminate|].
    destruct (String.eqb (ca_model a) "B"); [intros [= <-]; discriminate|].
    destruct (String.eqb (ca_model a) "C"); [intros _ [= <-] _; split; reflexivity|].
    destruct (String.eqb (ca_model a) "D"); [intros _ [= <-] _; split; reflexivity|]. intros _; discriminate. }
  destruct Hg as [Ha Hz]. rewrite LP. unfold deg_2_rad.
  destruct (String.eqb (ca_direction a) "downlink"); unfold swap_ends; cbn [cl_los_zoa cl_los_zod cl_los_aoa cl_los_aod];
    rewrite Ha, Hz; (split; [lra|]); [right|left]; lra.
Qed.

(* the call never reaches the coefficient generation *)
Lemma C55_call_l (A : Type) (c : cdl) batch steps fs (k : res A) :
  cdl_call c batch steps fs k =
    Err (TypeError "missing required positional arguments: bs_height, elevation_angle, doppler_enabled").
Proof. reflexivity. Qed.

(* C75: the delay line and the clustered model of one letter have the same profile *)
Lemma C75_l chol a t b c : tdl_init chol a = Ok t -> cdl_init b = Ok c -> ta_model a = ca_model b -> ta_ds a = ca_ds b ->
  tdl_mean_powers t = cdl_powers c /\ tdl_delays t = cdl_delays c /\ td_num t = cl_num c /\ td_los t = cl_los c /\
  (td_los t = true -> exists k, tdl_k_factor t = Ok k /\ cdl_k_factor c = Ok k /\ 1 < k).
Proof.
  intros ET EC EM ED. destruct (cdl_init_inv _ _ EC) as (p & g & D & G & _ & _ & EO).
  assert (DT : documented_profile (ta_model a) = Some p) by (rewrite EM; exact D).
  pose proof (C54_profile_l _ _ _ _ ET DT) as (P1 & _ & _ & P2 & P3 & _).
  pose proof (C54_ricean_l _ _ _ _ ET DT) as (R1 & _).
  pose proof (C55_profile_l _ _ _ EC D) as (Q1 & _ & _ & Q2 & Q3 & _ & Q4 & _).
  destruct (cdl_fields _ _ _ D G) as (o & _ & _ & _ & _ & _ & _ & _ & _ & _ & _ & _ & _ & _ & _ & _ & SC & _).
  pose proof (init_shape _ _ _ _ ET DT) as S. pose proof (sh_los _ _ _ _ S) as LT.
  assert (LC : cl_los c = pf_los p).
  { rewrite EO. unfold cdl_object. cbv zeta. destruct (String.eqb (ca_direction b) "downlink"); reflexivity. }
  split; [rewrite P1, Q1; reflexivity|]. split; [rewrite P2, Q2, SC, ED; reflexivity|].
  split; [rewrite P3, Q3, P1, Q1; reflexivity|]. split; [rewrite LT, LC; reflexivity|].
  rewrite LT. intros L. destruct (R1 L) as (s & d & rest & EL & _ & K & _). destruct (Q4 L) as (s' & d' & rest' & EL' & K').
  rewrite EL in EL'. injection EL' as <- <- <-. exists (s / d). split; [exact K|]. split; [exact K'|].
  assert (Hsd : d < s).
  { revert EL L D. unfold documented_profile.
    destruct (String.eqb (ca_model b) "A"); [intros EL L [= <-]; discriminate|].
    destruct (String.eqb (ca_model b) "B"); [intros EL L [= <-]; discriminate|].
    destruct (String.eqb (ca_model b) "C"); [|destruct (String.eqb (ca_model b) "D");
      [|repeat match goal with |- context [String.eqb ?x ?y] => destruct (String.eqb x y); [intros EL L [= <-]; discriminate|] end; intros EL L; discriminate]];
    (intros EL L [= <-]; unfold linear_powers in EL; cbn [pf_rows map snd] in EL; injection EL as <- <- <-;
     apply Rpower_lt; lra). }
  assert (0 < d) by (apply (linear_pos p); rewrite EL; right; left; reflexivity).
  apply Rmult_lt_reg_r with d; [lra|]. unfold Rdiv. rewrite Rmult_assoc, Rinv_l by lra. lra.
Qed.
