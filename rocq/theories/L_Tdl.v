(* Lemmas about the tapped delay lines: C54. *)
From Coq Require Import Reals String List Bool Arith Lia Lra ZArith.
From Verif Require Import M_Base L_Base L_Trig M_Json D_Links M_Params M_Geometry M_Cplx L_Coeff M_Convert M_Links S_Convert S_Links L_Csum L_Grids L_Convert.
Import ListNotations.
Open Scope string_scope.
Open Scope list_scope.
Open Scope R_scope.

Definition file_of (m : string) : option string := fst (tdl_file m 0).
Definition fields (o : json_obj) (los scale : bool) (num : Z) (dl pl : list R) : Prop :=
  (v <- field "los" o ;; as_bool v) = Ok los /\ (v <- field "scale_delays" o ;; as_bool v) = Ok scale /\
  (v <- field "num_clusters" o ;; as_int v) = Ok num /\ (v <- field "delays" o ;; as_reals v) = Ok dl /\
  (v <- field "powers" o ;; as_reals v) = Ok pl.

Ltac decimals := cbv [bind field jlookup tab_TDL_A tab_TDL_B tab_TDL_C tab_TDL_D tab_TDL_A30 tab_TDL_B100 tab_TDL_C300
  tab_CDL_A tab_CDL_B tab_CDL_C tab_CDL_D String.eqb Ascii.eqb Bool.eqb as_reals as_reals_aux as_real];
  cbn [pow]; repeat (f_equal; try lra).

Lemma doc_fields m p : documented_profile m = Some p ->
  exists f o num, tdl_file m = (fun ds => (Some f, if pf_scalable p then ds else snd (tdl_file m 0))) /\ open_link f links_dir = Ok o /\
  fields o (pf_los p) (pf_scalable p) num (map fst (pf_rows p)) (map snd (pf_rows p)) /\
  num = Z.of_nat (length (tap_powers p)) /\ (pf_los p = true -> (2 <= length (pf_rows p))%nat) /\ (1 <= length (pf_rows p))%nat.
Proof.
  unfold documented_profile.
  destruct (String.eqb_spec m "A") as [->|_]; [intros [= <-]|
  destruct (String.eqb_spec m "B") as [->|_]; [intros [= <-]|
  destruct (String.eqb_spec m "C") as [->|_]; [intros [= <-]|
  destruct (String.eqb_spec m "D") as [->|_]; [intros [= <-]|
  destruct (String.eqb_spec m "A30") as [->|_]; [intros [= <-]|
  destruct (String.eqb_spec m "B100") as [->|_]; [intros [= <-]|
  destruct (String.eqb_spec m "C300") as [->|_]; [intros [= <-]|discriminate]]]]]]];
  (eexists; eexists; eexists; split; [reflexivity|]; split; [reflexivity|]; split;
   [unfold fields; split; [reflexivity|]; split; [reflexivity|]; split; [reflexivity|];
    split; cbn [map fst snd pf_rows]; decimals
   |split; [reflexivity|split; [intros _; cbn; lia|cbn; lia]]]).
Qed.

(* the diffuse part of the taps *)
Definition diffuse_powers (p : profile) : list R := if pf_los p then tl (linear_powers p) else linear_powers p.
Definition specular_power (p : profile) : R := if pf_los p then hd 0 (linear_powers p) / total_power p else 0.

Lemma load_doc o p num :
  fields o (pf_los p) (pf_scalable p) num (map fst (pf_rows p)) (map snd (pf_rows p)) ->
  (pf_los p = true -> (2 <= length (pf_rows p))%nat) ->
  tdl_load o = Ok (Pdp (pf_los p) (pf_scalable p) num (tap_delays p)
                       (map (fun x => x / total_power p) (diffuse_powers p)) (specular_power p)).
Proof.
  intros (E1 & E2 & E3 & E4 & E5) L. unfold tdl_load.
  destruct (field "los" o) as [v|e]; cbn [bind] in *; [|discriminate]. rewrite E1. cbn [bind].
  destruct (field "scale_delays" o) as [v2|e]; cbn [bind] in *; [|discriminate]. rewrite E2. cbn [bind].
  destruct (field "num_clusters" o) as [v3|e]; cbn [bind] in *; [|discriminate]. rewrite E3. cbn [bind].
  destruct (field "delays" o) as [v4|e]; cbn [bind] in *; [|discriminate]. rewrite E4. cbn [bind].
  destruct (field "powers" o) as [v5|e]; cbn [bind] in *; [|discriminate]. rewrite E5. cbn [bind].
  cbv zeta. rewrite (map_map snd db_to_linear).
  change (map (fun x => db_to_linear (snd x)) (pf_rows p)) with (linear_powers p).
  unfold tap_delays, diffuse_powers, specular_power, total_power.
  destruct (pf_los p); [|reflexivity].
  assert (LL : length (linear_powers p) = length (pf_rows p)) by (unfold linear_powers; apply map_length).
  destruct (linear_powers p) as [|x l] eqn:E; [specialize (L eq_refl); cbn in LL; lia|].
  cbn [hd tl Rsum]. rewrite (Rplus_comm (Rsum l) x).
  destruct (pf_rows p) as [|r rows]; [discriminate|]. reflexivity.
Qed.

Lemma linear_pos p x : In x (linear_powers p) -> 0 < x.
Proof. unfold linear_powers. intros H. apply in_map_iff in H. destruct H as (r & <- & _). apply (pow10_pos (snd r / 10)). Qed.
Lemma total_pos p : (1 <= length (pf_rows p))%nat -> 0 < total_power p.
Proof.
  intros L. unfold total_power. apply Rsum_pos.
  - intros x H. left. exact (linear_pos p x H).
  - assert (LL : length (linear_powers p) = length (pf_rows p)) by (unfold linear_powers; apply map_length).
    destruct (linear_powers p) as [|x l] eqn:E; [cbn in LL; lia|]. exists x. split; [left; reflexivity|].
    apply (linear_pos p). rewrite E. left; reflexivity.
Qed.

Record shape (chol : nat -> cmatrix -> option cmatrix) (a : tdl_args) (p : profile) (t : tdl) : Prop := {
  sh_los : td_los t = pf_los p;
  sh_scale : td_scale t = pf_scalable p;
  sh_num : td_num t = Z.of_nat (length (tap_powers p));
  sh_delays : td_delays t = tap_delays p;
  sh_powers : td_powers t = map (fun x => x / total_power p) (diffuse_powers p);
  sh_los_power : td_los_power t = specular_power p;
  sh_ds : pf_scalable p = true -> td_ds t = ta_ds a;
  sh_ds_fixed : pf_scalable p = false -> td_ds t = snd (tdl_file (ta_model a) 0);
  sh_rx : td_rx t = ta_rx a; sh_tx : td_tx t = ta_tx a; sh_sin : td_sinusoids t = ta_sinusoids a;
  sh_min : td_min_doppler t = tdl_doppler (ta_height a) (ta_elev a) (ta_fc a) (ta_min_speed a);
  sh_max : td_max_doppler t = tdl_doppler (ta_height a) (ta_elev a) (ta_fc a)
             (match ta_max_speed a with None => ta_min_speed a | Some v => v end);
  sh_corr : forall m, ta_spatial a = Some m -> exists l, chol (ta_rx a * ta_tx a)%nat m = Some l /\ td_corr t = Full l;
  sh_corr2 : ta_spatial a = None -> exists lr lt, td_corr t = Split lr lt /\
     match ta_rx_corr a with None => lr = None | Some m => exists l, chol (ta_rx a) m = Some l /\ lr = Some l end /\
     match ta_tx_corr a with None => lt = None | Some m => exists l, chol (ta_tx a) m = Some l /\ lt = Some l end;
  sh_aoa : td_aoa t = ta_aoa a;
  sh_height : 160000 <= ta_height a;
  sh_elev : 0 <= ta_elev a <= 90;
  sh_rows : (1 <= length (pf_rows p))%nat;
  sh_rows2 : pf_los p = true -> (2 <= length (pf_rows p))%nat }.

Lemma init_shape chol a t p : tdl_init chol a = Ok t -> documented_profile (ta_model a) = Some p -> shape chol a p t.
Proof.
  intros I D. destruct (doc_fields _ _ D) as (f & o & num & Ef & Eo & F & En & L2 & L1).
  unfold tdl_init in I. destruct (negb (mem (ta_model a) tdl_models)); [discriminate|].
  rewrite Ef in I. cbn [fst snd] in I.
  destruct (Rleb 160000 (ta_height a)) eqn:H1; cbn [negb] in I; [|discriminate].
  destruct (Rleb 0 (ta_elev a)) eqn:H2; cbn [negb andb] in I; [|discriminate].
  destruct (Rleb (ta_elev a) 90) eqn:H3; cbn [negb andb] in I; [|discriminate].
  apply Rleb_true in H1, H2, H3.
  rewrite Eo in I. cbn [bind] in I. rewrite (load_doc o p num F L2) in I. cbn [bind] in I.
  destruct (match ta_max_speed a with None => Ok (ta_min_speed a) | Some v => _ end) as [v|e] eqn:Ev; cbn [bind] in I; [|discriminate].
  assert (Ev' : v = match ta_max_speed a with None => ta_min_speed a | Some v => v end).
  { destruct (ta_max_speed a) as [w|]; [|congruence]. destruct (Rleb (ta_min_speed a) w); congruence. }
  destruct (match ta_spatial a with Some m => _ | None => _ end) as [c|e] eqn:Ec; cbn [bind] in I; [|discriminate].
  injection I as <-. cbn [pd_los pd_scale pd_num pd_delays pd_powers pd_los_power] in *.
  constructor; cbn; try reflexivity; try assumption.
  - intros E. rewrite E. reflexivity.
  - intros E. rewrite E. reflexivity.
  - rewrite Ev'. reflexivity.
  - intros m Em. rewrite Em in Ec. unfold apply_chol in Ec. destruct (chol _ m) as [l|]; [|discriminate].
    cbn in Ec. injection Ec as <-. exists l; split; reflexivity.
  - intros Em. rewrite Em in Ec. unfold apply_chol in Ec.
    destruct (ta_rx_corr a) as [m1|]; [destruct (chol (ta_rx a) m1) as [l1|]; [|discriminate]|];
    (destruct (ta_tx_corr a) as [m2|]; [destruct (chol (ta_tx a) m2) as [l2|]; [|discriminate]|]);
    cbn in Ec; injection Ec as <-; eexists; eexists; (split; [reflexivity|]); split; try reflexivity; eexists; split; reflexivity.
  - split; assumption.
Qed.

Lemma mean_powers_doc chol a p t : shape chol a p t -> tdl_mean_powers t = map (fun x => x / total_power p) (tap_powers p).
Proof.
  intros S. unfold tdl_mean_powers, tap_powers. rewrite (sh_los _ _ _ _ S), (sh_powers _ _ _ _ S), (sh_los_power _ _ _ _ S).
  unfold diffuse_powers, specular_power. destruct (pf_los p) eqn:E; [|reflexivity].
  assert (LL : length (linear_powers p) = length (pf_rows p)) by (unfold linear_powers; apply map_length).
  pose proof (sh_rows2 _ _ _ _ S E).
  destruct (linear_powers p) as [|x [|y l]] eqn:El; cbn in LL; try lia. cbn. f_equal. unfold Rdiv. ring.
Qed.

Lemma tap_total p : Rsum (tap_powers p) = total_power p.
Proof.
  unfold tap_powers, total_power. destruct (pf_los p); [|reflexivity].
  destruct (linear_powers p) as [|x [|y l]]; cbn; [reflexivity|reflexivity|ring].
Qed.
Lemma tap_pos p x : In x (tap_powers p) -> 0 < x.
Proof.
  unfold tap_powers. pose proof (linear_pos p) as P. destruct (pf_los p); [|apply P].
  destruct (linear_powers p) as [|a [|b l]]; [intros []|apply P|].
  intros [<-|I]; [pose proof (P a (or_introl eq_refl)); pose proof (P b (or_intror (or_introl eq_refl))); lra|].
  apply P. right; right; exact I.
Qed.

(* C54: the profile of a constructed model *)
Lemma C54_profile_l chol a t p : tdl_init chol a = Ok t -> documented_profile (ta_model a) = Some p ->
  tdl_mean_powers t = map (fun x => x / total_power p) (tap_powers p) /\
  Rsum (tdl_mean_powers t) = 1 /\ Forall (fun x => 0 < x) (tdl_mean_powers t) /\
  tdl_delays t = map (fun d => d * (if pf_scalable p then ta_ds a else 1e-9)) (tap_delays p) /\
  td_num t = Z.of_nat (length (tdl_mean_powers t)) /\ length (tdl_delays t) = length (tdl_mean_powers t).
Proof.
  intros I D. pose proof (init_shape _ _ _ _ I D) as S.
  pose proof (total_pos p (sh_rows _ _ _ _ S)) as T.
  rewrite (mean_powers_doc _ _ _ _ S).
  split; [reflexivity|]. split; [rewrite Rsum_map_div, tap_total; field; lra|]. split.
  { apply Forall_forall. intros x Hx. apply in_map_iff in Hx. destruct Hx as (y & <- & Hy).
    apply Rdiv_lt_0_compat; [exact (tap_pos p y Hy)|exact T]. }
  assert (ED : tdl_delays t = map (fun d => d * (if pf_scalable p then ta_ds a else 1e-9)) (tap_delays p)).
  { unfold tdl_delays. rewrite (sh_scale _ _ _ _ S), (sh_delays _ _ _ _ S). destruct (pf_scalable p) eqn:E; [|reflexivity].
    rewrite (sh_ds _ _ _ _ S E). reflexivity. }
  split; [exact ED|]. rewrite map_length. split; [apply (sh_num _ _ _ _ S)|].
  rewrite ED, map_length. unfold tap_delays, tap_powers, linear_powers. pose proof (sh_rows2 _ _ _ _ S).
  destruct (pf_los p); [|rewrite !map_length; reflexivity].
  destruct (pf_rows p) as [|r1 [|r2 rs]]; cbn in *; [specialize (H eq_refl); lia|specialize (H eq_refl); lia|rewrite !map_length; reflexivity].
Qed.

(* the K-factor separates the specular from the diffuse part of the first tap *)
Lemma C54_ricean_l chol a t p : tdl_init chol a = Ok t -> documented_profile (ta_model a) = Some p ->
  (pf_los p = true ->
     exists s d rest, linear_powers p = s :: d :: rest /\
       tdl_mean_power_los t = Ok (s / total_power p) /\ tdl_k_factor t = Ok (s / d) /\
       nth 0 (tdl_mean_powers t) 0 = (s + d) / total_power p) /\
  (pf_los p = false -> exists m1 m2, tdl_mean_power_los t = Err (AssertionError m1) /\ tdl_k_factor t = Err (AssertionError m2)).
Proof.
  intros I D. pose proof (init_shape _ _ _ _ I D) as S. pose proof (total_pos p (sh_rows _ _ _ _ S)) as T.
  unfold tdl_mean_power_los, tdl_k_factor. rewrite (sh_los _ _ _ _ S). split; intros E; rewrite E.
  - pose proof (mean_powers_doc _ _ _ _ S) as M. pose proof (linear_pos p) as P.
    assert (LL : length (linear_powers p) = length (pf_rows p)) by (unfold linear_powers; apply map_length).
    pose proof (sh_rows2 _ _ _ _ S E). rewrite (sh_powers _ _ _ _ S), (sh_los_power _ _ _ _ S), M.
    unfold tap_powers, diffuse_powers, specular_power. rewrite E.
    destruct (linear_powers p) as [|x [|y l]] eqn:El; cbn in LL; try lia. exists x, y, l. cbn.
    repeat split. f_equal. pose proof (P y (or_intror (or_introl eq_refl))). field. lra.
  - eexists; eexists; split; reflexivity.
Qed.

(* construction *)
Definition speeds_ok (a : tdl_args) : Prop := match ta_max_speed a with None => True | Some v => ta_min_speed a <= v end.

Lemma C54_constructs_l chol a p :
  documented_profile (ta_model a) = Some p -> 160000 <= ta_height a -> 0 <= ta_elev a <= 90 ->
  (match ta_max_speed a with None => True | Some v => ta_min_speed a <= v end) ->
  (forall m, ta_spatial a = Some m -> exists l, chol (ta_rx a * ta_tx a)%nat m = Some l) ->
  (forall m, ta_rx_corr a = Some m -> exists l, chol (ta_rx a) m = Some l) ->
  (forall m, ta_tx_corr a = Some m -> exists l, chol (ta_tx a) m = Some l) ->
  exists t, tdl_init chol a = Ok t.
Proof.
  intros D H1 [H2 H3] H4 C1 C2 C3. destruct (doc_fields _ _ D) as (f & o & num & Ef & Eo & F & En & L2 & L1).
  unfold tdl_init.
  assert (mem (ta_model a) tdl_models = true) as ->.
  { unfold documented_profile in D.
    repeat match type of D with (if String.eqb ?x ?y then _ else _) = _ => destruct (String.eqb_spec x y) as [->|_]; [reflexivity|] end.
    discriminate. }
  cbn [negb]. rewrite Ef. cbn [fst snd].
  apply Rleb_true in H1, H2, H3. rewrite H1, H2, H3. cbn [negb andb].
  rewrite Eo. cbn [bind]. rewrite (load_doc o p num F L2). cbn [bind].
  assert (exists v, match ta_max_speed a with None => Ok (ta_min_speed a) | Some v => if Rleb (ta_min_speed a) v then Ok v
     else Err (AssertionError "min_speed cannot be larger than max_speed") end = Ok v) as [v ->].
  { destruct (ta_max_speed a) as [w|]; [|eexists; reflexivity]. apply Rleb_true in H4. rewrite H4. eexists; reflexivity. }
  cbn [bind].
  destruct (ta_spatial a) as [m|].
  - destruct (C1 m eq_refl) as [l E]. unfold apply_chol. rewrite E. cbn [bind]. eexists; reflexivity.
  - unfold apply_chol. destruct (ta_rx_corr a) as [m1|]; [destruct (C2 m1 eq_refl) as [l1 ->]|]; cbn [bind];
    (destruct (ta_tx_corr a) as [m2|]; [destruct (C3 m2 eq_refl) as [l2 ->]|]; cbn [bind]; eexists; reflexivity).
Qed.

Lemma C54_rejected_l chol a : ~ In (ta_model a) ["A"; "B"; "C"; "D"; "E"; "A30"; "B100"; "C300"] ->
  exists m, tdl_init chol a = Err (AssertionError m).
Proof.
  intros N. unfold tdl_init. destruct (mem (ta_model a) tdl_models) eqn:E; [|eexists; reflexivity].
  exfalso. apply N. unfold mem in E. apply existsb_exists in E. destruct E as (x & I & Q). apply String.eqb_eq in Q. subst. exact I.
Qed.

(* model E is accepted by the documented list and the check, but cannot be constructed *)
Lemma C54_E_l chol a : ta_model a = "E" -> 160000 <= ta_height a -> 0 <= ta_elev a <= 90 ->
  tdl_init chol a = Err (UnboundLocalError "parameters_fname").
Proof.
  intros E H1 [H2 H3]. unfold tdl_init. rewrite E. cbn [mem]. apply Rleb_true in H1, H2, H3. rewrite H1, H2, H3. reflexivity.
Qed.

(* histories of the delay spread setter *)
Definition last_set (v : R) (l : list R) : R := last l v.
Lemma set_ds_scale t v : td_scale (tdl_set_ds t v) = td_scale t /\ td_delays (tdl_set_ds t v) = td_delays t /\
  tdl_mean_powers (tdl_set_ds t v) = tdl_mean_powers t /\ td_ds (tdl_set_ds t v) = (if td_scale t then v else td_ds t).
Proof. unfold tdl_set_ds, tdl_mean_powers. destruct (td_scale t) eqn:E; cbn; rewrite ?E; repeat split. Qed.
Lemma set_ds_run l t : let t' := fold_left tdl_set_ds l t in
  td_scale t' = td_scale t /\ td_delays t' = td_delays t /\ tdl_mean_powers t' = tdl_mean_powers t /\
  td_ds t' = (if td_scale t then last l (td_ds t) else td_ds t).
Proof.
  revert t. induction l as [|v l IH]; intros t; cbn [fold_left].
  - cbn. destruct (td_scale t); repeat split.
  - destruct (IH (tdl_set_ds t v)) as (A & B & C & D). destruct (set_ds_scale t v) as (A' & B' & C' & D').
    cbv zeta. rewrite A, B, C, D, A', B', C', D'. repeat split. destruct (td_scale t); [|reflexivity].
    destruct l as [|w l]; [reflexivity|]. clear. revert w v. induction l as [|x l IH]; intros w v; [reflexivity|].
    cbn [last] in *. apply IH.
Qed.

Lemma set_ds_coefficients l t fs d :
  (h <- tdl_call (fold_left tdl_set_ds l t) fs d ;; Ok (fst h)) = (h <- tdl_call t fs d ;; Ok (fst h)).
Proof.
  revert t. induction l as [|v l IH]; intros t; [reflexivity|]. cbn [fold_left]. rewrite IH.
  unfold tdl_set_ds. destruct (td_scale t); [|reflexivity].
  unfold tdl_call. cbn [td_num td_powers]. destruct (Z.eqb _ _); reflexivity.
Qed.

Lemma C54_setter_l chol a t p l : tdl_init chol a = Ok t -> documented_profile (ta_model a) = Some p ->
  let t' := fold_left tdl_set_ds l t in
  tdl_mean_powers t' = tdl_mean_powers t /\
  tdl_delays t' = map (fun d => d * (if pf_scalable p then last l (ta_ds a) else 1e-9)) (tap_delays p) /\
  (pf_scalable p = false -> td_ds t' = td_ds t) /\
  forall fs d, (h <- tdl_call t' fs d ;; Ok (fst h)) = (h <- tdl_call t fs d ;; Ok (fst h)).
Proof.
  intros I D. pose proof (init_shape _ _ _ _ I D) as S. destruct (set_ds_run l t) as (A & B & C & E).
  cbv zeta in *. split; [exact C|]. split.
  - unfold tdl_delays. rewrite A, B, E, (sh_scale _ _ _ _ S), (sh_delays _ _ _ _ S).
    destruct (pf_scalable p) eqn:P; [|reflexivity]. rewrite (sh_ds _ _ _ _ S P). reflexivity.
  - split; [|apply set_ds_coefficients]. intros P. rewrite E, (sh_scale _ _ _ _ S), P. reflexivity.
Qed.
