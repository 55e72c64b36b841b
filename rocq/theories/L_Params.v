From Coq Require Import Reals String List Bool Arith Lia Lra ZArith QArith Qreals.
From Verif Require Import M_Base L_Base M_Json M_Params S_Config.
Import ListNotations.
Open Scope string_scope.
Open Scope R_scope.

(* ---- finite enumeration of the shipped tables ---- *)
Definition all_env : list env := [DenseUrban; Urban; SubUrban].
Definition all_bool : list bool := [true; false].

Definition fname (e : env) (ul sb los : bool) : string :=
  env_name e ++ "_" ++ state_name los ++ "_" ++ (if sb then "S_band" else "Ka_band")
    ++ "_" ++ (if ul then "UL" else "DL") ++ ".json".

Definition raw (e : env) (ul sb los : bool) : json_obj :=
  match open_model (fname e ul sb los) with Ok o => o | Err _ => [] end.

Definition tbl (e : env) (ul sb los : bool) : params :=
  match load_params (fname e ul sb los) with Ok p => p | Err _ => [] end.

Lemma all_env_in e : In e all_env. Proof. destruct e; simpl; auto. Qed.
Lemma all_bool_in b : In b all_bool. Proof. destruct b; simpl; auto. Qed.

Definition for_tables (f : env -> bool -> bool -> bool) : bool :=
  forallb (fun e => forallb (fun ul => forallb (fun sb => f e ul sb) all_bool) all_bool) all_env.

Lemma for_tables_spec f : for_tables f = true -> forall e ul sb, f e ul sb = true.
Proof.
  unfold for_tables; intros H e ul sb.
  rewrite forallb_forall in H; specialize (H e (all_env_in e)).
  rewrite forallb_forall in H; specialize (H ul (all_bool_in ul)).
  rewrite forallb_forall in H; exact (H sb (all_bool_in sb)).
Qed.

Definition load_okb (e : env) (ul sb los : bool) : bool :=
  match load_params (fname e ul sb los) with Ok _ => true | Err _ => false end.

Lemma all_load : for_tables (fun e ul sb => load_okb e ul sb true && load_okb e ul sb false) = true.
Proof. vm_compute. reflexivity. Qed.

Lemma load_tbl e ul sb los : load_params (fname e ul sb los) = Ok (tbl e ul sb los).
Proof.
  generalize (for_tables_spec _ all_load e ul sb). unfold load_okb, tbl.
  rewrite andb_true_iff; intros [H1 H2].
  destruct los.
  - destruct (load_params (fname e ul sb true)); [reflexivity | discriminate].
  - destruct (load_params (fname e ul sb false)); [reflexivity | discriminate].
Qed.

Lemma load_raw e ul sb los : open_model (fname e ul sb los) = Ok (raw e ul sb los).
Proof.
  generalize (load_tbl e ul sb los). unfold load_params, raw, bind.
  destruct (open_model (fname e ul sb los)); [reflexivity | discriminate].
Qed.

(* ---- bands ---- *)
Lemma in_supported_band_true fc :
  in_supported_band fc = true <-> in_S_band fc \/ in_Ka_band fc.
Proof.
  unfold in_supported_band, in_S_band, in_Ka_band.
  rewrite orb_true_iff, !andb_true_iff, !Rleb_true. tauto.
Qed.

Lemma is_s_band_true fc : in_S_band fc -> is_s_band fc = true.
Proof.
  unfold in_S_band, is_s_band; intros H.
  rewrite andb_true_iff, !Rleb_true. lra.
Qed.

Lemma is_s_band_false fc : in_Ka_band fc -> is_s_band fc = false.
Proof.
  unfold in_Ka_band, is_s_band; intros H.
  rewrite andb_false_iff. right. rewrite Rleb_false. lra.
Qed.

Definition dir_ul (d : string) : bool := String.eqb d "uplink".

Lemma los_path e d fc : in_supported_band fc = true ->
  los_parameter_filepath e d fc = Ok (fname e (dir_ul d) (is_s_band fc) true).
Proof.
  unfold los_parameter_filepath, dir_ul; intros ->.
  destruct (String.eqb d "uplink"), (is_s_band fc), e; reflexivity.
Qed.

Lemma nlos_path e d fc : in_supported_band fc = true ->
  nlos_parameter_filepath e d fc = Ok (fname e (dir_ul d) (is_s_band fc) false).
Proof.
  unfold nlos_parameter_filepath, dir_ul; intros ->.
  destruct (String.eqb d "uplink"), (is_s_band fc), e; reflexivity.
Qed.

Lemma Reqb_true' x y : Reqb x y = true <-> x = y.
Proof. unfold Reqb. destruct (Req_EM_T x y); split; congruence. Qed.

(* ---- construction ---- *)
Lemma scenario_init_ok e fc ut bs d el pl sf dop :
  supported_config fc ut bs d el ->
  scenario_init e fc ut bs d el pl sf dop =
  Ok {| sc_env := e; sc_dir := d; sc_fc := fc; sc_lambda := speed_of_light / fc;
        sc_elev := el; sc_pathloss := pl; sc_shadow := sf; sc_doppler := dop;
        sc_plos := tbl e (dir_ul d) (is_s_band fc) true;
        sc_pnlos := tbl e (dir_ul d) (is_s_band fc) false |}.
Proof.
  intros (Hd & Hb & Hu & Hs & Hlu & Hlb & He).
  assert (Hb' : in_supported_band fc = true) by (apply in_supported_band_true; exact Hb).
  unfold scenario_init.
  replace (String.eqb d "uplink" || String.eqb d "downlink") with true
    by (destruct Hd as [-> | ->]; reflexivity).
  rewrite Hb', Hu, Hs. cbn [negb].
  replace (Reqb (aa_lambda ut) (aa_lambda bs)) with true
    by (symmetry; apply Reqb_true'; congruence).
  replace (Reqb (aa_lambda bs) (speed_of_light / fc)) with true
    by (symmetry; apply Reqb_true'; congruence).
  replace (Rleb 10 el) with true by (symmetry; apply Rleb_true; lra).
  replace (Rleb el 90) with true by (symmetry; apply Rleb_true; lra).
  cbn [negb andb].
  rewrite (los_path e d fc Hb'). cbn [bind]. rewrite load_tbl. cbn [bind].
  rewrite (nlos_path e d fc Hb'). cbn [bind]. rewrite load_tbl. cbn [bind].
  reflexivity.
Qed.

Lemma scenario_init_inv e fc ut bs d el pl sf dop sc :
  scenario_init e fc ut bs d el pl sf dop = Ok sc -> supported_config fc ut bs d el.
Proof.
  unfold scenario_init, supported_config.
  destruct (String.eqb d "uplink" || String.eqb d "downlink") eqn:Hd; [| discriminate].
  destruct (in_supported_band fc) eqn:Hb; [| discriminate].
  destruct (aa_panel ut) eqn:Hu; [| discriminate].
  destruct (aa_panel bs) eqn:Hs; [| discriminate].
  destruct (Reqb (aa_lambda ut) (aa_lambda bs) && Reqb (aa_lambda bs) (speed_of_light / fc)) eqn:Hl;
    [| discriminate].
  destruct (Rleb 10 el && Rleb el 90) eqn:He; [| discriminate].
  intros _.
  apply orb_true_iff in Hd. rewrite !String.eqb_eq in Hd.
  apply in_supported_band_true in Hb.
  apply andb_true_iff in Hl. rewrite !Reqb_true' in Hl. destruct Hl as [Hl1 Hl2].
  apply andb_true_iff in He. rewrite !Rleb_true in He.
  repeat split; try tauto; try congruence; try lra.
Qed.

Lemma construct_iff e fc ut bs d el pl sf dop :
  is_ok (scenario_init e fc ut bs d el pl sf dop) <-> supported_config fc ut bs d el.
Proof.
  split.
  - intros [sc H]. exact (scenario_init_inv _ _ _ _ _ _ _ _ _ _ H).
  - intros H. rewrite (scenario_init_ok e fc ut bs d el pl sf dop H). eexists; reflexivity.
Qed.

(* what an accepted scenario looks like *)
Record accepted (sc : scenario) : Prop := {
  ac_dir : sc_dir sc = "uplink" \/ sc_dir sc = "downlink";
  ac_band : in_S_band (sc_fc sc) \/ in_Ka_band (sc_fc sc);
  ac_elev : 10 <= sc_elev sc <= 90;
  ac_lambda : sc_lambda sc = speed_of_light / sc_fc sc;
  ac_los : sc_plos sc = tbl (sc_env sc) (dir_ul (sc_dir sc)) (is_s_band (sc_fc sc)) true;
  ac_nlos : sc_pnlos sc = tbl (sc_env sc) (dir_ul (sc_dir sc)) (is_s_band (sc_fc sc)) false }.

Lemma init_accepted e fc ut bs d el pl sf dop sc :
  scenario_init e fc ut bs d el pl sf dop = Ok sc ->
  accepted sc /\ sc_env sc = e /\ sc_fc sc = fc /\ sc_dir sc = d /\ sc_elev sc = el /\
  sc_pathloss sc = pl /\ sc_shadow sc = sf /\ sc_doppler sc = dop.
Proof.
  intros H. assert (Hs := scenario_init_inv _ _ _ _ _ _ _ _ _ _ H).
  rewrite (scenario_init_ok e fc ut bs d el pl sf dop Hs) in H. inversion H; subst sc; clear H.
  destruct Hs as (Hd & Hb & _ & _ & _ & _ & He).
  split; [| repeat split]. constructor; cbn; auto.
Qed.

(* ---- table selection (C02) ---- *)
Lemma right_file_fname e fc d los (Hd : d = "uplink" \/ d = "downlink")
  (Hb : in_S_band fc \/ in_Ka_band fc) :
  right_file e fc d los (fname e (dir_ul d) (is_s_band fc) los).
Proof.
  unfold fname.
  assert (B : band_name fc (if is_s_band fc then "S_band" else "Ka_band")).
  { destruct Hb as [H | H].
    - rewrite (is_s_band_true _ H). constructor; exact H.
    - rewrite (is_s_band_false _ H). constructor; exact H. }
  assert (D : dir_name d (if dir_ul d then "UL" else "DL")).
  { destruct Hd as [-> | ->]; constructor. }
  exact (RF e fc d los _ _ B D).
Qed.

Lemma load_value_number v p : load_value v = Ok p -> json_number v (pval_ext p).
Proof.
  destruct v as [m x | z | b | s | l]; cbn; try discriminate.
  - intros [= <-]. constructor.
  - intros [= <-]. constructor.
  - destruct (String.eqb s "-inf") eqn:E; [| discriminate].
    apply String.eqb_eq in E. subst s. intros [= <-]. constructor.
Qed.

Lemma load_entries_lookup o : forall p k v,
  load_entries o = Ok p -> plookup_opt k p = Some v ->
  exists j, jlookup k o = Some j /\ load_value j = Ok v.
Proof.
  induction o as [| [k0 j0] o IH]; intros p k v; cbn [load_entries].
  - intros [= <-]; discriminate.
  - destruct (load_value j0) as [p0 | er] eqn:E0; cbn [bind]; [| discriminate].
    destruct (load_entries o) as [r | er] eqn:Er; cbn [bind]; [| discriminate].
    intros [= <-]. cbn [plookup_opt jlookup].
    destruct (plookup_opt k r) as [w |] eqn:Ew.
    + intros [= <-]. destruct (IH r k w eq_refl Ew) as (j & Hj & Hl).
      rewrite Hj. eauto.
    + assert (Hn : jlookup k o = None).
      { clear -Ew Er. revert r Ew Er. induction o as [| [k1 j1] o IH]; intros r Ew Er; [reflexivity|].
        cbn [load_entries] in Er.
        destruct (load_value j1) as [p1|]; cbn [bind] in Er; [| discriminate].
        destruct (load_entries o) as [r1|] eqn:E1; cbn [bind] in Er; [| discriminate].
        inversion Er; subst r; clear Er. cbn [plookup_opt] in Ew. cbn [jlookup].
        destruct (plookup_opt k r1) eqn:E2; [discriminate |].
        rewrite (IH r1 E2 eq_refl).
        destruct (String.eqb k k1); [discriminate | reflexivity]. }
      rewrite Hn. destruct (String.eqb k k0); [| discriminate].
      intros [= <-]. eauto.
Qed.

Lemma load_params_lookup name p k v :
  load_params name = Ok p -> plookup k p = Ok v ->
  exists o j, open_model name = Ok o /\ jlookup k o = Some j /\ json_number j (pval_ext v).
Proof.
  unfold load_params, bind, plookup.
  destruct (open_model name) as [o |]; [| discriminate].
  intros Hl Hp. destruct (plookup_opt k p) as [w |] eqn:E; [| discriminate].
  inversion Hp; subst w. destruct (load_entries_lookup o p k v Hl E) as (j & Hj & Hv).
  exists o, j. split; [reflexivity|]. split; [exact Hj|]. exact (load_value_number _ _ Hv).
Qed.

(* ---- elevation rounding (C03) ---- *)
Lemma angle_col_spec x : nearest_ten x (angle_col x).
Proof.
  unfold nearest_ten, angle_col. exists (py_round (x / 10)).
  split; [ring|].
  assert (H := py_round_spec (x / 10)).
  destruct H as [H1 H2]. rewrite mult_IZR.
  replace (x - IZR (py_round (x / 10)) * 10) with (10 * (x / 10 - IZR (py_round (x / 10)))) by field.
  rewrite Rabs_mult, (Rabs_right 10) by lra. split; [lra|].
  intros E. apply H2. lra.
Qed.

Lemma nearest_ten_unique x c : nearest_ten x c -> c = angle_col x.
Proof.
  intros (t & -> & H1 & H2). unfold angle_col.
  rewrite (py_round_unique (x / 10) t); [ring | |]; rewrite mult_IZR in *;
  replace (x - 10 * IZR t) with (10 * (x / 10 - IZR t)) in * by field;
  rewrite Rabs_mult, (Rabs_right 10) in * by lra; [lra|].
  intros E. apply H2. lra.
Qed.

Lemma angle_col_range x : 10 <= x <= 90 -> (10 <= angle_col x <= 90)%Z.
Proof.
  intros [H1 H2]. unfold angle_col.
  assert (A := py_round_mono (10/10) (x/10) ltac:(lra)).
  assert (B := py_round_mono (x/10) (90/10) ltac:(lra)).
  assert (E1 : 1%Z = py_round (10/10)).
  { apply py_round_unique; replace (10/10 - 1) with 0 by lra; rewrite Rabs_R0; lra. }
  assert (E9 : 9%Z = py_round (90/10)).
  { apply py_round_unique; replace (90/10 - 9) with 0 by lra; rewrite Rabs_R0; lra. }
  lia.
Qed.

Definition cols : list Z := [10; 20; 30; 40; 50; 60; 70; 80; 90]%Z.

Lemma angle_col_in x : 10 <= x <= 90 -> In (angle_col x) cols.
Proof.
  intros H. assert (R := angle_col_range x H).
  assert (exists t, angle_col x = (10 * t)%Z) as [t E].
  { exists (py_round (x/10)). unfold angle_col. ring. }
  rewrite E in *. assert (1 <= t <= 9)%Z by lia.
  assert (t = 1 \/ t = 2 \/ t = 3 \/ t = 4 \/ t = 5 \/ t = 6 \/ t = 7 \/ t = 8 \/ t = 9)%Z as D by lia.
  unfold cols; simpl.
  destruct D as [-> | [-> | [-> | [-> | [-> | [-> | [-> | [-> | ->]]]]]]]]; simpl; tauto.
Qed.

Definition for_cols (f : env -> bool -> bool -> bool -> Z -> bool) : bool :=
  for_tables (fun e ul sb =>
    forallb (fun los => forallb (fun c => f e ul sb los c) cols) all_bool).

Lemma for_cols_spec f : for_cols f = true ->
  forall e ul sb los c, In c cols -> f e ul sb los c = true.
Proof.
  intros H e ul sb los c Hc. apply for_tables_spec with (e := e) (ul := ul) (sb := sb) in H.
  rewrite forallb_forall in H. specialize (H los (all_bool_in los)).
  rewrite forallb_forall in H. exact (H c Hc).
Qed.

(* ---- looking many names up: tables of one kind list the same keys in the same order, so that a
   position is searched once for all of them ---- *)
Fixpoint key_pos (k : string) (ks : list string) : option nat :=
  match ks with
  | [] => None
  | k' :: ks' => match key_pos k ks' with
                 | Some i => Some (S i)
                 | None => if String.eqb k k' then Some O else None
                 end
  end.

Lemma lookup_pos k p : plookup_opt k p =
  match key_pos k (map fst p) with Some i => nth_error (map snd p) i | None => None end.
Proof.
  induction p as [| [k' v] p IH]; [reflexivity|]. cbn [plookup_opt map fst snd key_pos]. rewrite IH.
  destruct (key_pos k (map fst p)) as [i |] eqn:E; [| destruct (String.eqb k k'); reflexivity].
  cbn [nth_error]. destruct (nth_error (map snd p) i) as [w |] eqn:N; [reflexivity|]. exfalso.
  apply nth_error_None in N. rewrite map_length in N.
  clear IH. revert i E N. induction p as [| [k1 v1] p IHp]; intros i E N; [discriminate|].
  cbn [map fst key_pos] in E. destruct (key_pos k (map fst p)) as [j |].
  - injection E as <-. apply (IHp j eq_refl). cbn [length] in N. lia.
  - destruct (String.eqb k k1); [| discriminate]. injection E as <-. cbn [length] in N. lia.
Qed.

Definition tbl_keys (los : bool) : list string := map fst (tbl DenseUrban true true los).

Fixpoint same_keys (a b : list string) : bool :=
  match a, b with
  | [], [] => true
  | x :: a', y :: b' => String.eqb x y && same_keys a' b'
  | _, _ => false
  end.

Lemma same_keys_eq a : forall b, same_keys a b = true -> a = b.
Proof.
  induction a as [| x a IH]; intros [| y b] H; try discriminate; [reflexivity|].
  cbn in H. apply andb_true_iff in H. destruct H as [H1 H2]. apply String.eqb_eq in H1.
  rewrite H1, (IH b H2). reflexivity.
Qed.

Lemma keys_same : forallb (fun los => (fun ks =>
  for_tables (fun e ul sb => same_keys (map fst (tbl e ul sb los)) ks)) (tbl_keys los)) all_bool = true.
Proof. vm_compute. reflexivity. Qed.

Lemma tbl_keys_eq e ul sb los : map fst (tbl e ul sb los) = tbl_keys los.
Proof.
  assert (H := keys_same). rewrite forallb_forall in H. specialize (H los (all_bool_in los)).
  exact (same_keys_eq _ _ (for_tables_spec _ H e ul sb)).
Qed.

Definition all_tables : list (env * bool * bool) :=
  flat_map (fun e => flat_map (fun ul => map (fun sb => (e, ul, sb)) all_bool) all_bool) all_env.

Lemma all_tables_in e ul sb : In (e, ul, sb) all_tables.
Proof. destruct e, ul, sb; cbn; tauto. Qed.

Definition table_values (los : bool) : list (env * bool * bool * list pval) :=
  map (fun t => (t, map snd (tbl (fst (fst t)) (snd (fst t)) (snd t) los))) all_tables.

Definition fast_check {A} (key : A -> Z -> string)
    (test : env -> bool -> bool -> bool -> Z -> A -> pval -> bool) (items : list A) : bool :=
  forallb (fun los => (fun ks vs =>
    forallb (fun c => forallb (fun a =>
      match key_pos (key a c) ks with
      | None => false
      | Some i => forallb (fun tv =>
          match nth_error (snd tv) i with
          | Some v => test (fst (fst (fst tv))) (snd (fst (fst tv))) (snd (fst tv)) los c a v
          | None => false
          end) vs
      end) items) cols) (tbl_keys los) (table_values los)) all_bool.

Lemma fast_check_spec {A} key test (items : list A) : fast_check key test items = true ->
  forall e ul sb los c a, In c cols -> In a items ->
  exists v, plookup_opt (key a c) (tbl e ul sb los) = Some v /\ test e ul sb los c a v = true.
Proof.
  intros H e ul sb los c a Hc Ha. unfold fast_check in H.
  rewrite forallb_forall in H. specialize (H los (all_bool_in los)). cbv beta in H.
  rewrite forallb_forall in H. specialize (H c Hc).
  rewrite forallb_forall in H. specialize (H a Ha).
  rewrite lookup_pos, tbl_keys_eq. destruct (key_pos (key a c) (tbl_keys los)) as [i |]; [| discriminate].
  rewrite forallb_forall in H.
  specialize (H (e, ul, sb, map snd (tbl e ul sb los))). cbn [fst snd] in H.
  assert (I : In (e, ul, sb, map snd (tbl e ul sb los)) (table_values los)).
  { unfold table_values. apply (in_map (fun t => (t, map snd (tbl (fst (fst t)) (snd (fst t)) (snd t) los)))
      all_tables (e, ul, sb)), all_tables_in. }
  specialize (H I). destruct (nth_error (map snd (tbl e ul sb los)) i) as [v |]; [| discriminate].
  exists v. split; [reflexivity | exact H].
Qed.

(* ---- every requested name is present (C04) ---- *)
(* all names passed to get_param anywhere in the package, plus the direct look-ups that
   exist in both kinds of table *)
Definition requested : list string :=
  [ "muDS"; "muASD"; "muASA"; "muK"; "muZSA"; "muZSD"; "sigmaDS"; "sigmaASD"; "sigmaASA";
    "sigmaSF"; "sigmaK"; "sigmaZSA"; "sigmaZSD"; "rTau"; "zeta"; "cASD"; "cASA"; "cZSA";
    "CPhiNLoS"; "CThetaNLoS"; "muXPR"; "sigmaXPR"; "cDS"; "LoS_p"; "numClusters" ]
  ++ map fst corr_names ++ corrdist_names.

Definition may_be_ninf (ul : bool) (name : string) : bool :=
  negb ul && (String.eqb name "muASD" || String.eqb name "muZSD").

Definition name_ok (e : env) (ul sb los : bool) (c : Z) (name : string) : bool :=
  match plookup_opt (param_key name (string_of_Z c)) (tbl e ul sb los) with
  | None => false
  | Some PNegInf => may_be_ninf ul name
  | Some _ => true
  end.

Lemma names_fast : fast_check (fun name c => param_key name (string_of_Z c))
  (fun e ul sb los c name v => match v with PNegInf => may_be_ninf ul name | _ => true end) requested = true.
Proof. vm_compute. reflexivity. Qed.

Lemma names_ok e ul sb los c name : In c cols -> In name requested -> name_ok e ul sb los c name = true.
Proof.
  intros Hc Hn. destruct (fast_check_spec _ _ _ names_fast e ul sb los c name Hc Hn) as (v & Hv & T).
  unfold name_ok. rewrite Hv. destruct v; [reflexivity | reflexivity | exact T].
Qed.

Lemma name_present e ul sb los c name : In c cols -> In name requested ->
  exists v, plookup (param_key name (string_of_Z c)) (tbl e ul sb los) = Ok v /\
    (v = PNegInf -> ul = false /\ (name = "muASD" \/ name = "muZSD")).
Proof.
  intros Hc Hn. assert (H := names_ok e ul sb los c name Hc Hn).
  unfold name_ok in H. unfold plookup.
  destruct (plookup_opt _ _) as [v |]; [| discriminate]. exists v. split; [reflexivity|].
  intros ->. unfold may_be_ninf in H.
  apply andb_true_iff in H. rewrite orb_true_iff, !String.eqb_eq, negb_true_iff in H. exact H.
Qed.

Lemma cl_ok : for_cols (fun e ul sb los c =>
   match plookup_opt ("CL_" ++ string_of_Z c) (tbl e ul sb false) with
   | Some (PDec m x) => (0 <=? m)%Z | _ => false end) = true.
Proof. vm_compute. reflexivity. Qed.

(* ---- rational view of the values ---- *)
Definition pval_Q (v : pval) : option Q :=
  match v with
  | PDec m e => Some (Qmake m (Z.to_pos (10 ^ Z.of_nat e)))
  | PInt z => Some (inject_Z z)
  | PNegInf => None
  end.

Lemma pval_Q_ext v : pval_ext v = match pval_Q v with Some q => Fin (Q2R q) | None => NegInf end.
Proof.
  destruct v as [m e | z |]; cbn [pval_ext pval_Q]; [| | reflexivity].
  - f_equal. unfold Q2R. cbn [Qnum Qden]. unfold Rdiv. f_equal. f_equal.
    rewrite Z2Pos.id by (apply Z.pow_pos_nonneg; lia).
    rewrite <- pow_IZR. reflexivity.
  - f_equal. unfold Q2R, inject_Z; cbn. field.
Qed.

Definition in_rangeb (lo hi : Q) (v : pval) : bool :=
  match pval_Q v with Some q => Qle_bool lo q && Qle_bool q hi | None => false end.

Lemma in_rangeb_spec lo hi v : in_rangeb lo hi v = true ->
  exists r, pval_ext v = Fin r /\ Q2R lo <= r <= Q2R hi.
Proof.
  unfold in_rangeb. rewrite pval_Q_ext. destruct (pval_Q v) as [q |]; [| discriminate].
  rewrite andb_true_iff, !Qle_bool_iff. intros [H1 H2].
  exists (Q2R q). split; [reflexivity|]. split; apply Qle_Rle; assumption.
Qed.

(* ranges that hold in every shipped table and column *)
Definition ranges : list (string * (Q * Q)) :=
  [ ("sigmaDS", (0, 20)); ("sigmaASD", (0, 20)); ("sigmaASA", (0, 20)); ("sigmaSF", (0, 20));
    ("sigmaK", (0, 20)); ("sigmaZSA", (0, 20)); ("sigmaZSD", (0, 20)); ("sigmaXPR", (0, 50));
    ("corrDistDS", (1, 1000)); ("corrDistASD", (1, 1000)); ("corrDistASA", (1, 1000));
    ("corrDistSF", (1, 1000)); ("corrDistK", (1, 1000)); ("corrDistZSA", (1, 1000));
    ("corrDistZSD", (1, 1000));
    ("rTau", (2, 4)); ("zeta", (3, 3)); ("cASD", (0, 7)); ("cASA", (11, 33)); ("cZSA", (1, 17));
    ("cDS", (1, 4)); ("LoS_p", (0, 1)); ("muK", (0, 41)); ("CPhiNLoS", (6#10, 8#10));
    ("CThetaNLoS", (5#10, 7#10)); ("muDS", (-12, -5)); ("muASA", (-5, 3)); ("muZSA", (-5, 3));
    ("muXPR", (0, 50)); ("numClusters", (2, 4)) ]%Q.

Definition range_ok (e : env) (ul sb los : bool) (c : Z) (nr : string * (Q * Q)) : bool :=
  match plookup_opt (param_key (fst nr) (string_of_Z c)) (tbl e ul sb los) with
  | Some v => in_rangeb (fst (snd nr)) (snd (snd nr)) v
  | None => false
  end.

Lemma ranges_fast : fast_check (fun nr c => param_key (fst nr) (string_of_Z c))
  (fun e ul sb los c nr v => in_rangeb (fst (snd nr)) (snd (snd nr)) v) ranges = true.
Proof. vm_compute. reflexivity. Qed.

Lemma ranges_ok e ul sb los c nr : In c cols -> In nr ranges -> range_ok e ul sb los c nr = true.
Proof.
  intros Hc Hn. destruct (fast_check_spec _ _ _ ranges_fast e ul sb los c nr Hc Hn) as (v & Hv & T).
  unfold range_ok. rewrite Hv. exact T.
Qed.

Lemma range_lookup e ul sb los c name lo hi : In c cols -> In (name, (lo, hi)) ranges ->
  exists v r, plookup (param_key name (string_of_Z c)) (tbl e ul sb los) = Ok v /\
    pval_ext v = Fin r /\ Q2R lo <= r <= Q2R hi.
Proof.
  intros Hc Hn. assert (H := ranges_ok e ul sb los c _ Hc Hn).
  unfold range_ok in H. cbn [fst snd] in H. unfold plookup.
  destruct (plookup_opt _ _) as [v |]; [| discriminate].
  destruct (in_rangeb_spec _ _ _ H) as (r & H1 & H2). exists v, r. auto.
Qed.

(* ---- LoS probability: same in both files, non-decreasing in elevation ---- *)
Definition losp_opt (e : env) (ul sb los : bool) (c : Z) : option Q :=
  match plookup_opt ("LoS_p_" ++ string_of_Z c) (tbl e ul sb los) with
  | Some v => pval_Q v | None => None end.

Definition losp_row (e : env) (ul sb los : bool) : list (Z * option Q) :=
  (fun p => map (fun c => (c, match plookup_opt ("LoS_p_" ++ string_of_Z c) p with
                              | Some v => pval_Q v | None => None end)) cols) (tbl e ul sb los).

Lemma losp_in e ul sb los c : In c cols -> In (c, losp_opt e ul sb los c) (losp_row e ul sb los).
Proof.
  intros H. unfold losp_row, losp_opt. generalize (tbl e ul sb los). intros p.
  exact (in_map (fun c => (c, match plookup_opt ("LoS_p_" ++ string_of_Z c) p with
    | Some v => pval_Q v | None => None end)) cols c H).
Qed.

Definition optQ_le (a b : option Q) : bool :=
  match a, b with Some x, Some y => Qle_bool x y | _, _ => false end.
Definition losp_row_ok (l : list (Z * option Q)) : bool :=
  forallb (fun x => forallb (fun y => implb (fst x <=? fst y)%Z (optQ_le (snd x) (snd y))) l) l.

Lemma losp_ok : for_tables (fun e ul sb => (fun l1 l2 =>
  losp_row_ok l1 && losp_row_ok l2 &&
  forallb (fun x => forallb (fun y => implb (fst x =? fst y)%Z
    (optQ_le (snd x) (snd y) && optQ_le (snd y) (snd x))) l2) l1)
  (losp_row e ul sb true) (losp_row e ul sb false)) = true.
Proof. vm_compute. reflexivity. Qed.

Lemma losp_le e ul sb los c c' q q' : In c cols -> In c' cols -> (c <= c')%Z ->
  losp_opt e ul sb los c = Some q -> losp_opt e ul sb los c' = Some q' -> Q2R q <= Q2R q'.
Proof.
  intros Hc Hc' L E E'. assert (H := for_tables_spec _ losp_ok e ul sb). cbv beta in H.
  apply andb_true_iff in H. destruct H as [H _]. apply andb_true_iff in H.
  assert (K : losp_row_ok (losp_row e ul sb los) = true) by (destruct los; tauto).
  unfold losp_row_ok in K. rewrite forallb_forall in K. specialize (K _ (losp_in e ul sb los c Hc)).
  rewrite forallb_forall in K. specialize (K _ (losp_in e ul sb los c' Hc')). cbn [fst snd] in K.
  rewrite E, E' in K. apply Z.leb_le in L. rewrite L in K. cbn [implb optQ_le] in K.
  apply Qle_bool_iff in K. apply Qle_Rle, K.
Qed.

Lemma losp_same e ul sb c q q' : In c cols ->
  losp_opt e ul sb true c = Some q -> losp_opt e ul sb false c = Some q' -> Q2R q = Q2R q'.
Proof.
  intros Hc E E'. assert (H := for_tables_spec _ losp_ok e ul sb). cbv beta in H.
  apply andb_true_iff in H. destruct H as [_ K].
  rewrite forallb_forall in K. specialize (K _ (losp_in e ul sb true c Hc)).
  rewrite forallb_forall in K. specialize (K _ (losp_in e ul sb false c Hc)). cbn [fst snd] in K.
  rewrite E, E', Z.eqb_refl in K. cbn [implb optQ_le] in K. apply andb_true_iff in K. destruct K as [K1 K2].
  apply Qle_bool_iff in K1, K2. apply Qle_Rle in K1, K2. lra.
Qed.

Lemma losp_get e ul sb los c : In c cols ->
  exists v q, plookup ("LoS_p_" ++ string_of_Z c) (tbl e ul sb los) = Ok v /\
    losp_opt e ul sb los c = Some q /\ pval_ext v = Fin (Q2R q).
Proof.
  intros Hc. destruct (range_lookup e ul sb los c "LoS_p" 0 1 Hc) as (v & r & H1 & H2 & _).
  { unfold ranges. cbn. tauto. }
  change (param_key "LoS_p" (string_of_Z c)) with ("LoS_p_" ++ string_of_Z c) in H1.
  assert (Hp := H1). unfold plookup in Hp. unfold losp_opt.
  destruct (plookup_opt _ _) as [w |]; [| discriminate]. inversion Hp; subst w.
  rewrite pval_Q_ext in H2. destruct (pval_Q v) as [q |] eqn:E; [| discriminate].
  exists v, q. rewrite pval_Q_ext, E. auto.
Qed.

Lemma losp_mono e ul sb los c c' v v' r r' : In c cols -> In c' cols -> (c <= c')%Z ->
  plookup ("LoS_p_" ++ string_of_Z c) (tbl e ul sb los) = Ok v -> pval_ext v = Fin r ->
  plookup ("LoS_p_" ++ string_of_Z c') (tbl e ul sb los) = Ok v' -> pval_ext v' = Fin r' ->
  r <= r'.
Proof.
  intros Hc Hc' Hle H1 R1 H2 R2.
  destruct (losp_get e ul sb los c Hc) as (w & q & A1 & A2 & A3).
  destruct (losp_get e ul sb los c' Hc') as (w' & q' & B1 & B2 & B3).
  assert (H := losp_le e ul sb los c c' q q' Hc Hc' Hle A2 B2).
  assert (w = v) by congruence. assert (w' = v') by congruence. subst.
  congruence || (rewrite R1 in A3; rewrite R2 in B3; inversion A3; inversion B3; subst; exact H).
Qed.

Lemma losp_agree e ul sb c v v' r r' : In c cols ->
  plookup ("LoS_p_" ++ string_of_Z c) (tbl e ul sb true) = Ok v -> pval_ext v = Fin r ->
  plookup ("LoS_p_" ++ string_of_Z c) (tbl e ul sb false) = Ok v' -> pval_ext v' = Fin r' ->
  r = r'.
Proof.
  intros Hc H1 R1 H2 R2.
  destruct (losp_get e ul sb true c Hc) as (w & q & A1 & A2 & A3).
  destruct (losp_get e ul sb false c Hc) as (w' & q' & B1 & B2 & B3).
  assert (H := losp_same e ul sb c q q' Hc A2 B2).
  assert (w = v) by congruence. assert (w' = v') by congruence. subst.
  rewrite R1 in A3. rewrite R2 in B3. inversion A3. inversion B3. subst. exact H.
Qed.

(* ---- the column record ---- *)
Record good_column (ul : bool) (lp : lparams) : Prop := {
  gc_sDS : 0 <= lp_sigmaDS lp; gc_sASD : 0 <= lp_sigmaASD lp; gc_sASA : 0 <= lp_sigmaASA lp;
  gc_sSF : 0 <= lp_sigmaSF lp; gc_sK : 0 <= lp_sigmaK lp; gc_sZSA : 0 <= lp_sigmaZSA lp;
  gc_sZSD : 0 <= lp_sigmaZSD lp; gc_sX : 0 <= lp_sigmaXPR lp;
  gc_rTau : 2 <= lp_rTau lp <= 4; gc_zeta : lp_zeta lp = 3;
  gc_cASD : 0 <= lp_cASD lp; gc_cASA : 0 < lp_cASA lp; gc_cZSA : 0 < lp_cZSA lp;
  gc_cphi : 6/10 <= lp_CPhi lp; gc_cth : 5/10 <= lp_CTheta lp;
  gc_cDS : 0 < lp_cDS lp; gc_muK : 0 <= lp_muK lp <= 41;
  gc_nc : (2 <= lp_numClusters lp <= 4)%Z;
  gc_corr : length (lp_corr lp) = 21%nat;
  gc_cd : length (lp_corrDist lp) = 7%nat;
  gc_cdpos : forall i, (i < 7)%nat -> 1 <= nth i (lp_corrDist lp) 0;
  gc_ninf : (lp_muASD lp = NegInf \/ lp_muZSD lp = NegInf) -> ul = false }.

Lemma mapM_ok {A B} (f : A -> res B) (P : A -> B -> Prop) (l : list A) :
  (forall a, In a l -> exists b, f a = Ok b /\ P a b) ->
  exists bs, mapM f l = Ok bs /\ Forall2 P l bs.
Proof.
  induction l as [| a l IH]; intros H.
  - exists []. split; [reflexivity | constructor].
  - destruct (H a (or_introl eq_refl)) as (b & Hb & Pb).
    destruct IH as (bs & Hbs & Pbs). { intros a' Ha'. apply H. right; exact Ha'. }
    exists (b :: bs). cbn [mapM]. rewrite Hb. cbn [bind]. rewrite Hbs. cbn [bind].
    split; [reflexivity | constructor; assumption].
Qed.

Lemma Forall2_nth_l {A B} (P : A -> B -> Prop) l1 l2 d1 d2 i :
  Forall2 P l1 l2 -> (i < length l1)%nat -> P (nth i l1 d1) (nth i l2 d2).
Proof.
  intros H; revert i; induction H as [| a b l1 l2 H0 H IH]; intros i Hi; [cbn in Hi; lia|].
  destruct i; cbn; [exact H0 |]. apply IH. cbn in Hi. lia.
Qed.

Lemma num_look e ul sb los c name lo hi : In c cols -> In (name, (lo, hi)) ranges ->
  exists r, (v <- plookup (param_key name (string_of_Z c)) (tbl e ul sb los) ;; num_of v) = Ok r
    /\ Q2R lo <= r <= Q2R hi.
Proof.
  intros Hc Hn. destruct (range_lookup e ul sb los c name lo hi Hc Hn) as (v & r & H1 & H2 & H3).
  exists r. rewrite H1. cbn [bind]. unfold num_of. rewrite H2. auto.
Qed.

Definition corr_value (e : env) (ul sb los : bool) (c : Z) (name : string) (r : R) : Prop :=
  exists v, plookup (param_key name (string_of_Z c)) (tbl e ul sb los) = Ok v /\ pval_ext v = Fin r.

Lemma corr_look e ul sb los c name : In c cols -> In name (map fst corr_names) ->
  exists r, (v <- plookup (param_key name (string_of_Z c)) (tbl e ul sb los) ;; num_of v) = Ok r
    /\ corr_value e ul sb los c name r.
Proof.
  intros Hc Hn.
  destruct (name_present e ul sb los c name Hc) as (v & H1 & H2).
  { unfold requested. apply in_or_app. right. apply in_or_app. left. exact Hn. }
  rewrite H1. cbn [bind]. unfold num_of.
  destruct (pval_ext v) as [| r] eqn:E.
  - exfalso. assert (v = PNegInf) by (destruct v; cbn in E; congruence).
    destruct (H2 H) as [_ [-> | ->]]; cbn in Hn; intuition discriminate.
  - exists r. split; [reflexivity|]. exists v. auto.
Qed.

Ltac pick := unfold ranges; repeat (first [left; reflexivity | right]).

Ltac look nm lo hi r H H' :=
  lazymatch goal with
  | Hc : In ?c cols |- context [plookup (param_key nm (string_of_Z ?c)) (tbl ?e ?ul ?sb ?los)] =>
      destruct (num_look e ul sb los c nm lo hi Hc) as (r & H & H');
      [pick |]; rewrite H; cbn [bind]
  end.

Lemma nc_int : for_cols (fun e ul sb los c =>
   match plookup_opt (param_key "numClusters" (string_of_Z c)) (tbl e ul sb los) with
   | Some (PInt _) => true | _ => false end) = true.
Proof. vm_compute. reflexivity. Qed.

Lemma Forall2_len {A B} (P : A -> B -> Prop) l1 l2 : Forall2 P l1 l2 -> length l1 = length l2.
Proof. induction 1; cbn; congruence. Qed.

Lemma table_column_ok e ul sb los c : In c cols ->
  exists lp, table_column (string_of_Z c) (tbl e ul sb los) = Ok lp /\ good_column ul lp /\
    Forall2 (fun nm r => corr_value e ul sb los c (fst nm) r) corr_names (lp_corr lp).
Proof.
  intros Hc. unfold table_column. cbv zeta.
  look "muDS" (-12)%Q (-5)%Q r1 H1 H1r.
  destruct (name_present e ul sb los c "muASD" Hc) as (vA & HA & HA'); [cbn; tauto|].
  rewrite HA. cbn [bind].
  look "muASA" (-5)%Q 3%Q r2 H2 H2r. look "muK" 0%Q 41%Q r3 H3 H3r. look "muZSA" (-5)%Q 3%Q r4 H4 H4r.
  destruct (name_present e ul sb los c "muZSD" Hc) as (vZ & HZ & HZ'); [cbn; tauto|].
  rewrite HZ. cbn [bind].
  look "sigmaDS" 0%Q 20%Q s1 G1 G1r. look "sigmaASD" 0%Q 20%Q s2 G2 G2r. look "sigmaASA" 0%Q 20%Q s3 G3 G3r.
  look "sigmaSF" 0%Q 20%Q s4 G4 G4r. look "sigmaK" 0%Q 20%Q s5 G5 G5r. look "sigmaZSA" 0%Q 20%Q s6 G6 G6r.
  look "sigmaZSD" 0%Q 20%Q s7 G7 G7r.
  look "rTau" 2%Q 4%Q t1 F1 F1r. look "zeta" 3%Q 3%Q t2 F2 F2r. look "cASD" 0%Q 7%Q t3 F3 F3r.
  look "cASA" 11%Q 33%Q t4 F4 F4r. look "cZSA" 1%Q 17%Q t5 F5 F5r.
  look "CPhiNLoS" (6#10)%Q (8#10)%Q t6 F6 F6r. look "CThetaNLoS" (5#10)%Q (7#10)%Q t7 F7 F7r.
  look "muXPR" 0%Q 50%Q t8 F8 F8r. look "sigmaXPR" 0%Q 50%Q t9 F9 F9r. look "cDS" 1%Q 4%Q t10 F10 F10r.
  destruct (range_lookup e ul sb los c "numClusters" 2 4 Hc) as (vn & rn & N1 & N2 & N3);
    [pick|].
  rewrite N1. cbn [bind].
  assert (Hint : exists z, int_of vn = Ok z /\ IZR z = rn).
  { assert (K := for_cols_spec _ nc_int e ul sb los c Hc).
    cbv beta in K. unfold plookup in N1. destruct (plookup_opt _ _) as [w|]; [| discriminate].
    inversion N1; subst w. destruct vn as [| z |]; try discriminate.
    exists z. cbn in N2. inversion N2. auto. }
  destruct Hint as (z & Hz & Hzr). rewrite Hz. cbn [bind].
  destruct (mapM_ok (fun cn : string * (nat * nat) =>
     v <- plookup (param_key (fst cn) (string_of_Z c)) (tbl e ul sb los);; num_of v)
     (fun nm r => corr_value e ul sb los c (fst nm) r) corr_names) as (cr & C1 & C2).
  { intros a Ha. apply corr_look; [exact Hc | apply in_map; exact Ha]. }
  rewrite C1. cbn [bind].
  destruct (mapM_ok (fun nm : string =>
     v <- plookup (param_key nm (string_of_Z c)) (tbl e ul sb los);; num_of v)
     (fun nm r => 1 <= r) corrdist_names) as (cd & D1 & D2).
  { intros a Ha. cbn [corrdist_names In] in Ha.
    assert (exists r, (v <- plookup (param_key a (string_of_Z c)) (tbl e ul sb los);; num_of v) = Ok r
       /\ Q2R 1 <= r <= Q2R 1000) as (r & X1 & X2).
    { apply num_look; [exact Hc|]. unfold ranges.
      destruct Ha as [<- | [<- | [<- | [<- | [<- | [<- | [<- | []]]]]]]]; cbn; tauto. }
    exists r. split; [exact X1|]. unfold Q2R in X2; cbn in X2. lra. }
  rewrite D1. cbn [bind].
  eexists. split; [reflexivity|]. split.
  - unfold Q2R in *; cbn [Qnum Qden Pos.mul] in *.
    constructor; cbn; try lra.
    + rewrite <- Hzr in N3.
      assert (2 <= IZR z) by lra. assert (IZR z <= 4) by lra.
      split; apply le_IZR; assumption.
    + rewrite <- (Forall2_len _ _ _ C2). reflexivity.
    + rewrite <- (Forall2_len _ _ _ D2). reflexivity.
    + intros i Hi. exact (Forall2_nth_l _ _ _ EmptyString 0 i D2 Hi).
    + intros [E | E].
      * destruct vA; try discriminate. exact (proj1 (HA' eq_refl)).
      * destruct vZ; try discriminate. exact (proj1 (HZ' eq_refl)).
  - cbn. exact C2.
Qed.

Lemma link_column_ok sc los : accepted sc ->
  exists lp, link_column sc los = Ok lp /\ good_column (dir_ul (sc_dir sc)) lp.
Proof.
  intros [Hd Hb He Hl Ht Hn].
  unfold link_column, angle_str.
  assert (E : (if los then sc_plos sc else sc_pnlos sc)
     = tbl (sc_env sc) (dir_ul (sc_dir sc)) (is_s_band (sc_fc sc)) los)
    by (destruct los; assumption).
  rewrite E.
  destruct (table_column_ok (sc_env sc) (dir_ul (sc_dir sc)) (is_s_band (sc_fc sc)) los
     (angle_col (sc_elev sc)) (angle_col_in _ He)) as (lp & H1 & H2 & _).
  exists lp. auto.
Qed.
