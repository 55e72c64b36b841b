(* Lemmas on the installation scripts. *)
From Coq Require Import String Ascii List Bool Arith Lia FunctionalExtensionality.
From Verif Require Import M_Base M_Install S_Install L_Install M_Installer S_Installer.
Import ListNotations.

Lemma path_eqb_refl p : path_eqb p p = true.
Proof. unfold path_eqb; destruct list_eq_dec; congruence. Qed.
Lemma path_eqb_true p q : path_eqb p q = true -> p = q.
Proof. unfold path_eqb; destruct list_eq_dec; congruence. Qed.
Lemma path_eqb_neq p q : p <> q -> path_eqb p q = false.
Proof. unfold path_eqb; destruct list_eq_dec; congruence. Qed.
Lemma put_same p n fs : put p n fs p = n.
Proof. unfold put. now rewrite path_eqb_refl. Qed.
Lemma put_other p n fs q : p <> q -> put p n fs q = fs q.
Proof. intros H. unfold put. now rewrite path_eqb_neq. Qed.

Lemma walk_dirs n fs rest : forall cur tail,
  (forall a b, rest = a ++ b -> a <> [] -> fs (cur ++ a) = Some Dir) ->
  walk n fs cur (rest ++ tail) = walk n fs (cur ++ rest) tail.
Proof.
  induction rest as [|c r IH]; intros cur tail H; simpl app.
  - now rewrite app_nil_r.
  - assert (fs (cur ++ [c]) = Some Dir) as D by (apply (H [c] r); [reflexivity | discriminate]).
    destruct n; cbn [walk]; rewrite D; change (walk ?n fs (cur ++ [c]) (r ++ tail)) with (walk n fs (cur ++ [c]) (r ++ tail)).
    + replace (cur ++ c :: r) with ((cur ++ [c]) ++ r) by now rewrite <- app_assoc.
      apply (IH (cur ++ [c]) tail). intros a b E NE. rewrite <- app_assoc. apply (H (c :: a) b); [now rewrite E | discriminate].
    + replace (cur ++ c :: r) with ((cur ++ [c]) ++ r) by now rewrite <- app_assoc.
      apply (IH (cur ++ [c]) tail). intros a b E NE. rewrite <- app_assoc. apply (H (c :: a) b); [now rewrite E | discriminate].
Qed.
Lemma walk_physical n fs p tail : physical fs p -> walk n fs [] (p ++ tail) = walk n fs p tail.
Proof. intros H. apply (walk_dirs n fs p [] tail). exact H. Qed.
Lemma resolve_physical fs p : physical fs p -> resolve fs p = Some p.
Proof.
  intros H. unfold resolve. rewrite <- (app_nil_r p) at 1. rewrite walk_physical by assumption.
  reflexivity.
Qed.
Lemma resolve_file fs p c t : physical fs p -> fs (p ++ [c]) = Some (File t) -> resolve fs (p ++ [c]) = Some (p ++ [c]).
Proof.
  intros H F. unfold resolve. rewrite walk_physical by assumption. cbn [walk max_links]. now rewrite F.
Qed.
Lemma resolve_missing fs p c : physical fs p -> fs (p ++ [c]) = None -> resolve fs (p ++ [c]) = None.
Proof.
  intros H F. unfold resolve. rewrite walk_physical by assumption. cbn [walk max_links]. now rewrite F.
Qed.
Lemma resolve_link fs p c t : physical fs p -> fs (p ++ [c]) = Some (Link t) -> physical fs t ->
  resolve fs (p ++ [c]) = Some t.
Proof.
  intros H F T. unfold resolve. rewrite walk_physical by assumption. unfold max_links. cbn [walk]. rewrite F.
  change (walk 39 fs [] (t ++ []) = Some t). rewrite walk_physical by assumption. reflexivity.
Qed.

Lemma physical_dir fs p : physical fs p -> is_dir fs p = true.
Proof.
  intros H. destruct p as [|c r]; [reflexivity|]. unfold is_dir.
  rewrite (H (c :: r) []); [reflexivity | now rewrite app_nil_r | discriminate].
Qed.
Lemma physical_put fs p q n : physical fs p -> fs q <> Some Dir -> physical (put q n fs) p.
Proof.
  intros H D a b E NE. rewrite put_other; [now apply (H a b)|].
  intros ->. apply D. now apply (H a b).
Qed.
Lemma physical_snoc fs p c : physical fs p -> fs (p ++ [c]) = Some Dir -> physical fs (p ++ [c]).
Proof.
  intros H D a b E NE. destruct b as [|x b] using rev_ind.
  - rewrite app_nil_r in E. now subst a.
  - rewrite app_assoc in E. apply app_inj_tail in E. destruct E as [E _]. now apply (H a b).
Qed.

Lemma split_blank_none t : no_blank t -> split_blank t = (t, None).
Proof.
  induction t as [|c r IH]; intros N; [reflexivity|]. cbn.
  destruct (Ascii.eqb c blank) eqn:E.
  - apply Ascii.eqb_eq in E. subst c. exfalso. apply N. now left.
  - rewrite IH; [reflexivity|]. intros H. apply N. now right.
Qed.
Lemma split_blank_at a b : no_blank a -> split_blank (a ++ blank :: b) = (a, Some b).
Proof.
  induction a as [|c r IH]; intros N; [reflexivity|]. cbn [split_blank app].
  destruct (Ascii.eqb c blank) eqn:E.
  - apply Ascii.eqb_eq in E. subst c. exfalso. apply N. now left.
  - rewrite IH; [reflexivity|]. intros H. apply N. now right.
Qed.
Lemma cut2_location l : cut2 (nm "Location: " ++ l) = fst (split_blank l).
Proof. reflexivity. Qed.
Lemma shown_no_blank l : no_blank l -> shown (Some l) = l.
Proof. intros N. unfold shown. rewrite cut2_location, split_blank_none by assumption. reflexivity. Qed.
Lemma shown_blank a b : no_blank a -> shown (Some (a ++ blank :: b)) = a.
Proof. intros N. unfold shown. rewrite cut2_location, split_blank_at by assumption. reflexivity. Qed.

Lemma snoc_neq (p q : path) (x y : text) : x <> y -> p ++ [x] <> q ++ [y].
Proof. intros N E. apply app_inj_tail in E. now destruct E. Qed.
Lemma last_snoc (p : path) x : last (p ++ [x]) [] = x.
Proof. apply last_last. Qed.
Lemma removelast_snoc (p : path) x : removelast (p ++ [x]) = p.
Proof. apply removelast_last. Qed.

Lemma modify_some t : exists t', fst (modify (Some t)) = Some t'.
Proof.
  unfold modify.
  destruct (if existsb (isin line_to_add) (readlines (universal t)) then None
            else find_index 0 (readlines (universal t))); eexists; reflexivity.
Qed.
Lemma modify_twice t t' : fst (modify (Some t)) = Some t' -> fst (modify (Some t')) = Some t'.
Proof.
  intros E. pose proof (C56_idempotent_l (Some t) 1) as H. cbn [runs] in H.
  rewrite E in H. exact H.
Qed.

Ltac casep := repeat match goal with
  | |- context [path_eqb ?a ?b] => let H := fresh in destruct (path_eqb a b) eqn:H
  end.
Lemma put_commute p q a b fs : p <> q -> put p a (put q b fs) = put q b (put p a fs).
Proof.
  intros N. apply functional_extensionality. intros x. unfold put.
  destruct (path_eqb p x) eqn:A, (path_eqb q x) eqn:B; try reflexivity.
  apply path_eqb_true in A, B. congruence.
Qed.
Lemma put_shadow p a b fs : put p a (put p b fs) = put p a fs.
Proof. apply functional_extensionality. intros x. unfold put. now destruct (path_eqb p x). Qed.
Lemma put_id p a fs : fs p = a -> put p a fs = fs.
Proof.
  intros E. apply functional_extensionality. intros x. unfold put. destruct (path_eqb p x) eqn:A; [|reflexivity].
  apply path_eqb_true in A. now subst x.
Qed.

Lemma host_hook legacy sio e : host_file legacy sio <> hook_path legacy e.
Proof. unfold host_file, hook_path. apply snoc_neq. destruct legacy; discriminate. Qed.
Lemma entry_hook legacy sio e : entry legacy sio <> hook_path legacy e.
Proof. unfold entry, hook_path. apply snoc_neq. destruct legacy; discriminate. Qed.
Lemma entry_host legacy sio : entry legacy sio <> host_file legacy sio.
Proof. unfold entry, host_file. apply snoc_neq. discriminate. Qed.
Lemma package_hook legacy sub e : sub ++ [nm "OpenNTN"] <> hook_path legacy e.
Proof. unfold hook_path. apply snoc_neq. destruct legacy; discriminate. Qed.
Lemma package_host legacy sub sio : sub ++ [nm "OpenNTN"] <> host_file legacy sio.
Proof. unfold host_file. apply snoc_neq. discriminate. Qed.

(* the script after pip, up to the link *)
Lemma python_result legacy e U sio t t' c :
  e_sio e = Some sio -> e_fetch e = Some c -> e_genuine e c = true ->
  U (hook_path legacy e) = None -> physical U (channels legacy sio) ->
  U (host_file legacy sio) = Some (File t) -> fst (modify (Some t)) = Some t' ->
  python_step legacy e (curl_step legacy e U) =
    put (hook_path legacy e) (Some (File c)) (put (host_file legacy sio) (Some (File t')) U).
Proof.
  intros SIO FE GE HK PH HO MO. unfold curl_step. rewrite FE. unfold python_step. rewrite put_same, GE.
  unfold hook. rewrite SIO.
  set (V := put (hook_path legacy e) (Some (File c)) U).
  assert (physical V (channels legacy sio)) as PV by (apply physical_put; [assumption | now rewrite HK]).
  assert (V (host_file legacy sio) = Some (File t)) as HV
    by (unfold V; rewrite put_other; [assumption | intros E; symmetry in E; now apply host_hook in E]).
  assert (comps sio ++ channel_dir legacy ++ [nm "__init__.py"] = host_file legacy sio) as -> 
    by (unfold host_file, channels; now rewrite <- app_assoc).
  unfold host_file at 1. rewrite (resolve_file V _ _ t PV) by exact HV. fold (host_file legacy sio). rewrite HV, MO.
  unfold V. apply put_commute. apply host_hook.
Qed.

Lemma rm_result legacy e W c : W (hook_path legacy e) = None ->
  rm_step legacy e (put (hook_path legacy e) (Some (File c)) W) = (W, true).
Proof.
  intros H. unfold rm_step. rewrite put_same. f_equal. rewrite put_shadow. now apply put_id.
Qed.

Lemma link_args legacy e opn sio : e_opn e = Some opn -> e_sio e = Some sio -> no_blank opn -> no_blank sio ->
  forall fs, link_step legacy e fs = ln_s fs (package_dir opn) (entry legacy sio).
Proof.
  intros O S NO NS fs. unfold link_step. rewrite O, S, !shown_no_blank by assumption.
  unfold package_dir, entry, channels. now rewrite <- app_assoc.
Qed.

(* ln -s in the three situations *)
Lemma ln_fresh fs d n target : physical fs d -> fs (d ++ [n]) = None ->
  ln_s fs target (d ++ [n]) = put (d ++ [n]) (Some (Link target)) fs.
Proof.
  intros P N. unfold ln_s. rewrite (resolve_missing fs d n P N), removelast_snoc, last_snoc.
  rewrite (resolve_physical fs d P), (physical_dir fs d P). unfold make_link. now rewrite N.
Qed.
Lemma ln_again fs d n target base x : physical fs d -> fs (d ++ [n]) = Some (Link base) -> physical fs base ->
  fs (base ++ [x]) = None ->
  ln_s fs (target ++ [x]) (d ++ [n]) = put (base ++ [x]) (Some (Link (target ++ [x]))) fs.
Proof.
  intros P L PB N. unfold ln_s. rewrite (resolve_link fs d n base P L PB), (physical_dir fs base PB), last_snoc.
  unfold make_link. now rewrite N.
Qed.
Lemma ln_exists fs d n target base x : physical fs d -> fs (d ++ [n]) = Some (Link base) -> physical fs base ->
  fs (base ++ [x]) <> None ->
  ln_s fs (target ++ [x]) (d ++ [n]) = fs.
Proof.
  intros P L PB N. unfold ln_s. rewrite (resolve_link fs d n base P L PB), (physical_dir fs base PB), last_snoc.
  unfold make_link. now destruct (fs (base ++ [x])).
Qed.

(* the script in a prepared file system U (after pip), in the three situations *)
Record prepared (legacy : bool) (e : env) (U : fsys) (opn sio : text) (t : text) : Prop := {
  p_opn : e_opn e = Some opn;
  p_sio : e_sio e = Some sio;
  p_fetch : exists c, e_fetch e = Some c /\ e_genuine e c = true;
  p_site : physical U (package_dir opn);
  p_chan : physical U (channels legacy sio);
  p_host : U (host_file legacy sio) = Some (File t);
  p_hook : U (hook_path legacy e) = None }.

Lemma rest_fresh legacy e U opn sio t t' :
  no_blank opn -> no_blank sio ->
  prepared legacy e U opn sio t -> fst (modify (Some t)) = Some t' -> U (entry legacy sio) = None ->
  rm_step legacy e (link_step legacy e (python_step legacy e (curl_step legacy e U))) =
    (put (entry legacy sio) (Some (Link (package_dir opn))) (put (host_file legacy sio) (Some (File t')) U), true).
Proof.
  intros NO NS [O S (c & FE & GE) SI CH HO HK] MO EN.
  rewrite (python_result legacy e U sio t t' c) by assumption.
  rewrite (link_args legacy e opn sio) by assumption.
  unfold entry at 1. rewrite ln_fresh.
  - fold (entry legacy sio). rewrite put_commute by apply entry_hook. apply rm_result.
    rewrite put_other by apply entry_hook. rewrite put_other by apply host_hook. assumption.
  - apply physical_put; [apply physical_put; [assumption | now rewrite HO]|].
    rewrite put_other by apply host_hook. now rewrite HK.
  - fold (entry legacy sio). rewrite put_other by (intros E; symmetry in E; now apply entry_hook in E).
    rewrite put_other by (intros E; symmetry in E; now apply entry_host in E). assumption.
Qed.

Lemma rest_linked legacy e U opn sio t t' :
  no_blank opn -> no_blank sio ->
  prepared legacy e U opn sio t -> fst (modify (Some t)) = Some t' ->
  U (entry legacy sio) = Some (Link (package_dir opn)) ->
  rm_step legacy e (link_step legacy e (python_step legacy e (curl_step legacy e U))) =
    (match U (package_dir opn ++ [nm "OpenNTN"]) with
     | None => put (package_dir opn ++ [nm "OpenNTN"]) (Some (Link (package_dir opn)))
     | Some _ => fun f => f
     end (put (host_file legacy sio) (Some (File t')) U), true).
Proof.
  intros NO NS [O S (c & FE & GE) SI CH HO HK] MO EN.
  rewrite (python_result legacy e U sio t t' c) by assumption.
  rewrite (link_args legacy e opn sio) by assumption.
  set (W := put (host_file legacy sio) (Some (File t')) U).
  set (V := put (hook_path legacy e) (Some (File c)) W).
  assert (W (hook_path legacy e) = None) as WH by (unfold W; rewrite put_other by apply host_hook; assumption).
  assert (forall p, physical U p -> physical V p) as KEEP.
  { intros p P. unfold V. apply physical_put; [unfold W; apply physical_put; [assumption | now rewrite HO]|].
    now rewrite WH. }
  assert (V (entry legacy sio) = Some (Link (package_dir opn))) as VE.
  { unfold V. rewrite put_other by (intros E; symmetry in E; now apply entry_hook in E).
    unfold W. rewrite put_other by (intros E; symmetry in E; now apply entry_host in E). assumption. }
  assert (V (package_dir opn ++ [nm "OpenNTN"]) = U (package_dir opn ++ [nm "OpenNTN"])) as VP.
  { unfold V. rewrite put_other by (intros E; symmetry in E; now apply package_hook in E).
    unfold W. rewrite put_other by (intros E; symmetry in E; now apply package_host in E). reflexivity. }
  destruct (U (package_dir opn ++ [nm "OpenNTN"])) as [n|] eqn:UP.
  - change (package_dir opn) with (comps opn ++ [nm "OpenNTN"]) at 1. unfold entry at 1.
    rewrite (ln_exists V _ _ (comps opn) (package_dir opn)); [| now apply KEEP | exact VE | now apply KEEP | now rewrite VP].
    unfold V. now apply rm_result.
  - change (package_dir opn) with (comps opn ++ [nm "OpenNTN"]) at 1. unfold entry at 1.
    rewrite (ln_again V _ _ (comps opn) (package_dir opn)); [| now apply KEEP | exact VE | now apply KEEP | now rewrite VP].
    unfold V. rewrite put_commute by apply package_hook. apply rm_result.
    rewrite put_other by apply package_hook. assumption.
Qed.

Definition unpack_free (base : path) (files : list (path * node)) (p : path) : Prop :=
  p <> base /\ forall f, In f files -> base ++ fst f <> p.
Lemma free_outside base files p : ~ below base p -> unpack_free base files p.
Proof.
  intros N. split; [intros ->; apply N; exists []; now rewrite app_nil_r|].
  intros f _ E. apply N. now exists (fst f).
Qed.
Lemma find_free base files p : unpack_free base files p -> find (fun f => path_eqb (base ++ fst f) p) files = None.
Proof.
  intros [_ H]. destruct (find (fun f => path_eqb (base ++ fst f) p) files) as [f|] eqn:E; [|reflexivity].
  apply find_some in E. destruct E as [I E]. apply path_eqb_true in E. now destruct (H f I).
Qed.
Lemma unpack_other base files fs p : unpack_free base files p -> unpack base files fs p = fs p.
Proof.
  intros F. unfold unpack. rewrite path_eqb_neq by (intros E; destruct F as [N _]; congruence).
  now rewrite find_free.
Qed.
Lemma unpack_base base files fs : unpack base files fs base = Some Dir.
Proof. unfold unpack. now rewrite path_eqb_refl. Qed.
Lemma unpack_put base files fs p n : unpack_free base files p ->
  unpack base files (put p n fs) = put p n (unpack base files fs).
Proof.
  intros F. apply functional_extensionality. intros q. unfold put at 2.
  destruct (path_eqb p q) eqn:E.
  - apply path_eqb_true in E. subst q. rewrite unpack_other by assumption. apply put_same.
  - unfold unpack. destruct (path_eqb base q); [reflexivity|].
    destruct (find (fun f => path_eqb (base ++ fst f) q) files); [reflexivity|]. unfold put. now rewrite E.
Qed.
Lemma unpack_twice base files fs : unpack base files (unpack base files fs) = unpack base files fs.
Proof.
  apply functional_extensionality. intros q. unfold unpack at 1.
  destruct (path_eqb base q) eqn:E; [unfold unpack; now rewrite E|].
  destruct (find (fun f => path_eqb (base ++ fst f) q) files) as [f|] eqn:F; [|reflexivity].
  unfold unpack. now rewrite E, F.
Qed.

Lemma pip_result legacy e fs opn sio files t : ready legacy e fs opn sio files t ->
  forall f, pip_step e f = unpack (package_dir opn) files f.
Proof. intros R f. unfold pip_step. now rewrite (r_pip _ _ _ _ _ _ _ R), (r_opn _ _ _ _ _ _ _ R). Qed.

Lemma host_free legacy e fs opn sio files t : ready legacy e fs opn sio files t ->
  unpack_free (package_dir opn) files (host_file legacy sio).
Proof. intros R. apply free_outside. apply (r_out_chan _ _ _ _ _ _ _ R). Qed.
Lemma entry_free legacy e fs opn sio files t : ready legacy e fs opn sio files t ->
  unpack_free (package_dir opn) files (entry legacy sio).
Proof. intros R. apply free_outside. apply (r_out_chan _ _ _ _ _ _ _ R). Qed.
Lemma hook_free legacy e fs opn sio files t : ready legacy e fs opn sio files t ->
  unpack_free (package_dir opn) files (hook_path legacy e).
Proof. intros R. apply free_outside. apply (r_out_cwd _ _ _ _ _ _ _ R). Qed.

Lemma prepared_first legacy e fs opn sio files t : ready legacy e fs opn sio files t ->
  prepared legacy e (unpack (package_dir opn) files fs) opn sio t.
Proof.
  intros R. pose proof (host_free _ _ _ _ _ _ _ R) as HF. pose proof (hook_free _ _ _ _ _ _ _ R) as KF.
  destruct R as [O S P F SI CH HO EN HK OC OW]. constructor; try assumption.
  - unfold package_dir. apply physical_snoc; [|apply unpack_base].
    intros a b E NE. rewrite unpack_other; [now apply (SI a b)|].
    apply free_outside. intros (r & X). apply (f_equal (@length text)) in X, E.
    unfold package_dir in X. rewrite !app_length in X. rewrite app_length in E. cbn in X. lia.
  - intros a b E NE. rewrite unpack_other; [now apply (CH a b)|].
    apply free_outside. intros (r & X). apply (OC []). exists (r ++ b ++ [[]]).
    rewrite E, X. now rewrite <- !app_assoc.
  - rewrite unpack_other by assumption. assumption.
  - rewrite unpack_other by assumption. assumption.
Qed.

Definition after_first (legacy : bool) (opn sio : text) files (t' : text) (fs : fsys) : fsys :=
  put (entry legacy sio) (Some (Link (package_dir opn)))
    (put (host_file legacy sio) (Some (File t')) (unpack (package_dir opn) files fs)).

Lemma install_first legacy e fs opn sio files t t' : no_blank opn -> no_blank sio ->
  ready legacy e fs opn sio files t -> fst (modify (Some t)) = Some t' ->
  install legacy e fs = (after_first legacy opn sio files t' fs, true).
Proof.
  intros NO NS R MO. unfold install. rewrite (pip_result _ _ _ _ _ _ _ R).
  apply (rest_fresh legacy e _ opn sio t t' NO NS (prepared_first _ _ _ _ _ _ _ R) MO).
  rewrite unpack_other by exact (entry_free _ _ _ _ _ _ _ R). exact (r_entry _ _ _ _ _ _ _ R).
Qed.

Lemma prepared_put legacy e U opn sio t p n : prepared legacy e U opn sio t ->
  U p <> Some Dir -> p <> host_file legacy sio -> p <> hook_path legacy e ->
  prepared legacy e (put p n U) opn sio t.
Proof.
  intros [O S F SI CH HO HK] D NH NK. constructor; try assumption.
  - now apply physical_put.
  - now apply physical_put.
  - now rewrite put_other.
  - now rewrite put_other.
Qed.
Lemma prepared_host legacy e U opn sio t t' : prepared legacy e U opn sio t ->
  prepared legacy e (put (host_file legacy sio) (Some (File t')) U) opn sio t'.
Proof.
  intros [O S F SI CH HO HK]. constructor; try assumption.
  - apply physical_put; [assumption | now rewrite HO].
  - apply physical_put; [assumption | now rewrite HO].
  - apply put_same.
  - rewrite put_other by apply host_hook. assumption.
Qed.
Lemma prepared_after legacy e fs opn sio files t t' : ready legacy e fs opn sio files t ->
  prepared legacy e (after_first legacy opn sio files t' fs) opn sio t'.
Proof.
  intros R. unfold after_first. apply prepared_put.
  - eapply prepared_host. eapply prepared_first; eassumption.
  - rewrite put_other by (intros E; symmetry in E; now apply entry_host in E).
    rewrite unpack_other by exact (entry_free _ _ _ _ _ _ _ R). now rewrite (r_entry _ _ _ _ _ _ _ R).
  - apply entry_host.
  - apply entry_hook.
Qed.

Lemma inner_free fs opn files : no_inner fs opn files ->
  unpack_free (package_dir opn) files (package_dir opn ++ [nm "OpenNTN"]).
Proof.
  intros [_ H]. split.
  - intros E. apply (f_equal (@length text)) in E. rewrite app_length in E. cbn in E. lia.
  - intros f I E. apply app_inv_head in E. now apply (H f I).
Qed.

Definition after_second legacy opn sio files t' fs : fsys :=
  put (package_dir opn ++ [nm "OpenNTN"]) (Some (Link (package_dir opn))) (after_first legacy opn sio files t' fs).

Lemma entry_package legacy sub sio : sub ++ [nm "OpenNTN"] <> entry legacy sio.
Proof. unfold entry. apply snoc_neq. discriminate. Qed.

Lemma install_second legacy e fs opn sio files t t' : no_blank opn -> no_blank sio ->
  ready legacy e fs opn sio files t -> no_inner fs opn files -> fst (modify (Some t)) = Some t' ->
  install legacy e (after_first legacy opn sio files t' fs) = (after_second legacy opn sio files t' fs, true).
Proof.
  intros NO NS R NI MO. unfold install. rewrite (pip_result _ _ _ _ _ _ _ R).
  assert (unpack (package_dir opn) files (after_first legacy opn sio files t' fs) = after_first legacy opn sio files t' fs) as ->.
  { unfold after_first. rewrite unpack_put by exact (entry_free _ _ _ _ _ _ _ R).
    rewrite unpack_put by exact (host_free _ _ _ _ _ _ _ R). now rewrite unpack_twice. }
  rewrite (rest_linked legacy e _ opn sio t' t' NO NS (prepared_after _ _ _ _ _ _ _ t' R) (modify_twice t t' MO)).
  2: { apply put_same. }
  assert (after_first legacy opn sio files t' fs (package_dir opn ++ [nm "OpenNTN"]) = None) as ->.
  { unfold after_first. rewrite put_other by (intros E; symmetry in E; now apply entry_package in E).
    rewrite put_other by (intros E; symmetry in E; now apply package_host in E).
    rewrite unpack_other by exact (inner_free _ _ _ NI). exact (proj1 NI). }
  f_equal. unfold after_second. f_equal. apply put_id.
  unfold after_first. rewrite put_other by apply entry_host. apply put_same.
Qed.

Lemma install_third legacy e fs opn sio files t t' : no_blank opn -> no_blank sio ->
  ready legacy e fs opn sio files t -> no_inner fs opn files -> fst (modify (Some t)) = Some t' ->
  install legacy e (after_second legacy opn sio files t' fs) = (after_second legacy opn sio files t' fs, true).
Proof.
  intros NO NS R NI MO. unfold install. rewrite (pip_result _ _ _ _ _ _ _ R).
  assert (unpack (package_dir opn) files (after_second legacy opn sio files t' fs) = after_second legacy opn sio files t' fs) as ->.
  { unfold after_second, after_first. rewrite unpack_put by exact (inner_free _ _ _ NI).
    rewrite unpack_put by exact (entry_free _ _ _ _ _ _ _ R).
    rewrite unpack_put by exact (host_free _ _ _ _ _ _ _ R). now rewrite unpack_twice. }
  assert (after_first legacy opn sio files t' fs (package_dir opn ++ [nm "OpenNTN"]) = None) as AF.
  { unfold after_first. rewrite put_other by (intros E; symmetry in E; now apply entry_package in E).
    rewrite put_other by (intros E; symmetry in E; now apply package_host in E).
    rewrite unpack_other by exact (inner_free _ _ _ NI). exact (proj1 NI). }
  rewrite (rest_linked legacy e _ opn sio t' t' NO NS).
  - unfold after_second at 1. rewrite put_same. f_equal. apply put_id.
    unfold after_second. rewrite put_other by apply package_host.
    unfold after_first. rewrite put_other by apply entry_host. apply put_same.
  - unfold after_second. apply prepared_put; [exact (prepared_after _ _ _ _ _ _ _ t' R) | now rewrite AF | apply package_host | apply package_hook].
  - exact (modify_twice t t' MO).
  - unfold after_second. rewrite put_other by apply entry_package. apply put_same.
Qed.

Lemma anchored_modify t pre a post : anchored t pre a post ->
  exists t', fst (modify (Some t)) = Some t' /\ lines_of t' (pre ++ a :: (line_to_add ++ [nl]) :: post) /\
             exists x y, t' = x ++ line_to_add ++ y.
Proof.
  intros (u & A & B & C & D & E & F).
  destruct (C56_inserts_l t u pre a post A B C D E F) as (t' & M & L). exists t'. rewrite M. split; [reflexivity|]. split; [assumption|].
  destruct L as [-> _]. exists (concat pre ++ a), ([nl] ++ concat post).
  rewrite concat_app. cbn [concat]. now rewrite <- !app_assoc.
Qed.

Lemma C96_first_run_l : forall legacy e fs opn sio files t pre a post,
  no_blank opn -> no_blank sio -> ready legacy e fs opn sio files t -> anchored t pre a post ->
  exists fs' t', install legacy e fs = (fs', true) /\
    resolve fs' (entry legacy sio) = Some (package_dir opn) /\ fs' (package_dir opn) = Some Dir /\
    fs' (host_file legacy sio) = Some (File t') /\ lines_of t' (pre ++ a :: (line_to_add ++ [nl]) :: post) /\
    (forall q, ~ below (package_dir opn) q -> q <> host_file legacy sio -> q <> entry legacy sio -> fs' q = fs q) /\
    (forall r, r <> [] -> ~ In r (map fst files) -> fs' (package_dir opn ++ r) = fs (package_dir opn ++ r)) /\
    (forall r n, r <> [] -> NoDup (map fst files) -> In (r, n) files -> fs' (package_dir opn ++ r) = Some n).
Proof.
  intros legacy e fs opn sio files t pre a post NO NS R AN.
  destruct (anchored_modify t pre a post AN) as (t' & MO & LI & _).
  exists (after_first legacy opn sio files t' fs), t'.
  pose proof (prepared_after _ _ _ _ _ _ _ t' R) as PA.
  assert (forall r, r <> [] -> after_first legacy opn sio files t' fs (package_dir opn ++ r) =
                    unpack (package_dir opn) files fs (package_dir opn ++ r)) as IN.
  { intros r NE. unfold after_first. rewrite !put_other; [reflexivity| |].
    - intros E. apply (r_out_chan _ _ _ _ _ _ _ R (nm "__init__.py")). exists r. exact E.
    - intros E. apply (r_out_chan _ _ _ _ _ _ _ R (nm "tr38811")). exists r. exact E. }
  split; [now apply install_first with (t := t)|]. split; [|split; [|split; [|split; [|split; [|split]]]]].
  - unfold entry. apply resolve_link; [exact (p_chan _ _ _ _ _ _ PA) | apply put_same | exact (p_site _ _ _ _ _ _ PA)].
  - apply (p_site _ _ _ _ _ _ PA (package_dir opn) []); [now rewrite app_nil_r|]. unfold package_dir. now destruct (comps opn).
  - exact (p_host _ _ _ _ _ _ PA).
  - exact LI.
  - intros q B NH NE. unfold after_first. rewrite !put_other by congruence. apply unpack_other. now apply free_outside.
  - intros r NE NI. rewrite IN by assumption. apply unpack_other. split.
    + intros E. apply NE. apply (app_inv_head (package_dir opn)). now rewrite app_nil_r.
    + intros f I E. apply app_inv_head in E. apply NI. apply in_map_iff. now exists f.
  - intros r n NE ND I. rewrite IN by assumption. unfold unpack.
    rewrite path_eqb_neq by (intros E; apply NE; apply (app_inv_head (package_dir opn)); now rewrite app_nil_r, <- E).
    clear -ND I. induction files as [|[r0 n0] fl IH]; [easy|]. cbn [find fst snd].
    destruct I as [I|I].
    + injection I as -> ->. now rewrite path_eqb_refl.
    + cbn in ND. inversion ND as [|? ? NI ND']; subst. destruct (path_eqb (package_dir opn ++ r0) (package_dir opn ++ r)) eqn:E.
      * apply path_eqb_true, app_inv_head in E. subst r0. exfalso. apply NI. apply in_map_iff. now exists (r, n).
      * apply IH; assumption.
Qed.

Lemma installs_add legacy n : forall m e fs, installs legacy (n + m) e fs = installs legacy m e (installs legacy n e fs).
Proof. induction n as [|n IH]; intros m e fs; [reflexivity|]. cbn. apply IH. Qed.

Lemma walk_self fs base x k : forall n, (k <= n)%nat -> physical fs base -> fs (base ++ [x]) = Some (Link base) ->
  walk n fs [] (base ++ repeat x k) = Some base.
Proof.
  induction k as [|k IH]; intros n LE P L.
  - cbn. rewrite walk_physical by assumption. destruct n; reflexivity.
  - rewrite walk_physical by assumption. destruct n as [|n]; [lia|]. cbn [repeat walk]. rewrite L. apply IH; [lia | assumption | assumption].
Qed.

Lemma C96_repeated_l : forall legacy e fs opn sio files t,
  no_blank opn -> no_blank sio -> ready legacy e fs opn sio files t -> no_inner fs opn files ->
  let inner := package_dir opn ++ [nm "OpenNTN"] in
  installs legacy 1 e fs inner = None /\
  (forall n, installs legacy (2 + n) e fs = installs legacy 2 e fs) /\
  installs legacy 2 e fs inner = Some (Link (package_dir opn)) /\
  (forall q, q <> inner -> installs legacy 2 e fs q = installs legacy 1 e fs q) /\
  (forall k, (k <= 40)%nat ->
     resolve (installs legacy 2 e fs) (package_dir opn ++ repeat (nm "OpenNTN") k) = Some (package_dir opn)).
Proof.
  intros legacy e fs opn sio files t NO NS R NI inner.
  destruct (modify_some t) as (t' & MO).
  assert (installs legacy 1 e fs = after_first legacy opn sio files t' fs) as E1
    by (cbn [installs]; now rewrite (install_first legacy e fs opn sio files t t')).
  assert (installs legacy 2 e fs = after_second legacy opn sio files t' fs) as E2.
  { change 2%nat with (1 + 1)%nat. rewrite installs_add, E1. cbn [installs]. now rewrite (install_second legacy e fs opn sio files t t'). }
  assert (forall n, installs legacy n e (after_second legacy opn sio files t' fs) = after_second legacy opn sio files t' fs) as ST.
  { induction n as [|n IH]; [reflexivity|]. cbn [installs]. now rewrite (install_third legacy e fs opn sio files t t'). }
  assert (after_first legacy opn sio files t' fs inner = None) as AF.
  { unfold after_first, inner. rewrite put_other by (intros E; symmetry in E; now apply entry_package in E).
    rewrite put_other by (intros E; symmetry in E; now apply package_host in E).
    rewrite unpack_other by exact (inner_free _ _ _ NI). exact (proj1 NI). }
  split; [now rewrite E1|]. split; [|split; [|split]].
  - intros n. rewrite installs_add, E2. apply ST.
  - rewrite E2. apply put_same.
  - intros q NE. rewrite E1, E2. unfold after_second. apply put_other. intros E. apply NE. symmetry. exact E.
  - intros k LE. rewrite E2. apply walk_self; [exact LE| |apply put_same].
    unfold after_second. apply physical_put; [exact (p_site _ _ _ _ _ _ (prepared_after _ _ _ _ _ _ _ t' R)) | unfold inner in AF; now rewrite AF].
Qed.

(* the link fails, or leads nowhere, although the import was added *)
Lemma broken_general legacy e fs sio t pre a post c fs' :
  e_sio e = Some sio -> e_fetch e = Some c -> e_genuine e c = true -> pip_step e fs = fs ->
  physical fs (channels legacy sio) -> fs (host_file legacy sio) = Some (File t) -> fs (hook_path legacy e) = None ->
  anchored t pre a post ->
  (forall t', fst (modify (Some t)) = Some t' ->
     link_step legacy e (put (hook_path legacy e) (Some (File c)) (put (host_file legacy sio) (Some (File t')) fs)) =
     put (hook_path legacy e) (Some (File c)) (fs' t')) ->
  (forall t', fs' t' (hook_path legacy e) = None /\ physical (fs' t') (channels legacy sio) /\ fs' t' (host_file legacy sio) = Some (File t')) ->
  exists t', install legacy e fs = (fs' t', true) /\ asks_for_module legacy (fs' t') sio.
Proof.
  intros S FE GE PI CH HO HK AN LI CL.
  destruct (anchored_modify t pre a post AN) as (t' & MO & _ & x & y & OC).
  exists t'. destruct (CL t') as (K & P & H). split.
  - unfold install. rewrite PI. rewrite (python_result legacy e fs sio t t' c) by assumption.
    rewrite (LI t' MO). now apply rm_result.
  - exists (host_file legacy sio), t', x, y. split; [|split; assumption].
    unfold host_file in *. eapply resolve_file; eassumption.
Qed.

Lemma C96_blank_l : forall legacy e fs x y t pre a post c,
  let sio := x ++ blank :: y in
  no_blank x -> e_sio e = Some sio -> e_fetch e = Some c -> e_genuine e c = true -> pip_step e fs = fs ->
  physical fs (channels legacy sio) -> fs (host_file legacy sio) = Some (File t) -> fs (entry legacy sio) = None ->
  fs (hook_path legacy e) = None -> anchored t pre a post ->
  (* the directory of the truncated name does not exist *)
  (exists p n r, comps x ++ channel_dir legacy = p ++ n :: r /\ physical fs p /\ fs (p ++ [n]) = None /\
                 hook_path legacy e <> p ++ [n]) ->
  exists fs', install legacy e fs = (fs', true) /\ asks_for_module legacy fs' sio /\ ~ module_there legacy fs' sio.
Proof.
  intros legacy e fs x y t pre a post c sio NX S FE GE PI CH HO EN HK AN (p & n & r & PX & PP & NS & NK).
  assert (host_file legacy sio <> p ++ [n]) as NH by congruence.
  destruct (broken_general legacy e fs sio t pre a post c (fun t' => put (host_file legacy sio) (Some (File t')) fs)
              S FE GE PI CH HO HK AN) as (t' & I & A).
  - intros t' MO. unfold link_step. rewrite S. unfold sio at 2. rewrite shown_blank by assumption.
    set (V := put (hook_path legacy e) (Some (File c)) (put (host_file legacy sio) (Some (File t')) fs)).
    assert (V (p ++ [n]) = None) as VN by (unfold V; rewrite !put_other by assumption; assumption).
    assert (physical V p) as VP.
    { unfold V. apply physical_put; [apply physical_put; [assumption | now rewrite HO]|].
      rewrite put_other by apply host_hook. now rewrite HK. }
    assert (forall r, resolve V (p ++ n :: r) = None) as NONE.
    { intros r0. unfold resolve. rewrite walk_physical by assumption. unfold max_links. cbn [walk]. now rewrite VN. }
    unfold ln_s. rewrite app_assoc, PX, removelast_snoc, <- app_assoc. cbn [app]. rewrite !NONE. reflexivity.
  - intros t'. split; [rewrite put_other by apply host_hook; assumption|]. split; [|apply put_same].
    apply physical_put; [assumption | now rewrite HO].
  - eexists. split; [exact I|]. split; [exact A|]. intros (d & RD & _).
    unfold entry in RD. rewrite resolve_missing in RD; [discriminate| |].
    + apply physical_put; [assumption | now rewrite HO].
    + fold (entry legacy sio). rewrite put_other by (intros E; symmetry in E; now apply entry_host in E). assumption.
Qed.

Lemma C96_failed_pip_l : forall legacy e fs sio t pre a post c,
  no_blank sio -> e_opn e = None -> e_sio e = Some sio -> e_fetch e = Some c -> e_genuine e c = true ->
  physical fs (channels legacy sio) -> fs (host_file legacy sio) = Some (File t) -> fs (entry legacy sio) = None ->
  fs (hook_path legacy e) = None -> anchored t pre a post -> fs [nm "OpenNTN"] = None ->
  exists fs', install legacy e fs = (fs', true) /\ asks_for_module legacy fs' sio /\ ~ module_there legacy fs' sio /\
              fs' (entry legacy sio) = Some (Link [nm "OpenNTN"]).
Proof.
  intros legacy e fs sio t pre a post c NB O S FE GE CH HO EN HK AN RT.
  set (R := fun t' => put (entry legacy sio) (Some (Link [nm "OpenNTN"])) (put (host_file legacy sio) (Some (File t')) fs)).
  assert (forall t', physical (R t') (channels legacy sio)) as PR.
  { intros t'. unfold R. apply physical_put; [apply physical_put; [assumption | now rewrite HO]|].
    rewrite put_other by (intros E; symmetry in E; now apply entry_host in E). now rewrite EN. }
  destruct (broken_general legacy e fs sio t pre a post c R S FE GE) as (t' & I & A); try assumption.
  - unfold pip_step. rewrite O. now destruct (e_pip e).
  - intros t' MO. unfold link_step. rewrite O, S, (shown_no_blank sio NB).
    change (comps (shown None) ++ [nm "OpenNTN"]) with [nm "OpenNTN"].
    replace (comps sio ++ channel_dir legacy ++ [nm "tr38811"]) with (channels legacy sio ++ [nm "tr38811"])
      by (unfold channels; now rewrite <- app_assoc).
    rewrite ln_fresh.
    + fold (entry legacy sio). unfold R. apply put_commute. apply entry_hook.
    + apply physical_put; [apply physical_put; [assumption | now rewrite HO]|].
      rewrite put_other by apply host_hook. now rewrite HK.
    + fold (entry legacy sio). rewrite put_other by (intros E; symmetry in E; now apply entry_hook in E).
      rewrite put_other by (intros E; symmetry in E; now apply entry_host in E). assumption.
  - intros t'. split; [|split].
    + unfold R. rewrite put_other by apply entry_hook. rewrite put_other by apply host_hook. assumption.
    + apply PR.
    + unfold R. rewrite put_other by apply entry_host. apply put_same.
  - exists (R t'). split; [exact I|]. split; [exact A|]. split; [|apply put_same].
    intros (d & RD & _). unfold entry in RD. unfold resolve in RD. rewrite walk_physical in RD by apply PR.
    unfold max_links in RD. cbn [walk] in RD. fold (entry legacy sio) in RD.
    assert (R t' (entry legacy sio) = Some (Link [nm "OpenNTN"])) as RE by apply put_same.
    rewrite RE in RD. cbn [walk app] in RD.
    assert (R t' [nm "OpenNTN"] = None) as RO.
    { unfold R. rewrite put_other.
      - rewrite put_other; [assumption|]. intros E. change [nm "OpenNTN"] with ([] ++ [nm "OpenNTN"]) in E.
        symmetry in E. now apply package_host in E.
      - intros E. change [nm "OpenNTN"] with ([] ++ [nm "OpenNTN"]) in E. symmetry in E. now apply entry_package in E. }
    rewrite RO in RD. discriminate.
Qed.

Definition holds_file (f : fsys) (p : path) : Prop := exists c, f p = Some (File c).
Lemma put_file f p q t : holds_file f p -> holds_file (put q (Some (File t)) f) p.
Proof. intros [c H]. unfold holds_file, put. destruct (path_eqb q p); [now exists t | now exists c]. Qed.
Lemma make_link_file f p d n tg : holds_file f p -> holds_file (make_link f d n tg) p.
Proof.
  intros [c H]. unfold make_link. destruct (f (d ++ [n])) as [x|] eqn:E; [now exists c|].
  unfold holds_file, put. destruct (path_eqb (d ++ [n]) p) eqn:Q; [|now exists c].
  apply path_eqb_true in Q. congruence.
Qed.
Lemma ln_file f p tg d : holds_file f p -> holds_file (ln_s f tg d) p.
Proof.
  intros H. unfold ln_s.
  assert (holds_file match resolve f (removelast d) with
                     | Some x => if is_dir f x then make_link f x (last d []) tg else f
                     | None => f end p) as D.
  { destruct (resolve f (removelast d)); [|assumption]. destruct (is_dir f p0); [now apply make_link_file | assumption]. }
  destruct (resolve f d) as [q|]; [|exact D]. destruct (is_dir f q); [now apply make_link_file | exact D].
Qed.

Lemma C96_own_file_l : forall legacy e fs c,
  let own := e_cwd e ++ [nm (script_file legacy)] in
  fs own = Some (File c) -> (forall opn, e_opn e = Some opn -> ~ below (package_dir opn) own) ->
  fst (install legacy e fs) own = None /\ snd (install legacy e fs) = true.
Proof.
  intros legacy e fs c own. assert (own = hook_path legacy e) as -> by (destruct legacy; reflexivity).
  intros H OUT. unfold install.
  assert (holds_file (pip_step e fs) (hook_path legacy e)) as H1.
  { exists c. unfold pip_step. destruct (e_pip e) as [files|]; [|assumption]. destruct (e_opn e) as [opn|] eqn:O; [|assumption].
    rewrite unpack_other; [assumption|]. apply free_outside. now apply OUT. }
  assert (holds_file (curl_step legacy e (pip_step e fs)) (hook_path legacy e)) as H2.
  { unfold curl_step. destruct (e_fetch e) as [d|]; [|assumption]. exists d. apply put_same. }
  assert (holds_file (python_step legacy e (curl_step legacy e (pip_step e fs))) (hook_path legacy e)) as H3.
  { revert H2. generalize (curl_step legacy e (pip_step e fs)). intros f F. unfold python_step.
    destruct (f (hook_path legacy e)) as [[d| |]|]; try assumption. destruct (e_genuine e d); [|assumption].
    unfold hook. destruct (e_sio e) as [s|]; [|assumption]. destruct (resolve f _) as [q|]; [|assumption].
    destruct (f q) as [[t| |]|]; try assumption. destruct (fst (modify (Some t))); [now apply put_file | assumption]. }
  assert (holds_file (link_step legacy e (python_step legacy e (curl_step legacy e (pip_step e fs)))) (hook_path legacy e)) as (d & H4)
    by (unfold link_step; now apply ln_file).
  unfold rm_step. rewrite H4. cbn [fst snd]. split; [apply put_same | reflexivity].
Qed.

Lemma C96_no_anchor_l : forall legacy e fs opn sio files t u ls,
  no_blank opn -> no_blank sio -> ready legacy e fs opn sio files t ->
  same_text t u -> lines_of u ls ->
  Forall (fun l => ~ occurs line_to_add l) ls -> Forall (fun l => ~ occurs preceding_line l) ls ->
  exists fs', install legacy e fs = (fs', true) /\ fs' (host_file legacy sio) = Some (File t) /\ module_there legacy fs' sio.
Proof.
  intros legacy e fs opn sio files t u ls NO NS R ST LI NA NP.
  destruct (C56_untouched_l t u ls ST LI) as (_ & M & _). specialize (M NA NP).
  assert (fst (modify (Some t)) = Some t) as MO by now rewrite M.
  exists (after_first legacy opn sio files t fs). pose proof (prepared_after _ _ _ _ _ _ _ t R) as PA.
  split; [now apply install_first with (t := t)|]. split; [exact (p_host _ _ _ _ _ _ PA)|].
  exists (package_dir opn). split.
  - unfold entry. apply resolve_link; [exact (p_chan _ _ _ _ _ _ PA) | apply put_same | exact (p_site _ _ _ _ _ _ PA)].
  - apply (p_site _ _ _ _ _ _ PA (package_dir opn) []); [now rewrite app_nil_r|]. unfold package_dir. now destruct (comps opn).
Qed.

(* no download: the link is made all the same *)
Lemma C96_offline_l : forall legacy e e0 fs opn sio files t,
  no_blank opn -> no_blank sio -> ready legacy e0 fs opn sio files t ->
  e_cwd e = e_cwd e0 -> e_opn e = e_opn e0 -> e_sio e = e_sio e0 -> e_pip e = e_pip e0 -> e_fetch e = None ->
  exists fs', install legacy e fs = (fs', false) /\ fs' (host_file legacy sio) = Some (File t) /\ module_there legacy fs' sio.
Proof.
  intros legacy e e0 fs opn sio files t NO NS R CW O S P FE.
  pose proof (prepared_first _ _ _ _ _ _ _ R) as [O0 S0 _ SI CH HO HK].
  set (U := unpack (package_dir opn) files fs) in *.
  assert (hook_path legacy e = hook_path legacy e0) as HP by (unfold hook_path; now rewrite CW).
  assert (pip_step e fs = U) as PU by (unfold pip_step; now rewrite P, O, (r_pip _ _ _ _ _ _ _ R), (r_opn _ _ _ _ _ _ _ R)).
  assert (U (entry legacy sio) = None) as UE
    by (unfold U; rewrite unpack_other by exact (entry_free _ _ _ _ _ _ _ R); exact (r_entry _ _ _ _ _ _ _ R)).
  exists (put (entry legacy sio) (Some (Link (package_dir opn))) U). split; [|split].
  - unfold install. rewrite PU. unfold curl_step. rewrite FE. unfold python_step. rewrite HP, HK.
    rewrite (link_args legacy e opn sio) by congruence. unfold entry at 1. rewrite ln_fresh by assumption.
    fold (entry legacy sio). unfold rm_step. rewrite HP, put_other by apply entry_hook. now rewrite HK.
  - rewrite put_other by apply entry_host. assumption.
  - exists (package_dir opn).
    assert (forall p, physical U p -> physical (put (entry legacy sio) (Some (Link (package_dir opn))) U) p) as K
      by (intros p X; apply physical_put; [assumption | now rewrite UE]).
    split.
    + unfold entry at 2. apply resolve_link; [now apply K | apply put_same | now apply K].
    + apply (K _ SI (package_dir opn) []); [now rewrite app_nil_r|]. unfold package_dir. now destruct (comps opn).
Qed.

(* concrete machines *)
Definition listed (l : list (path * node)) : fsys :=
  fun q => match find (fun f => path_eqb (fst f) q) l with Some f => Some (snd f) | None => None end.
Definition host_text : text := nm "import os" ++ [nl] ++ preceding_line ++ [nl] ++ nm "import re".
Definition machine (site : text) : fsys :=
  listed [([site], Dir); ([site; nm "sionna"], Dir); ([site; nm "sionna"; nm "phy"], Dir);
          ([site; nm "sionna"; nm "phy"; nm "channel"], Dir);
          ([site; nm "sionna"; nm "phy"; nm "channel"; nm "__init__.py"], File host_text);
          ([nm "home"], Dir); ([nm "home"; nm "notes"], File (nm "x"))].
Definition visit (site : text) (opn : option text) (ok : bool) : env :=
  {| e_cwd := [nm "home"]; e_opn := opn; e_sio := Some (nm "/" ++ site);
     e_pip := if ok then Some [([nm "tdl.py"], File (nm "y")); ([nm "models"], Dir)] else None;
     e_fetch := Some (nm "hook"); e_genuine := fun c => path_eqb [c] [nm "hook"] |}.

Lemma prefixes (P : path -> Prop) (l : path) :
  (forall k, (k < length l)%nat -> P (firstn (S k) l)) -> forall a b, l = a ++ b -> a <> [] -> P a.
Proof.
  intros H a b E NE. assert (a = firstn (length a) l) as -> by (now rewrite E, firstn_app, Nat.sub_diag, firstn_all, app_nil_r).
  destruct a as [|x a]; [congruence|]. cbn [length]. apply H. rewrite E, app_length. cbn. lia.
Qed.
Ltac each_prefix := intros k K; cbn in K;
  repeat (first [exfalso; lia | destruct k as [|k]; [vm_compute; reflexivity|]]).

Lemma host_anchored : anchored host_text [nm "import os" ++ [nl]] (preceding_line ++ [nl]) [nm "import re"].
Proof.
  assert (forall s l : text, isin s l = false -> ~ occurs s l) as NO.
  { intros s l. revert s. induction l as [|c r IH]; intros s I (x & y & E).
    - destruct x; [|discriminate]. destruct s; [|discriminate]. discriminate I.
    - cbn [isin] in I. apply orb_false_iff in I. destruct I as [S I]. destruct x as [|d x].
      + cbn [app] in E. rewrite E in S. clear -S. revert y S. induction s as [|k s IHs]; intros y S; [discriminate|].
        cbn in S. rewrite Ascii.eqb_refl in S. now apply (IHs y).
      + cbn in E. injection E as -> E. apply (IH s I). now exists x, y. }
  assert (forall t : text, existsb (Ascii.eqb nl) t = false -> ~ In nl t) as NN.
  { intros t H I. assert (existsb (Ascii.eqb nl) t = true) as X by (apply existsb_exists; exists nl; split; [assumption | apply Ascii.eqb_refl]). congruence. }
  exists host_text. split; [|split; [|split; [|split; [|split]]]].
  - assert (forall t : text, existsb (Ascii.eqb cr) t = false -> same_text t t) as SR.
    { induction t as [|c r IH]; intros H; [constructor|]. cbn [existsb] in H. apply orb_false_iff in H. destruct H as [A B].
      apply same_char; [intros ->; now rewrite Ascii.eqb_refl in A | now apply IH]. }
    apply SR. reflexivity.
  - split; [reflexivity|]. right. exists [nm "import os" ++ [nl]; preceding_line ++ [nl]], (nm "import re").
    split; [reflexivity|]. split; [|split; [discriminate | apply NN; reflexivity]].
    apply Forall_cons; [exists (nm "import os"); split; [reflexivity | apply NN; reflexivity]|].
    apply Forall_cons; [exists preceding_line; split; [reflexivity | apply NN; reflexivity] | constructor].
  - repeat apply Forall_cons; try apply Forall_nil; apply NO; reflexivity.
  - repeat apply Forall_cons; try apply Forall_nil; apply NO; reflexivity.
  - exists [], [nl]. reflexivity.
  - exists preceding_line; split; [reflexivity | apply NN; reflexivity].
Qed.

Lemma blank_free (t : text) : existsb (Ascii.eqb blank) t = false -> no_blank t.
Proof.
  intros H I. assert (existsb (Ascii.eqb blank) t = true) as X
    by (apply existsb_exists; exists blank; split; [assumption | apply Ascii.eqb_refl]). congruence.
Qed.

Definition package_files : list (path * node) := [([nm "tdl.py"], File (nm "y")); ([nm "models"], Dir)].
Lemma machine_ready :
  ready false (visit (nm "py") (Some (nm "/py")) true) (machine (nm "py")) (nm "/py") (nm "/py") package_files host_text /\
  no_inner (machine (nm "py")) (nm "/py") package_files /\ no_blank (nm "/py").
Proof.
  split; [|split].
  - constructor.
    + reflexivity.
    + vm_compute; reflexivity.
    + vm_compute; reflexivity.
    + exists (nm "hook"). split; vm_compute; reflexivity.
    + intros a b. apply (prefixes (fun a => machine (nm "py") a = Some Dir)). each_prefix.
    + intros a b. apply (prefixes (fun a => machine (nm "py") a = Some Dir)). each_prefix.
    + vm_compute; reflexivity.
    + vm_compute; reflexivity.
    + vm_compute; reflexivity.
    + intros n (r & E). apply (f_equal (fun p => nth 1 p [])) in E. discriminate E.
    + intros (r & E). apply (f_equal (fun p => nth 0 p [])) in E. discriminate E.
  - split; [vm_compute; reflexivity|]. intros f [<-|[<-|[]]]; discriminate.
  - apply blank_free. reflexivity.
Qed.

Lemma blank_machine :
  exists fs', install false (visit (nm "a b") (Some (nm "/a b")) false) (machine (nm "a b")) = (fs', true) /\
  asks_for_module false fs' (nm "/a b") /\ ~ module_there false fs' (nm "/a b").
Proof.
  apply (C96_blank_l false (visit (nm "a b") (Some (nm "/a b")) false) (machine (nm "a b")) (nm "/a") (nm "b") host_text
           [nm "import os" ++ [nl]] (preceding_line ++ [nl]) [nm "import re"] (nm "hook")).
  - apply blank_free. reflexivity.
  - vm_compute; reflexivity.
  - vm_compute; reflexivity.
  - vm_compute; reflexivity.
  - reflexivity.
  - intros a b. apply (prefixes (fun a => machine (nm "a b") a = Some Dir)). each_prefix.
  - vm_compute; reflexivity.
  - vm_compute; reflexivity.
  - vm_compute; reflexivity.
  - apply host_anchored.
  - exists [], (nm "a"), (channel_dir false). split; [vm_compute; reflexivity|]. split; [|split].
    + intros a b E NE. symmetry in E. apply app_eq_nil in E. now destruct E.
    + vm_compute; reflexivity.
    + intros E. apply (f_equal (@length text)) in E. discriminate E.
Qed.

Lemma unreachable_machine :
  exists fs', install false (visit (nm "py") None false) (machine (nm "py")) = (fs', true) /\
  asks_for_module false fs' (nm "/py") /\ ~ module_there false fs' (nm "/py") /\
  fs' (entry false (nm "/py")) = Some (Link [nm "OpenNTN"]).
Proof.
  apply (C96_failed_pip_l false (visit (nm "py") None false) (machine (nm "py")) (nm "/py") host_text
           [nm "import os" ++ [nl]] (preceding_line ++ [nl]) [nm "import re"] (nm "hook")).
  - apply blank_free. reflexivity.
  - reflexivity.
  - vm_compute; reflexivity.
  - vm_compute; reflexivity.
  - vm_compute; reflexivity.
  - intros a b. apply (prefixes (fun a => machine (nm "py") a = Some Dir)). each_prefix.
  - vm_compute; reflexivity.
  - vm_compute; reflexivity.
  - vm_compute; reflexivity.
  - apply host_anchored.
  - vm_compute; reflexivity.
Qed.

(* ---- the paths, name by name ---- *)
Lemma comps_name n : forall cur t, ~ In "/"%char n -> comps_from cur (n ++ t) = comps_from (rev n ++ cur) t.
Proof.
  induction n as [|c r IH]; intros cur t N; [reflexivity|]. cbn [app comps_from rev].
  destruct (Ascii.eqb c "/"%char) eqn:E.
  - apply Ascii.eqb_eq in E. exfalso. apply N. left. exact E.
  - rewrite IH by (intros H; apply N; right; exact H). rewrite <- app_assoc. reflexivity.
Qed.
Lemma comps_spelt p : proper_names p -> comps (spelt p) = p.
Proof.
  intros H. unfold comps, spelt. induction H as [|n r [NE NS] H IH]; [reflexivity|].
  cbn [map concat app]. cbn [comps_from Ascii.eqb Bool.eqb]. rewrite comps_name by assumption. rewrite app_nil_r.
  assert (rev n <> []) as RN by (intros E; apply NE; rewrite <- (rev_involutive n), E; reflexivity).
  destruct r as [|m q].
  - cbn [map concat comps_from]. destruct (rev n) eqn:E; [congruence|]. rewrite <- E, rev_involutive. reflexivity.
  - cbn [map concat app] in *. cbn [comps_from Ascii.eqb Bool.eqb] in *. destruct (rev n) eqn:E; [congruence|].
    rewrite <- E, rev_involutive. f_equal. exact IH.
Qed.
Lemma C96_paths_l : forall legacy e p, proper_names p ->
  package_dir (spelt p) = p ++ [nm "OpenNTN"] /\
  host_file legacy (spelt p) = p ++ map nm (host_dir legacy ++ ["__init__.py"%string]) /\
  entry legacy (spelt p) = p ++ map nm (host_dir legacy ++ ["tr38811"%string]) /\
  hook_path legacy e = e_cwd e ++ [nm (script_file legacy)].
Proof.
  intros legacy e p H. unfold host_file, entry, channels, package_dir, hook_path. rewrite comps_spelt by assumption.
  rewrite <- !app_assoc. destruct legacy; repeat split.
Qed.

(* ---- a file where the link should go ---- *)
Lemma ln_file_there fs d n target c : physical fs d -> fs (d ++ [n]) = Some (File c) ->
  ln_s fs target (d ++ [n]) = fs.
Proof.
  intros P F. unfold ln_s. rewrite (resolve_file fs d n c P F), removelast_snoc, last_snoc.
  rewrite (resolve_physical fs d P), (physical_dir fs d P). unfold make_link. rewrite F.
  unfold is_dir. destruct (d ++ [n]) eqn:E; [|rewrite F; reflexivity].
  apply (f_equal (@length text)) in E. rewrite app_length in E. cbn in E. lia.
Qed.
Lemma C96_occupied_l : forall legacy e fs opn sio files t pre a post c,
  no_blank opn -> no_blank sio -> ready legacy e fs opn sio files t -> anchored t pre a post ->
  exists fs', install legacy e (put (entry legacy sio) (Some (File c)) fs) = (fs', true) /\
    asks_for_module legacy fs' sio /\ ~ module_there legacy fs' sio /\ fs' (entry legacy sio) = Some (File c) /\
    (forall q, ~ below (package_dir opn) q -> q <> host_file legacy sio -> q <> entry legacy sio -> fs' q = fs q) /\
    (forall r, r <> [] -> ~ In r (map fst files) -> fs' (package_dir opn ++ r) = fs (package_dir opn ++ r)).
Proof.
  intros legacy e fs opn sio files t pre a post c NO NS R AN.
  destruct (anchored_modify t pre a post AN) as (t' & MO & LI & (x & y & TX)).
  pose proof (entry_free _ _ _ _ _ _ _ R) as EF.
  set (U := put (entry legacy sio) (Some (File c)) (unpack (package_dir opn) files fs)).
  assert (PU : prepared legacy e U opn sio t).
  { unfold U. apply prepared_put; [exact (prepared_first _ _ _ _ _ _ _ R)| |apply entry_host|apply entry_hook].
    rewrite unpack_other by exact EF. rewrite (r_entry _ _ _ _ _ _ _ R). discriminate. }
  assert (UE : U (entry legacy sio) = Some (File c)) by (unfold U; apply put_same).
  set (W := put (host_file legacy sio) (Some (File t')) U).
  assert (WE : W (entry legacy sio) = Some (File c)).
  { unfold W. rewrite put_other by (intros E; symmetry in E; now apply entry_host in E). exact UE. }
  pose proof (prepared_host _ _ _ _ _ _ t' PU) as PW. fold W in PW.
  exists W. split.
  - unfold install. rewrite (pip_result _ _ _ _ _ _ _ R), unpack_put by exact EF. fold U.
    destruct PU as [O S (d & FE & GE) SI CH HO HK].
    rewrite (python_result legacy e U sio t t' d) by assumption. fold W.
    rewrite (link_args legacy e opn sio) by assumption.
    assert (WH : W (hook_path legacy e) = None) by exact (p_hook _ _ _ _ _ _ PW).
    unfold entry at 1. rewrite (ln_file_there _ _ _ _ c).
    + apply rm_result. exact WH.
    + apply physical_put; [exact (p_chan _ _ _ _ _ _ PW)|rewrite WH; discriminate].
    + fold (entry legacy sio). rewrite put_other by (intros E; symmetry in E; now apply entry_hook in E). exact WE.
  - split; [|split; [|split; [exact WE|split]]].
    + exists (host_file legacy sio), t', x, y. split; [|split; [exact (p_host _ _ _ _ _ _ PW)|exact TX]].
      unfold host_file. apply resolve_file with (t := t'); [exact (p_chan _ _ _ _ _ _ PW)|exact (p_host _ _ _ _ _ _ PW)].
    + intros (d & RD & FD). pose proof (resolve_file W _ _ c (p_chan _ _ _ _ _ _ PW) WE) as RE. fold (entry legacy sio) in RE.
      rewrite RE in RD. congruence.
    + intros q B NH NE. unfold W, U. rewrite !put_other by congruence. apply unpack_other. now apply free_outside.
    + intros r NE NI. unfold W, U. rewrite !put_other.
      * apply unpack_other. split.
        -- intros E. apply NE. apply (app_inv_head (package_dir opn)). now rewrite app_nil_r.
        -- intros f I E. apply app_inv_head in E. apply NI. apply in_map_iff. now exists f.
      * intros E. apply (r_out_chan _ _ _ _ _ _ _ R (nm "tr38811")). exists r. exact E.
      * intros E. apply (r_out_chan _ _ _ _ _ _ _ R (nm "__init__.py")). exists r. exact E.
Qed.
