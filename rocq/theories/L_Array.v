(* Lemmas on the readable properties of panels and arrays (C79) and on the element gains (C42). *)
From Coq Require Import Reals String List Bool Arith Lia Lra.
From Verif Require Import M_Base L_Base M_Params L_Trig L_Pathloss M_Antenna S_Antenna L_Antenna M_Array.
Import ListNotations.
Open Scope string_scope.
Open Scope list_scope.
Open Scope R_scope.

Lemma gains_in_degrees j1 s :
  (exists e, make_element j1 "38.901" s = Ok e /\ forall th ph,
     10 * log10 (el_pattern e (th * PI / 180) (ph * PI / 180)) = gain_38901 th ph) /\
  (exists e, make_element j1 "dlp" s = Ok e /\ forall th ph,
     10 * log10 (el_pattern e (th * PI / 180) (ph * PI / 180)) = gain_dlp th ph).
Proof.
  assert (P := PI_RGT_0).
  split; (eexists; split; [reflexivity|]); intros th ph; cbn [el_pattern].
  - unfold pattern_38901. rewrite log10_pow10. unfold pattern_38901_db, gain_38901, sq.
    replace ((th * PI / 180 - PI / 2) / (65 / 180 * PI)) with ((th - 90) / 65) by (field; lra).
    replace (ph * PI / 180 / (65 / 180 * PI)) with (ph / 65) by (field; lra).
    replace (12 * ((th - 90) / 65 * ((th - 90) / 65))) with (12 * ((th - 90) / 65) ^ 2) by ring.
    replace (12 * (ph / 65 * (ph / 65))) with (12 * (ph / 65) ^ 2) by ring.
    match goal with |- context [Rmin (- (- ?a + - ?b)) ?m] => replace (- (- a + - b)) with (a + b) by ring end. lra.
  - unfold pattern_dlp. rewrite log10_pow10. unfold pattern_dlp_db, gain_dlp, sq.
    replace (th * PI / 180 * (180 / PI)) with th by (field; lra).
    replace (ph * PI / 180 * (180 / PI)) with ph by (field; lra).
    replace (12 * ((th - 90) / 90 * ((th - 90) / 90))) with (12 * ((th - 90) / 90) ^ 2) by ring.
    replace (12 * (ph / 90 * (ph / 90))) with (12 * (ph / 90) ^ 2) by ring.
    match goal with |- context [Rmin (- (- ?a + - ?b)) ?m] => replace (- (- a + - b)) with (a + b) by ring end. lra.
Qed.

Lemma square_mono x y w : 0 < w -> Rabs x <= Rabs y -> (x / w) ^ 2 <= (y / w) ^ 2.
Proof.
  intros W H. apply Rsqr_le_abs_1 in H. unfold Rsqr in H.
  replace ((x / w) ^ 2) with (x * x / (w * w)) by (field; lra).
  replace ((y / w) ^ 2) with (y * y / (w * w)) by (field; lra).
  apply Rmult_le_compat_r; [left; apply Rinv_0_lt_compat; nra | exact H].
Qed.

Lemma rmin_mono a b c : a <= b -> Rmin a c <= Rmin b c.
Proof. intros H. unfold Rmin. destruct (Rle_dec a c), (Rle_dec b c); lra. Qed.

Lemma gain_laws :
  (forall th ph, gain_38901 (180 - th) ph = gain_38901 th ph /\ gain_38901 th (- ph) = gain_38901 th ph /\
     gain_dlp (180 - th) ph = gain_dlp th ph /\ gain_dlp th (- ph) = gain_dlp th ph) /\
  (forall th ph th' ph', Rabs (th - 90) <= Rabs (th' - 90) -> Rabs ph <= Rabs ph' ->
     gain_38901 th' ph' <= gain_38901 th ph /\ gain_dlp th' ph' <= gain_dlp th ph) /\
  gain_38901 90 0 = 8 /\ gain_38901 90 32.5 = 5 /\ gain_38901 122.5 0 = 5 /\ gain_38901 90 180 = -22 /\
  gain_dlp 90 0 = 0 /\ gain_dlp 90 45 = -3 /\ gain_dlp 135 0 = -3 /\ gain_dlp 90 180 = -25.
Proof.
  split; [| split].
  - intros th ph. unfold gain_38901, gain_dlp.
    replace ((180 - th - 90) / 65) with (- ((th - 90) / 65)) by lra. replace (- ph / 65) with (- (ph / 65)) by lra.
    replace ((180 - th - 90) / 90) with (- ((th - 90) / 90)) by lra. replace (- ph / 90) with (- (ph / 90)) by lra.
    assert (Q : forall x, (- x) ^ 2 = x ^ 2) by (intros; ring). rewrite !Q. auto.
  - intros th ph th' ph' H K. unfold gain_38901, gain_dlp.
    assert (A1 := square_mono _ _ 65 ltac:(lra) H). assert (A2 := square_mono _ _ 65 ltac:(lra) K).
    assert (B1 := square_mono _ _ 90 ltac:(lra) H). assert (B2 := square_mono _ _ 90 ltac:(lra) K).
    split.
    + assert (M1 := rmin_mono (12 * ((th - 90) / 65) ^ 2) (12 * ((th' - 90) / 65) ^ 2) 30 ltac:(lra)).
      assert (M2 := rmin_mono (12 * (ph / 65) ^ 2) (12 * (ph' / 65) ^ 2) 30 ltac:(lra)).
      assert (M := rmin_mono _ _ 30 (Rplus_le_compat _ _ _ _ M1 M2)). lra.
    + assert (M1 := rmin_mono (12 * ((th - 90) / 90) ^ 2) (12 * ((th' - 90) / 90) ^ 2) 25 ltac:(lra)).
      assert (M2 := rmin_mono (12 * (ph / 90) ^ 2) (12 * (ph' / 90) ^ 2) 25 ltac:(lra)).
      assert (M := rmin_mono _ _ 25 (Rplus_le_compat _ _ _ _ M1 M2)). lra.
  - unfold gain_38901, gain_dlp, Rmin. cbn [pow]. repeat split;
      repeat match goal with |- context [Rle_dec ?a ?b] =>
        lazymatch a with context [Rle_dec _ _] => fail | _ => destruct (Rle_dec a b) end end; lra.
Qed.

Lemma array_dual j1 p a : make_array j1 p = Ok a -> pa_dual a = String.eqb (ar_pol p) "dual" /\
  String.eqb (ar_pol p) "single" = negb (pa_dual a).
Proof.
  intros H. destruct (proj1 (C63_l j1 p) (ex_intro _ a H)) as (I & _).
  destruct (C39_positions_l j1 p a H) as (D & _). rewrite D. split; [reflexivity|].
  cbn [In] in I. destruct I as [I|[I|[I|[I|[]]]]]; injection I as <- _; reflexivity.
Qed.

Lemma array_properties j1 p a : make_array j1 p = Ok a ->
  let get := array_read p a in
  get "num_rows" = Ok (ANat (ar_rows p)) /\ get "num_cols" = Ok (ANat (ar_cols p)) /\
  get "num_rows_per_panel" = Ok (ANat (ar_rows_pp p)) /\ get "num_cols_per_panel" = Ok (ANat (ar_cols_pp p)) /\
  get "polarization" = Ok (AStr (ar_pol p)) /\ get "polarization_type" = Ok (AStr (ar_type p)) /\
  (exists np ne n pos ind1, get "num_panels" = Ok (ANat np) /\ get "num_panels_ant" = Ok (ANat ne) /\
     get "num_ant" = Ok (ANat n) /\ n = (np * ne)%nat /\ np = (ar_rows p * ar_cols p)%nat /\
     get "ant_pos" = Ok (APoints pos) /\ length pos = n /\
     get "ant_ind_pol1" = Ok (AInds ind1) /\
     get "ant_pos_pol1" = Ok (APoints (map (fun k => nth k pos (V3 0 0 0)) ind1)) /\
     (ar_pol p = "single" -> partitions n ind1 [] /\ ne = (ar_rows_pp p * ar_cols_pp p)%nat /\
        forall name, In name ["ant_pol2"; "ant_ind_pol2"; "ant_pos_pol2"] ->
          exists m, get name = Err (AssertionError m)) /\
     (ar_pol p = "dual" -> ne = (2 * (ar_rows_pp p * ar_cols_pp p))%nat /\
        exists ind2 e, get "ant_ind_pol2" = Ok (AInds ind2) /\ partitions n ind1 ind2 /\
          length ind1 = length ind2 /\ get "ant_pol2" = Ok (AElem e) /\
          get "ant_pos_pol2" = get "ant_pos_pol1")) /\
  (exists ev eh pv ph, get "element_vertical_spacing" = Ok (AReal ev) /\
     get "element_horizontal_spacing" = Ok (AReal eh) /\
     get "panel_vertical_spacing" = Ok (AReal pv) /\ get "panel_horizontal_spacing" = Ok (AReal ph) /\
     (INR (ar_rows_pp p) - 1) * ev < pv /\ (INR (ar_cols_pp p) - 1) * eh < ph /\
     (forall x, ar_elem_v p = Some x -> ev = x) /\ (ar_elem_v p = None -> ev = 0.5) /\
     (forall x, ar_elem_h p = Some x -> eh = x) /\ (ar_elem_h p = None -> eh = 0.5) /\
     (forall x, ar_panel_v p = Some x -> pv = x) /\ (ar_panel_v p = None -> pv = (INR (ar_rows_pp p) - 1) * ev + 0.5) /\
     (forall x, ar_panel_h p = Some x -> ph = x) /\ (ar_panel_h p = None -> ph = (INR (ar_cols_pp p) - 1) * eh + 0.5)).
Proof.
  intros H. cbv zeta. destruct (array_dual _ _ _ H) as [D S].
  destruct (array_partition _ _ _ H) as (P & L1 & L2).
  destruct (C39_positions_l _ _ _ H) as (_ & N & _).
  unfold array_read. cbn.
  do 6 (split; [reflexivity|]). split.
  - do 5 eexists. do 3 (split; [reflexivity|]). rewrite S. rewrite N.
    split; [destruct (pa_dual a); cbn; lia|]. split; [lia|]. split; [reflexivity|].
    split; [unfold gather_pos; rewrite map_length, seq_length; reflexivity|]. split; [reflexivity|].
    rewrite <- N. split.
    { do 2 f_equal. unfold gather_pos. apply map_ext_in. intros k K.
      assert (KN : (k < pa_num_ant a)%nat) by (apply P; left; exact K).
      rewrite (nth_indep _ _ (pa_pos a 0%nat)) by (rewrite map_length, seq_length; exact KN).
      rewrite map_nth, seq_nth by exact KN. reflexivity. }
    split; intros E; rewrite E in D; cbn in D; rewrite D in *.
    + destruct (pa_ind2 a) as [| x l] eqn:I2; [| discriminate L2].
      split; [exact P|]. split; [cbn; lia|].
      intros name [<-|[<-|[<-|[]]]]; unfold only_dual; rewrite E; eexists; reflexivity.
    + split; [cbn; lia|]. unfold only_dual. rewrite E. cbn [String.eqb Ascii.eqb Bool.eqb].
      destruct (proj1 (C63_l j1 p) (ex_intro _ a H)) as (I & _). cbn [In] in I.
      assert (Q : exists e, pa_pol2 a = Some e).
      { destruct I as [I|[I|[I|[I|[]]]]]; injection I as I1 I2; try congruence.
        - destruct (C41_vh_l _ _ _ H (eq_sym I2)) as (_ & _ & e & Q & _). exists e; exact Q.
        - destruct (C41_l _ _ _ H) as (_ & _ & Q & _). destruct (Q (eq_sym I2)) as (_ & e & Q1 & _). exists e; exact Q1. }
      destruct Q as [e Q]. exists (pa_ind2 a), e. rewrite Q. split; [reflexivity|]. split; [exact P|].
      split; [lia|]. split; [reflexivity|]. unfold gather_pos. rewrite (C39_pairs_l _ _ _ H D). reflexivity.
  - destruct (proj1 (C63_l j1 p) (ex_intro _ a H)) as (_ & _ & V & HH & _).
    unfold default. do 4 eexists. do 4 (split; [reflexivity|]).
    split; [destruct (ar_panel_v p); [apply V; reflexivity | lra]|].
    split; [destruct (ar_panel_h p); [apply HH; reflexivity | lra]|].
    destruct (ar_elem_v p), (ar_elem_h p), (ar_panel_v p), (ar_panel_h p);
      repeat split; intros; try discriminate; try congruence.
Qed.

Lemma panel_properties rows cols pol v h :
  ((exists q, make_panel rows cols pol v h = Ok q) <-> pol = "single" \/ pol = "dual") /\
  forall q, make_panel rows cols pol v h = Ok q ->
    panel_read q "num_rows" = Ok (ANat rows) /\ panel_read q "num_cols" = Ok (ANat cols) /\
    panel_read q "vertical_spacing" = Ok (AReal v) /\ panel_read q "horizontal_spacing" = Ok (AReal h) /\
    exists pos, panel_read q "ant_pos" = Ok (APoints pos) /\
      length pos = (rows * cols * (if String.eqb pol "single" then 1 else 2))%nat /\
      forall k i j, (k < (if String.eqb pol "single" then 1 else 2))%nat -> (i < rows)%nat -> (j < cols)%nat ->
        nth (k * (rows * cols) + (j * rows + i)) pos (V3 0 0 0) =
        V3 0 ((INR j - (INR cols - 1) / 2) * h) (((INR rows - 1) / 2 - INR i) * v).
Proof.
  split.
  - unfold make_panel. destruct (String.eqb_spec pol "single"), (String.eqb_spec pol "dual"); cbn; split; intros H;
      try (destruct H; discriminate); try tauto; try (eexists; reflexivity).
  - unfold make_panel. intros q H.
    assert (PD : String.eqb pol "dual" = negb (String.eqb pol "single")).
    { destruct (String.eqb_spec pol "single") as [->|N]; [reflexivity|].
      destruct (String.eqb_spec pol "dual"); [reflexivity | discriminate H]. }
    destruct (String.eqb pol "single" || String.eqb pol "dual")%bool; [| discriminate]. injection H as <-.
    unfold panel_read. cbn. do 4 (split; [reflexivity|]). eexists. split; [reflexivity|].
    rewrite map_length, seq_length. split; [reflexivity|].
    intros k i j K I J. rewrite PD.
    set (n := (k * (rows * cols) + (j * rows + i))%nat).
    assert (NL : (n < rows * cols * (if String.eqb pol "single" then 1 else 2))%nat).
    { assert (j * rows + i < rows * cols)%nat by nia. unfold n. nia. }
    rewrite (nth_indep _ _ (panel_pos rows cols (negb (String.eqb pol "single")) v h 0%nat)) by (rewrite map_length, seq_length; exact NL).
    rewrite map_nth, seq_nth by exact NL. unfold n. cbn [plus].
    rewrite (panel_position rows cols (negb (String.eqb pol "single")) v h k i j); [| assumption.. |];
      try (destruct (String.eqb pol "single"); cbn [negb]; lia).
    f_equal; field.
Qed.

Lemma panel_polarization_missing rows cols pol v h q : make_panel rows cols pol v h = Ok q ->
  exists m, panel_read q "polarization" = Err (AttributeError m).
Proof. intros _. eexists. reflexivity. Qed.

Lemma element_gains j1 s :
  (exists e, make_element j1 "38.901" s = Ok e /\
     let g th ph := 10 * log10 (el_pattern e (th * PI / 180) (ph * PI / 180)) in
     (forall th ph, g th ph = gain_38901 th ph) /\
     (forall th ph, g (180 - th) ph = g th ph /\ g th (- ph) = g th ph) /\
     (forall th ph th' ph', Rabs (th - 90) <= Rabs (th' - 90) -> Rabs ph <= Rabs ph' -> g th' ph' <= g th ph) /\
     g 90 0 = 8 /\ g 90 32.5 = 5 /\ g 122.5 0 = 5 /\ g 90 180 = -22) /\
  (exists e, make_element j1 "dlp" s = Ok e /\
     let g th ph := 10 * log10 (el_pattern e (th * PI / 180) (ph * PI / 180)) in
     (forall th ph, g th ph = gain_dlp th ph) /\
     (forall th ph, g (180 - th) ph = g th ph /\ g th (- ph) = g th ph) /\
     (forall th ph th' ph', Rabs (th - 90) <= Rabs (th' - 90) -> Rabs ph <= Rabs ph' -> g th' ph' <= g th ph) /\
     g 90 0 = 0 /\ g 90 45 = -3 /\ g 135 0 = -3 /\ g 90 180 = -25).
Proof.
  destruct (gains_in_degrees j1 s) as [(e & E & A) (e' & E' & A')]. destruct gain_laws as (S & M & V).
  split; [exists e | exists e']; (split; [assumption|]); cbv zeta; (split; [assumption|]); rewrite ?A, ?A';
    (split; [intros th ph; rewrite ?A, ?A'; split; apply S|]);
    (split; [intros th ph th' ph' H K; rewrite ?A, ?A'; apply M; assumption|]); tauto.
Qed.
