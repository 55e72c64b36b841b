(* Lemmas for C80 (constructors) and C81 (properties of the delay lines). *)
From Coq Require Import Reals String List Bool Arith ZArith Lia Lra Permutation.
From Verif Require Import M_Base L_Base M_Params S_Config L_Params L_Config M_Links S_Links L_Tdl L_Cdl M_Objects S_Objects.
Import ListNotations.
Open Scope string_scope.
Open Scope list_scope.
Open Scope R_scope.

Lemma assoc_In : forall n l v, assoc n l = Some v -> In (n, v) l.
Proof.
  intros n l v. induction l as [|[m w] l IH]; cbn; [discriminate|].
  destruct (String.eqb_spec n m) as [->|N]; intros H; [inversion H; auto|auto].
Qed.

Lemma In_assoc : forall n l v, NoDup (map fst l) -> In (n, v) l -> assoc n l = Some v.
Proof.
  intros n l v. induction l as [|[m w] l IH]; cbn; [tauto|].
  intros ND [H|H]; inversion ND as [|x y N1 N2]; subst.
  - inversion H; subst. now rewrite String.eqb_refl.
  - destruct (String.eqb_spec n m) as [->|N]; [|auto].
    exfalso; apply N1. change m with (fst (m, v)). now apply in_map.
Qed.

Lemma assoc_none : forall n l, assoc n l = None -> ~ In n (map fst l).
Proof.
  intros n l. induction l as [|[m w] l IH]; cbn; [tauto|].
  destruct (String.eqb_spec n m) as [->|N]; [discriminate|].
  intros H [E|E]; [congruence|]. now apply IH.
Qed.

Lemma mem_In : forall s l, mem s l = true <-> In s l.
Proof.
  intros s l. unfold mem. rewrite existsb_exists. split.
  - intros (x & H1 & H2). apply String.eqb_eq in H2. now subst.
  - intros H. exists s. split; [exact H|apply String.eqb_refl].
Qed.

(* the value a parameter gets *)
Definition slot (pos : list pyarg) (kw : frame) (i : nat) (p : string * option pyarg) : option pyarg :=
  match nth_error pos i with
  | Some v => Some v
  | None => match assoc (fst p) kw with Some v => Some v | None => snd p end
  end.

Fixpoint slots (sig : signature) (pos : list pyarg) (kw : frame) : list (option pyarg) :=
  match sig with
  | [] => []
  | p :: s => slot pos kw 0 p :: slots s (tl pos) kw
  end.

Fixpoint all_some (l : list (option pyarg)) : option (list pyarg) :=
  match l with
  | [] => Some []
  | Some v :: r => match all_some r with Some vs => Some (v :: vs) | None => None end
  | None :: _ => None
  end.

Lemma fill_slots : forall sig pos kw,
  fill sig pos kw = match all_some (slots sig pos kw) with
                    | Some vs => Ok (combine (map fst sig) vs)
                    | None => Err (TypeError "missing a required positional argument")
                    end.
Proof.
  induction sig as [|[n d] s IH]; intros pos kw; [reflexivity|].
  destruct pos as [|v p]; cbn [fill slots tl slot nth_error fst snd].
  - destruct (assoc n kw) as [v|]; [|destruct d as [v|]]; cbn.
    + rewrite IH. unfold slot; cbn. destruct (all_some _); reflexivity.
    + rewrite IH. destruct (all_some _); reflexivity.
    + reflexivity.
  - rewrite IH. cbn. destruct (all_some _); reflexivity.
Qed.

Lemma names_documented : map fst channel_signature = documented_parameters.
Proof. reflexivity. Qed.

Lemma documented_nodup : NoDup documented_parameters.
Proof.
  unfold documented_parameters.
  repeat (constructor; [cbn; intuition discriminate|]). constructor.
Qed.

Lemma In_firstn_nth : forall (l : list string) k x,
  In x (firstn k l) <-> exists i, nth_error l i = Some x /\ (i < k)%nat.
Proof.
  induction l as [|a l IH]; intros k x.
  - rewrite firstn_nil. cbn. split; [tauto|]. intros ([|i] & H & _); discriminate.
  - destruct k as [|k]; cbn.
    + split; [tauto|]. intros (i & _ & H). lia.
    + rewrite IH. split.
      * intros [->|(i & H & L)]; [exists 0%nat; split; [reflexivity|lia]|exists (S i); split; [exact H|lia]].
      * intros ([|i] & H & L); cbn in H; [inversion H; auto|right; exists i; split; [exact H|lia]].
Qed.

Lemma call_proper : forall pos kw, proper_call pos kw ->
  call_with channel_signature pos kw = fill channel_signature pos kw.
Proof.
  intros pos kw [L K]. unfold call_with. rewrite names_documented.
  replace (Nat.ltb _ _) with false by (symmetry; apply Nat.ltb_ge; exact L).
  replace (forallb _ kw) with true.
  2:{ symmetry. apply forallb_forall. intros [k v] I. apply mem_In. cbn [fst].
      destruct (K k) as (i & H & _); [now apply (in_map fst) in I|]. now apply nth_error_In in H. }
  cbn [negb].
  replace (existsb _ kw) with false; [reflexivity|].
  symmetry. apply not_true_is_false. intros E. apply existsb_exists in E as ([k v] & I & M).
  apply mem_In, In_firstn_nth in M as (j & Hj & Lj). cbn [fst] in Hj.
  destruct (K k) as (i & Hi & Li); [now apply (in_map fst) in I|].
  assert (i = j); [|lia].
  apply (proj1 (NoDup_nth_error _) documented_nodup); [|congruence].
  apply nth_error_Some. congruence.
Qed.

Lemma call_improper : forall pos kw, ~ proper_call pos kw ->
  exists s, call_with channel_signature pos kw = Err (TypeError s).
Proof.
  intros pos kw N. unfold call_with. rewrite names_documented.
  destruct (Nat.ltb _ _) eqn:E1; [eexists; reflexivity|].
  destruct (forallb _ kw) eqn:E2; [|eexists; reflexivity]. cbn [negb].
  destruct (existsb _ kw) eqn:E3; [eexists; reflexivity|].
  exfalso; apply N. split; [now apply Nat.ltb_ge in E1|].
  intros k I. apply in_map_iff in I as ([k' v] & <- & I). cbn [fst].
  rewrite forallb_forall in E2. pose proof (E2 _ I) as M. apply mem_In in M. cbn [fst] in M.
  apply In_nth_error in M as (i & Hi). exists i. split; [exact Hi|].
  destruct (le_lt_dec (length pos) i) as [H|H]; [exact H|exfalso].
  assert (existsb (fun k => mem (fst k) (firstn (length pos) documented_parameters)) kw = true); [|congruence].
  apply existsb_exists. exists (k', v). split; [exact I|]. apply mem_In, In_firstn_nth. cbn [fst]. eauto.
Qed.

Lemma default_iff : forall i n d v, nth_error channel_signature i = Some (n, d) ->
  (signature_default n v <-> d = Some v).
Proof.
  intros i n d v H.
  do 12 (destruct i as [|i]; [cbn in H; inversion H; subst; split;
    [intros D; inversion D; reflexivity|intros D; (discriminate || (inversion D; subst; constructor))]|]).
  destruct i; discriminate.
Qed.

Lemma argument_slot : forall pos kw i n d v,
  NoDup (map fst kw) -> proper_call pos kw -> nth_error channel_signature i = Some (n, d) ->
  (argument pos kw n v <-> slot pos kw i (n, d) = Some v).
Proof.
  intros pos kw i n d v ND P H.
  assert (HN : nth_error documented_parameters i = Some n)
    by (rewrite <- names_documented; erewrite map_nth_error by exact H; reflexivity).
  assert (U : forall j, nth_error documented_parameters j = Some n -> j = i).
  { intros j Hj. apply (proj1 (NoDup_nth_error _) documented_nodup); [|congruence].
    apply nth_error_Some. congruence. }
  assert (S : forall w, supplied pos kw n w <->
              (nth_error pos i = Some w \/ (nth_error pos i = None /\ assoc n kw = Some w))).
  { intros w. unfold supplied. split.
    - intros [(j & Hj & Hp)|I].
      + left. now rewrite <- (U j Hj).
      + right. destruct (proj2 P n) as (j & Hj & Lj); [now apply (in_map fst) in I|].
        rewrite (U j Hj) in Lj. split; [now apply nth_error_None|now apply In_assoc].
    - intros [Hp|[_ I]]; [left; eauto|right; now apply assoc_In]. }
  unfold argument, slot. rewrite (default_iff i n d v H). cbn [fst snd].
  destruct (nth_error pos i) as [w|] eqn:E.
  - split.
    + intros [D|[D _]].
      * apply S in D as [D|[D _]]; [exact D|discriminate].
      * exfalso; apply (D w), S. now left.
    + intros D. left. apply S. now left.
  - destruct (assoc n kw) as [w|] eqn:A.
    + split.
      * intros [D|[D _]]; [apply S in D as [D|[_ D]]; [discriminate|exact D]|].
        exfalso; apply (D w), S. right; split; reflexivity.
      * intros D. left. apply S. right. split; [reflexivity|exact D].
    + split.
      * intros [D|[_ D]]; [apply S in D as [D|[_ D]]; discriminate|exact D].
      * intros D. right. split; [|exact D]. intros w Q. apply S in Q as [Q|[_ Q]]; discriminate.
Qed.

(* the twelve values of a call that binds *)
Lemma slots_channel : forall pos kw,
  slots channel_signature pos kw =
  map (fun ip => slot pos kw (fst ip) (snd ip)) (combine (seq 0 12) channel_signature).
Proof.
  intros pos kw.
  assert (G : forall sig k pos', (forall j, nth_error pos' j = nth_error pos (k + j)) ->
     slots sig pos' kw = map (fun ip => slot pos kw (fst ip) (snd ip)) (combine (seq k (length sig)) sig)).
  { induction sig as [|p s IH]; intros k pos' H; [reflexivity|].
    cbn [slots length seq combine map fst snd]. f_equal.
    - unfold slot. rewrite H. now rewrite Nat.add_0_r.
    - apply IH. intros j. destruct pos' as [|q pos'].
      + cbn [tl]. specialize (H (S j)). cbn in H. rewrite Nat.add_succ_r in H. cbn [Nat.add]. rewrite <- H. now destruct j.
      + cbn [tl]. specialize (H (S j)). cbn in H. rewrite Nat.add_succ_r in H. cbn [Nat.add]. now rewrite <- H. }
  apply (G channel_signature 0%nat pos). reflexivity.
Qed.

(* what the class makes of its twelve argument values *)
Definition build (e : env) (v : list pyarg) : res channel_object :=
  let f := combine documented_parameters v in
  g <- scenario_call e f ;; s <- scenario_body e g ;; channel_body s (var f "always_generate_lsp").

Lemma construct_proper : forall e pos kw, proper_call pos kw ->
  construct e pos kw = match all_some (slots channel_signature pos kw) with
                       | Some vs => build e vs
                       | None => Err (TypeError "missing a required positional argument")
                       end.
Proof.
  intros e pos kw P. unfold construct. rewrite (call_proper _ _ P), fill_slots.
  destruct (all_some _); reflexivity.
Qed.

Definition object_of (sc : scenario) (ut bs : array_arg) (w h : R) (al : bool) (prec : pyarg) (tx rx : array_arg) :=
  {| co_scenario := {| so_scenario := sc; so_ut := ut; so_bs := bs; so_width := w; so_height := h; so_precision := prec |};
     co_always := al; co_tx := tx; co_rx := rx |}.

Lemma init_dir : forall e fc ut bs dir elev pl sf dp sc,
  scenario_init e fc ut bs dir elev pl sf dp = Ok sc ->
  (dir = "uplink" \/ dir = "downlink") /\ sc_env sc = e /\ sc_dir sc = dir /\ sc_fc sc = fc /\ sc_elev sc = elev /\
  sc_pathloss sc = pl /\ sc_shadow sc = sf /\ sc_doppler sc = dp.
Proof.
  intros e fc ut bs dir elev pl sf dp sc H. unfold scenario_init in H.
  destruct (String.eqb_spec dir "uplink") as [D|D]; destruct (String.eqb_spec dir "downlink") as [D'|D']; cbn in H; try discriminate;
  repeat match type of H with (if ?b then _ else _) = _ => destruct b; try discriminate end;
  unfold bind in H;
  repeat match type of H with match ?b with _ => _ end = _ => destruct b; try discriminate end;
  inversion H; subst sc; cbn; tauto.
Qed.

Definition typed_init (e : env) (v1 v2 v3 v4 v5 v6 v7 v11 : pyarg) : res scenario :=
  match v1, v2, v3, v4, v5, v6, v7, v11 with
  | PNum fc, PArr ut, PArr bs, PStr dir, PNum elev, PBool pl, PBool sf, PBool dp =>
      scenario_init e fc ut bs dir elev pl sf dp
  | _, _, _, _, _, _, _, _ => Err (TypeError "wrong kind of argument")
  end.

Lemma build_values : forall e v1 v2 v3 v4 v5 v6 v7 v8 v9 v10 v11 v12,
  build e [v1; v2; v3; v4; v5; v6; v7; v8; v9; v10; v11; v12] =
  (s <- (sc <- typed_init e v1 v2 v3 v4 v5 v6 v7 v11 ;;
         match v2, v3, v8, v9 with
         | PArr ut, PArr bs, PNum w, PNum h =>
             Ok {| so_scenario := sc; so_ut := ut; so_bs := bs; so_width := w; so_height := h; so_precision := v12 |}
         | _, _, _, _ => Err (TypeError "wrong kind of argument")
         end) ;;
   channel_body s v10).
Proof. intros. destruct e; lazy -[scenario_init channel_body]; reflexivity. Qed.

Lemma build_num : forall e fc ut bs dir elev pl sf w h al dp prec,
  build e [PNum fc; PArr ut; PArr bs; PStr dir; PNum elev; PBool pl; PBool sf; PNum w; PNum h; PBool al; PBool dp; prec] =
  (sc <- scenario_init e fc ut bs dir elev pl sf dp ;;
   if String.eqb dir "uplink" then Ok (object_of sc ut bs w h al prec ut bs) else Ok (object_of sc ut bs w h al prec bs ut)).
Proof.
  intros. rewrite build_values. unfold typed_init.
  destruct (scenario_init e fc ut bs dir elev pl sf dp) as [sc|] eqn:E; [|reflexivity].
  pose proof (init_dir _ _ _ _ _ _ _ _ _ _ E) as (D & _ & D' & _). cbn -[String.eqb]. rewrite D'.
  destruct D as [-> | ->]; reflexivity.
Qed.

(* the values that lead to an object have the right kinds *)
Lemma build_ok : forall e v1 v2 v3 v4 v5 v6 v7 v8 v9 v10 v11 v12 obj,
  build e [v1; v2; v3; v4; v5; v6; v7; v8; v9; v10; v11; v12] = Ok obj ->
  exists fc ut bs dir elev pl sf w h al dp,
    v1 = PNum fc /\ v2 = PArr ut /\ v3 = PArr bs /\ v4 = PStr dir /\ v5 = PNum elev /\ v6 = PBool pl /\ v7 = PBool sf /\
    v8 = PNum w /\ v9 = PNum h /\ v10 = PBool al /\ v11 = PBool dp.
Proof.
  intros e v1 v2 v3 v4 v5 v6 v7 v8 v9 v10 v11 v12 obj H. rewrite build_values in H.
  destruct (typed_init e v1 v2 v3 v4 v5 v6 v7 v11) as [sc|] eqn:E; [|discriminate].
  unfold typed_init in E. cbn -[channel_body] in H.
  destruct v1; try discriminate. destruct v2; try discriminate. destruct v3; try discriminate.
  destruct v4; try discriminate. destruct v5; try discriminate. destruct v6; try discriminate.
  destruct v7; try discriminate. destruct v11; try discriminate.
  destruct v8; try discriminate. destruct v9; try discriminate. destruct v10; try discriminate.
  repeat eexists.
Qed.

(* the twelve slots *)
Definition sl (pos : list pyarg) (kw : frame) (i : nat) : option pyarg :=
  match nth_error channel_signature i with Some p => slot pos kw i p | None => None end.

Lemma slots_sl : forall pos kw, slots channel_signature pos kw = map (sl pos kw) (seq 0 12).
Proof. intros. rewrite slots_channel. reflexivity. Qed.

Lemma all_some_map : forall (f : nat -> option pyarg) l vs,
  all_some (map f l) = Some vs <-> map f l = map Some vs.
Proof.
  intros f. induction l as [|i l IH]; intros vs; cbn.
  - split; intros H; [inversion H; reflexivity|]. destruct vs; [reflexivity|discriminate].
  - destruct (f i) as [v|] eqn:E.
    + split; intros H.
      * destruct (all_some (map f l)) as [ws|] eqn:A; [|discriminate]. inversion H; subst.
        cbn. f_equal. now apply IH.
      * destruct vs as [|w ws]; [discriminate|]. cbn in H. inversion H as [[H1 H2]].
        apply IH in H2. now rewrite H2.
    + split; intros H; [discriminate|]. destruct vs; discriminate.
Qed.

Lemma call_arguments_slots : forall pos kw fc ut bs dir elev pl sf w h al dp prec,
  NoDup (map fst kw) -> proper_call pos kw ->
  (call_arguments pos kw fc ut bs dir elev pl sf w h al dp prec <->
   all_some (slots channel_signature pos kw) =
   Some [PNum fc; PArr ut; PArr bs; PStr dir; PNum elev; PBool pl; PBool sf; PNum w; PNum h; PBool al; PBool dp; prec]).
Proof.
  intros pos kw fc ut bs dir elev pl sf w h al dp prec ND P.
  rewrite slots_sl, all_some_map. unfold call_arguments.
  rewrite (argument_slot pos kw 0 _ _ _ ND P eq_refl).
  rewrite (argument_slot pos kw 1 _ _ _ ND P eq_refl).
  rewrite (argument_slot pos kw 2 _ _ _ ND P eq_refl).
  rewrite (argument_slot pos kw 3 _ _ _ ND P eq_refl).
  rewrite (argument_slot pos kw 4 _ _ _ ND P eq_refl).
  rewrite (argument_slot pos kw 5 _ _ _ ND P eq_refl).
  rewrite (argument_slot pos kw 6 _ _ _ ND P eq_refl).
  rewrite (argument_slot pos kw 7 _ _ _ ND P eq_refl).
  rewrite (argument_slot pos kw 8 _ _ _ ND P eq_refl).
  rewrite (argument_slot pos kw 9 _ _ _ ND P eq_refl).
  rewrite (argument_slot pos kw 10 _ _ _ ND P eq_refl).
  rewrite (argument_slot pos kw 11 _ _ _ ND P eq_refl).
  cbn [seq map]. unfold sl. cbn [nth_error channel_signature].
  split.
  - intros (A1 & A2 & A3 & A4 & A5 & A6 & A7 & A8 & A9 & A10 & A11 & A12).
    rewrite A1, A2, A3, A4, A5, A6, A7, A8, A9, A10, A11, A12. reflexivity.
  - intros H. injection H as A1 A2 A3 A4 A5 A6 A7 A8 A9 A10 A11 A12.
    rewrite A1, A2, A3, A4, A5, A6, A7, A8, A9, A10, A11, A12. tauto.
Qed.

Lemma all_some_length : forall l vs, all_some l = Some vs -> length vs = length l.
Proof.
  induction l as [|[v|] l IH]; intros vs H; cbn in H; [inversion H; reflexivity| |discriminate].
  destruct (all_some l) as [ws|] eqn:E; [|discriminate]. inversion H; subst. cbn. now rewrite (IH ws).
Qed.

Lemma twelve : forall (vs : list pyarg), length vs = 12%nat ->
  exists v1 v2 v3 v4 v5 v6 v7 v8 v9 v10 v11 v12, vs = [v1; v2; v3; v4; v5; v6; v7; v8; v9; v10; v11; v12].
Proof.
  intros vs H.
  do 12 (destruct vs as [|? vs]; [discriminate|]). destruct vs; [|discriminate].
  repeat eexists.
Qed.

Lemma object_iff : forall e pos kw obj, NoDup (map fst kw) ->
  (construct e pos kw = Ok obj <->
   proper_call pos kw /\
   exists fc ut bs dir elev pl sf w h al dp prec,
     call_arguments pos kw fc ut bs dir elev pl sf w h al dp prec /\
     scenario_init e fc ut bs dir elev pl sf dp = Ok (so_scenario (co_scenario obj)) /\
     so_ut (co_scenario obj) = ut /\ so_bs (co_scenario obj) = bs /\
     so_width (co_scenario obj) = w /\ so_height (co_scenario obj) = h /\ so_precision (co_scenario obj) = prec /\
     co_always obj = al /\
     (dir = "uplink" -> co_tx obj = ut /\ co_rx obj = bs) /\
     (dir = "downlink" -> co_tx obj = bs /\ co_rx obj = ut)).
Proof.
  intros e pos kw obj ND. split.
  - intros H.
    assert (P : proper_call pos kw).
    { destruct (Classical_Prop.classic (proper_call pos kw)) as [P|P]; [exact P|exfalso].
      destruct (call_improper _ _ P) as (s & E). unfold construct in H. rewrite E in H. discriminate. }
    split; [exact P|]. rewrite (construct_proper _ _ _ P) in H.
    destruct (all_some _) as [vs|] eqn:A; [|discriminate].
    assert (L : length vs = 12%nat) by (rewrite (all_some_length _ _ A), slots_sl, map_length; reflexivity).
    destruct (twelve vs L) as (v1 & v2 & v3 & v4 & v5 & v6 & v7 & v8 & v9 & v10 & v11 & v12 & ->).
    destruct (build_ok _ _ _ _ _ _ _ _ _ _ _ _ _ _ H) as
      (fc & ut & bs & dir & elev & pl & sf & w & h & al & dp & -> & -> & -> & -> & -> & -> & -> & -> & -> & -> & ->).
    exists fc, ut, bs, dir, elev, pl, sf, w, h, al, dp, v12.
    split; [now apply call_arguments_slots|].
    rewrite build_num in H.
    destruct (scenario_init e fc ut bs dir elev pl sf dp) as [sc|] eqn:E; [|discriminate].
    pose proof (init_dir _ _ _ _ _ _ _ _ _ _ E) as (D & _). cbn -[String.eqb] in H.
    destruct D as [-> | ->]; cbn in H; inversion H; subst obj; cbn; repeat split; discriminate.
  - intros (P & fc & ut & bs & dir & elev & pl & sf & w & h & al & dp & prec & C & E & H1 & H2 & H3 & H4 & H5 & H6 & H7 & H8).
    rewrite (construct_proper _ _ _ P). apply call_arguments_slots in C; [|assumption|assumption]. rewrite C, build_num, E.
    pose proof (init_dir _ _ _ _ _ _ _ _ _ _ E) as (D & _).
    destruct obj as [[sc ut' bs' w' h' prec'] al' tx rx]. cbn in *. subst.
    destruct D as [-> | ->]; [destruct (H7 eq_refl) as [-> ->]|destruct (H8 eq_refl) as [-> ->]]; reflexivity.
Qed.

(* what the caller can read back *)
Lemma construct_fields : forall e pos kw obj fc ut bs dir elev pl sf w h al dp prec, NoDup (map fst kw) ->
  construct e pos kw = Ok obj ->
  call_arguments pos kw fc ut bs dir elev pl sf w h al dp prec ->
  sc_env (so_scenario (co_scenario obj)) = e /\ sc_fc (so_scenario (co_scenario obj)) = fc /\
  sc_dir (so_scenario (co_scenario obj)) = dir /\ sc_elev (so_scenario (co_scenario obj)) = elev /\
  sc_pathloss (so_scenario (co_scenario obj)) = pl /\ sc_shadow (so_scenario (co_scenario obj)) = sf /\
  sc_doppler (so_scenario (co_scenario obj)) = dp /\
  so_ut (co_scenario obj) = ut /\ so_bs (co_scenario obj) = bs /\
  so_width (co_scenario obj) = w /\ so_height (co_scenario obj) = h /\ so_precision (co_scenario obj) = prec /\
  co_always obj = al.
Proof.
  intros e pos kw obj fc ut bs dir elev pl sf w h al dp prec ND H C.
  pose proof H as H0. apply object_iff in H0 as (P & fc' & ut' & bs' & dir' & elev' & pl' & sf' & w' & h' & al' & dp' & prec' & C' & E & R1); [|assumption].
  assert (Q : Some [PNum fc; PArr ut; PArr bs; PStr dir; PNum elev; PBool pl; PBool sf; PNum w; PNum h; PBool al; PBool dp; prec] =
              Some [PNum fc'; PArr ut'; PArr bs'; PStr dir'; PNum elev'; PBool pl'; PBool sf'; PNum w'; PNum h'; PBool al'; PBool dp'; prec']).
  { transitivity (all_some (slots channel_signature pos kw)); [symmetry|]; now apply call_arguments_slots. }
  injection Q as <- <- <- <- <- <- <- <- <- <- <- <-.
  pose proof (init_dir _ _ _ _ _ _ _ _ _ _ E) as (_ & D). tauto.
Qed.

(* two ways of writing the same call *)
Lemma construct_spelling : forall e pos kw pos' kw',
  NoDup (map fst kw) -> NoDup (map fst kw') -> proper_call pos kw -> proper_call pos' kw' ->
  (forall n v, In n documented_parameters -> (supplied pos kw n v <-> supplied pos' kw' n v)) ->
  construct e pos kw = construct e pos' kw'.
Proof.
  intros e pos kw pos' kw' ND ND' P P' S.
  rewrite (construct_proper _ _ _ P), (construct_proper _ _ _ P').
  replace (slots channel_signature pos' kw') with (slots channel_signature pos kw); [reflexivity|].
  rewrite !slots_sl. apply map_ext_in. intros i _. unfold sl.
  destruct (nth_error channel_signature i) as [[n d]|] eqn:E; [|reflexivity].
  assert (I : In n documented_parameters).
  { rewrite <- names_documented. apply nth_error_In in E. now apply (in_map fst) in E. }
  assert (A : forall v, argument pos kw n v <-> argument pos' kw' n v).
  { intros v. unfold argument. rewrite (S n v I).
    assert (X : (forall w, ~ supplied pos kw n w) <-> (forall w, ~ supplied pos' kw' n w)).
    { split; intros H w Q; apply (H w), (S n w I); exact Q. }
    rewrite X. reflexivity. }
  destruct (slot pos kw i (n, d)) as [v|] eqn:L.
  - apply (argument_slot _ _ _ _ _ _ ND P E), A, (argument_slot _ _ _ _ _ _ ND' P' E) in L. now symmetry.
  - destruct (slot pos' kw' i (n, d)) as [v|] eqn:L'; [exfalso|reflexivity].
    apply (argument_slot _ _ _ _ _ _ ND' P' E), A, (argument_slot _ _ _ _ _ _ ND P E) in L'. congruence.
Qed.

(* a call Python rejects *)
Lemma all_some_none : forall l, all_some l = None <-> In None l.
Proof.
  induction l as [|[v|] l IH]; cbn; [split; [discriminate|tauto]| |tauto].
  destruct (all_some l) as [ws|].
  - split; [discriminate|]. intros [H|H]; [discriminate|]. apply IH in H. discriminate.
  - split; [|reflexivity]. intros _. right. now apply IH.
Qed.

Lemma construct_rejected : forall e pos kw, NoDup (map fst kw) ->
  ~ (proper_call pos kw /\ required_given pos kw) -> exists s, construct e pos kw = Err (TypeError s).
Proof.
  intros e pos kw ND N.
  destruct (Classical_Prop.classic (proper_call pos kw)) as [P|P].
  2:{ destruct (call_improper _ _ P) as (s & E). exists s. unfold construct. now rewrite E. }
  rewrite (construct_proper _ _ _ P). destruct (all_some _) as [vs|] eqn:A; [exfalso|eexists; reflexivity].
  apply N. split; [exact P|]. intros n I.
  assert (K : exists i, nth_error channel_signature i = Some (n, None)).
  { cbn in I. repeat destruct I as [<-|I]; [exists 0%nat|exists 1%nat|exists 2%nat|exists 3%nat|exists 4%nat|destruct I]; reflexivity. }
  destruct K as (i & K).
  destruct (slot pos kw i (n, None)) as [v|] eqn:L.
  - exists v. pose proof L as L'. apply (argument_slot _ _ _ _ _ _ ND P K) in L. destruct L as [L|[_ D]]; [exact L|].
    apply (default_iff _ _ _ _ K) in D. discriminate.
  - exfalso. assert (X : all_some (slots channel_signature pos kw) = None); [|congruence].
    apply all_some_none. rewrite slots_sl. apply in_map_iff. exists i. split; [unfold sl; now rewrite K|].
    apply in_seq. assert (i < 12)%nat; [|lia]. change 12%nat with (length channel_signature). apply nth_error_Some. congruence.
Qed.

(* no other class of call is rejected with a TypeError: with arguments of the documented kinds the
   outcome is that of the scenario's own checks *)
Lemma construct_outcome : forall e pos kw fc ut bs dir elev pl sf w h al dp prec, NoDup (map fst kw) ->
  proper_call pos kw -> call_arguments pos kw fc ut bs dir elev pl sf w h al dp prec ->
  (forall x, scenario_init e fc ut bs dir elev pl sf dp = Err x -> construct e pos kw = Err x) /\
  (forall sc, scenario_init e fc ut bs dir elev pl sf dp = Ok sc -> exists obj, construct e pos kw = Ok obj).
Proof.
  intros e pos kw fc ut bs dir elev pl sf w h al dp prec ND P C.
  apply call_arguments_slots in C; [|assumption|assumption].
  rewrite (construct_proper _ _ _ P), C, build_num. split; intros x ->; [reflexivity|].
  cbn. destruct (dir =? "uplink"); eexists; reflexivity.
Qed.

(* ---- C81 ---- *)
Lemma get_attr_none : forall (A : Type) (table : list (string * (A -> res lval))) x n,
  ~ In n (map fst table) -> exists m, get_attr table x n = Err (AttributeError m).
Proof.
  intros A table x n N. unfold get_attr. destruct (find _ table) as [[m f]|] eqn:F; [|eexists; reflexivity].
  exfalso. apply find_some in F as [F E]. cbn [fst] in E. apply String.eqb_eq in E. subst m.
  apply N. apply (in_map fst) in F. exact F.
Qed.

Lemma init_place : forall chol a t, tdl_init chol a = Ok t -> td_height t = ta_height a /\ td_elev t = ta_elev a.
Proof.
  intros chol a t I. unfold tdl_init in I. destruct (negb (mem (ta_model a) tdl_models)); [discriminate|].
  destruct (tdl_file (ta_model a) (ta_ds a)) as [[f|] ds];
  destruct (negb (Rleb 160000 (ta_height a))); try discriminate;
  destruct (negb (Rleb 0 (ta_elev a) && Rleb (ta_elev a) 90)); try discriminate.
  destruct (open_link f links_dir) as [o|]; cbn [bind] in I; [|discriminate].
  destruct (tdl_load o) as [p|]; cbn [bind] in I; [|discriminate].
  destruct (match ta_max_speed a with None => Ok (ta_min_speed a) | Some v => _ end) as [v|e]; cbn [bind] in I; [|discriminate].
  destruct (match ta_spatial a with Some m => _ | None => _ end) as [c|e]; cbn [bind] in I; [|discriminate].
  injection I as <-. split; reflexivity.
Qed.

Lemma set_ds_other : forall ws t, let t' := fold_left tdl_set_ds ws t in
  td_los t' = td_los t /\ td_num t' = td_num t /\ td_powers t' = td_powers t /\ td_los_power t' = td_los_power t /\
  td_height t' = td_height t /\ td_elev t' = td_elev t.
Proof.
  induction ws as [|v ws IH]; intros t; [cbn; repeat split|]. cbn [fold_left].
  destruct (IH (tdl_set_ds t v)) as (A & B & C & D & E & F). cbv zeta in *. rewrite A, B, C, D, E, F.
  unfold tdl_set_ds. destruct (td_scale t); repeat split.
Qed.

Lemma fixed_name : forall m p, documented_profile m = Some p -> pf_scalable p = false ->
  snd (tdl_file m 0) = spread_of_name m.
Proof.
  intros m p D F. unfold documented_profile in D.
  repeat match type of D with (if String.eqb ?x ?y then _ else _) = _ =>
    destruct (String.eqb_spec x y) as [->|_]; [inversion D; subst p; cbn in F; first [discriminate | reflexivity]|] end.
  discriminate.
Qed.

Lemma tdl_properties_l : forall chol a t p ws,
  tdl_init chol a = Ok t -> documented_profile (ta_model a) = Some p ->
  let read := get_attr tdl_getters (fold_left tdl_set_ds ws t) in
  let spread := if pf_scalable p then last ws (ta_ds a) else spread_of_name (ta_model a) in
  read "num_clusters" = Ok (LInt (Z.of_nat (length (tap_powers p)))) /\
  read "los" = Ok (LBool (pf_los p)) /\
  read "basestation_height" = Ok (LReal (ta_height a)) /\
  read "elevation_angle" = Ok (LReal (ta_elev a)) /\
  read "delay_spread" = Ok (LReal spread) /\
  read "delays" = Ok (LReals (map (fun d => d * (if pf_scalable p then spread else 1e-9)) (tap_delays p))) /\
  read "mean_powers" = Ok (LReals (map (fun x => x / total_power p) (tap_powers p))) /\
  (pf_los p = true -> exists s d rest, linear_powers p = s :: d :: rest /\
     read "k_factor" = Ok (LReal (s / d)) /\ read "mean_power_los" = Ok (LReal (s / total_power p))) /\
  (pf_los p = false -> exists m1 m2,
     read "k_factor" = Err (AssertionError m1) /\ read "mean_power_los" = Err (AssertionError m2)) /\
  (forall n, ~ In n ["num_clusters"; "los"; "k_factor"; "delays"; "mean_powers"; "mean_power_los"; "basestation_height";
                     "elevation_angle"; "delay_spread"] -> exists m, read n = Err (AttributeError m)).
Proof.
  intros chol a t p ws I D. pose proof (init_shape _ _ _ _ I D) as S.
  destruct (init_place _ _ _ I) as [PH PE].
  destruct (set_ds_run ws t) as (A1 & A2 & A3 & A4). destruct (set_ds_other ws t) as (B1 & B2 & B3 & B4 & B5 & B6).
  destruct (C54_setter_l _ _ _ _ ws I D) as (_ & C2 & _). destruct (C54_ricean_l _ _ _ _ I D) as [R1 R2].
  cbv zeta in *.
  repeat split; try (cbn [get_attr find tdl_getters fst snd String.eqb Ascii.eqb Bool.eqb]).
  - now rewrite B2, (sh_num _ _ _ _ S).
  - now rewrite B1, (sh_los _ _ _ _ S).
  - now rewrite B5, PH.
  - now rewrite B6, PE.
  - rewrite A4, (sh_scale _ _ _ _ S). destruct (pf_scalable p) eqn:F.
    + now rewrite (sh_ds _ _ _ _ S F).
    + now rewrite (sh_ds_fixed _ _ _ _ S F), (fixed_name _ _ D F).
  - rewrite C2. destruct (pf_scalable p); reflexivity.
  - now rewrite A3, (mean_powers_doc _ _ _ _ S).
  - intros L. destruct (R1 L) as (s & d & rest & E & E1 & E2 & _). exists s, d, rest. split; [exact E|].
    cbn [get_attr find tdl_getters fst snd String.eqb Ascii.eqb Bool.eqb].
    unfold tdl_k_factor, tdl_mean_power_los in *. rewrite B1, B3, B4, E1, E2. split; reflexivity.
  - intros L. destruct (R2 L) as (m1 & m2 & E1 & E2). exists m2, m1.
    cbn [get_attr find tdl_getters fst snd String.eqb Ascii.eqb Bool.eqb].
    unfold tdl_k_factor, tdl_mean_power_los in *. rewrite B1, B3, B4, E1, E2. split; reflexivity.
  - intros n N. apply (get_attr_none _ tdl_getters). exact N.
Qed.

Lemma last_cons : forall (ws : list R) v d, last (v :: ws) d = last ws v.
Proof.
  induction ws as [|x ws IH]; intros v d; [reflexivity|].
  transitivity (last ws x); [apply (IH x d)|symmetry; apply (IH x v)].
Qed.

Lemma cdl_set_run : forall ws c, fold_left cdl_set_ds ws c = cdl_set_ds c (last ws (cl_ds c)).
Proof.
  assert (S1 : forall c v w, cdl_set_ds (cdl_set_ds c v) w = cdl_set_ds c w) by (intros [] v w; reflexivity).
  induction ws as [|v ws IH]; intros c; [destruct c; reflexivity|].
  cbn [fold_left]. rewrite IH, S1, last_cons. reflexivity.
Qed.

Lemma cdl_properties_l : forall a c p ws,
  cdl_init a = Ok c -> documented_profile (ca_model a) = Some p ->
  let read := get_attr cdl_getters (fold_left cdl_set_ds ws c) in
  let spread := last ws (ca_ds a) in
  read "num_clusters" = Ok (LInt (Z.of_nat (length (tap_powers p)))) /\
  read "los" = Ok (LBool (pf_los p)) /\
  read "delay_spread" = Ok (LReal spread) /\
  read "delays" = Ok (LReals (map (fun d => d * spread) (tap_delays p))) /\
  read "powers" = Ok (LReals (map (fun x => x / total_power p) (tap_powers p))) /\
  (pf_los p = true -> exists s d rest, linear_powers p = s :: d :: rest /\ read "k_factor" = Ok (LReal (s / d))) /\
  (pf_los p = false -> exists m, read "k_factor" = Err (AssertionError m)) /\
  (forall n, ~ In n ["num_clusters"; "los"; "k_factor"; "delays"; "powers"; "delay_spread"] ->
     exists m, read n = Err (AttributeError m)).
Proof.
  intros a c p ws I D. pose proof (cdl_init_inv _ _ I) as (p' & g & D' & G & Q & V & Ec).
  rewrite D in D'. injection D' as <-.
  destruct (C55_profile_l _ _ _ I D) as (E1 & _ & _ & E4 & E5 & _ & E7 & E8).
  assert (DS : cl_ds c = ca_ds a) by (subst c; unfold cdl_object; cbv zeta; destruct (String.eqb (ca_direction a) "downlink"); reflexivity).
  assert (LO : cl_los c = pf_los p) by (subst c; unfold cdl_object; cbv zeta; destruct (String.eqb (ca_direction a) "downlink"); reflexivity).
  assert (DL : cl_delays c = tap_delays p).
  { subst c; unfold cdl_object; cbv zeta; destruct (String.eqb (ca_direction a) "downlink"); cbn;
    unfold tap_delays, clusters_of; destruct (pf_los p); destruct (map fst (pf_rows p)); reflexivity. }
  cbv zeta. rewrite cdl_set_run, DS.
  repeat split; cbn [get_attr find cdl_getters fst snd String.eqb Ascii.eqb Bool.eqb].
  - change (cl_num (cdl_set_ds c (last ws (ca_ds a)))) with (cl_num c). now rewrite E5, E1, map_length.
  - change (cl_los (cdl_set_ds c (last ws (ca_ds a)))) with (cl_los c). now rewrite LO.
  - unfold cdl_delays. cbn [cl_delays cl_ds cdl_set_ds]. now rewrite DL.
  - change (cdl_powers (cdl_set_ds c (last ws (ca_ds a)))) with (cdl_powers c). now rewrite E1.
  - intros L. destruct (E7 L) as (s & d & rest & H1 & H2). exists s, d, rest. split; [exact H1|].
    change (cdl_k_factor (cdl_set_ds c (last ws (ca_ds a)))) with (cdl_k_factor c). now rewrite H2.
  - intros L. destruct (E8 L) as (m & H). exists m.
    change (cdl_k_factor (cdl_set_ds c (last ws (ca_ds a)))) with (cdl_k_factor c). now rewrite H.
  - intros n N. apply (get_attr_none _ cdl_getters). exact N.
Qed.

(* which calls construct, with the conditions of C01 *)
Lemma object_supported : forall e pos kw, NoDup (map fst kw) ->
  ((exists obj, construct e pos kw = Ok obj) <->
   proper_call pos kw /\
   exists fc ut bs dir elev pl sf w h al dp prec,
     call_arguments pos kw fc ut bs dir elev pl sf w h al dp prec /\ supported_config fc ut bs dir elev).
Proof.
  intros e pos kw ND. split.
  - intros [obj H]. apply object_iff in H as (P & fc & ut & bs & dir & elev & pl & sf & w & h & al & dp & prec & C & E & _); [|assumption].
    split; [exact P|]. exists fc, ut, bs, dir, elev, pl, sf, w, h, al, dp, prec. split; [exact C|].
    apply (proj1 (construct_iff e fc ut bs dir elev pl sf dp)). eexists; exact E.
  - intros (P & fc & ut & bs & dir & elev & pl & sf & w & h & al & dp & prec & C & S).
    apply (construct_iff e fc ut bs dir elev pl sf dp) in S.
    destruct S as [sc E].
    exact (proj2 (construct_outcome _ _ _ _ _ _ _ _ _ _ _ _ _ _ _ ND P C) sc E).
Qed.

Lemma init_rejected_kind : forall e fc ut bs dir elev pl sf dp,
  ~ supported_config fc ut bs dir elev ->
  exists m, scenario_init e fc ut bs dir elev pl sf dp = Err (AssertionError m).
Proof.
  intros e fc ut bs d el pl sf dp N. unfold scenario_init.
  destruct (String.eqb d "uplink" || String.eqb d "downlink") eqn:Hd; [| eexists; reflexivity].
  destruct (in_supported_band fc) eqn:Hb; [| eexists; reflexivity].
  destruct (aa_panel ut) eqn:Hu; [| eexists; reflexivity].
  destruct (aa_panel bs) eqn:Hs; [| eexists; reflexivity].
  destruct (Reqb (aa_lambda ut) (aa_lambda bs) && Reqb (aa_lambda bs) (speed_of_light / fc)) eqn:Hl; [| eexists; reflexivity].
  destruct (Rleb 10 el && Rleb el 90) eqn:He; [| eexists; reflexivity].
  exfalso. apply N.
  apply orb_true_iff in Hd. rewrite !String.eqb_eq in Hd.
  apply in_supported_band_true in Hb.
  apply andb_true_iff in Hl. rewrite !Reqb_true' in Hl. destruct Hl as [Hl1 Hl2].
  apply andb_true_iff in He. rewrite !Rleb_true in He.
  repeat split; try tauto; try congruence; try lra.
Qed.

(* the outcomes of a call with arguments of the documented kinds *)
Lemma object_rejected : forall e pos kw fc ut bs dir elev pl sf w h al dp prec, NoDup (map fst kw) ->
  proper_call pos kw -> call_arguments pos kw fc ut bs dir elev pl sf w h al dp prec ->
  ~ supported_config fc ut bs dir elev -> exists m, construct e pos kw = Err (AssertionError m).
Proof.
  intros e pos kw fc ut bs dir elev pl sf w h al dp prec ND P C N.
  destruct (init_rejected_kind e fc ut bs dir elev pl sf dp N) as [m E]. exists m.
  exact (proj1 (construct_outcome _ _ _ _ _ _ _ _ _ _ _ _ _ _ _ ND P C) _ E).
Qed.

(* the documented defaults of the two sizes are exchanged *)
Lemma size_defaults : forall e pos kw obj, NoDup (map fst kw) -> construct e pos kw = Ok obj ->
  ((forall v, ~ supplied pos kw "average_street_width" v) ->
     so_width (co_scenario obj) = 20 /\ so_width (co_scenario obj) <> documented_street_width) /\
  ((forall v, ~ supplied pos kw "average_building_height" v) ->
     so_height (co_scenario obj) = 5 /\ so_height (co_scenario obj) <> documented_building_height).
Proof.
  intros e pos kw obj ND H.
  apply object_iff in H as (P & fc & ut & bs & dir & elev & pl & sf & w & h & al & dp & prec & C & E & _ & _ & -> & -> & _); [|assumption].
  destruct C as (_ & _ & _ & _ & _ & _ & _ & C1 & C2 & _).
  unfold documented_street_width, documented_building_height.
  split; intros N.
  - destruct C1 as [C1|[_ C1]]; [exfalso; exact (N _ C1)|]. inversion C1. split; [reflexivity|lra].
  - destruct C2 as [C2|[_ C2]]; [exfalso; exact (N _ C2)|]. inversion C2. split; [reflexivity|lra].
Qed.

(* the documented example lacks the elevation angle *)
Lemma example_rejected : forall e fc ut bs, exists s, construct e [] (documented_example fc ut bs) = Err (TypeError s).
Proof. intros. eexists. reflexivity. Qed.

(* ---- ray coupling of the CDL ---- *)
Lemma map_nth_all : forall (l : list R), map (fun i => nth i l 0) (seq 0 (length l)) = l.
Proof.
  induction l as [|x l IH]; [reflexivity|]. cbn [length seq map nth]. f_equal. rewrite <- seq_shift, map_map. exact IH.
Qed.

Lemma shuffle_perm : forall srt dist rn angles, valid_argsort srt -> length rn = length angles ->
  dist = "gaussian" \/ dist = "laplacian" ->
  exists x, cdl_shuffle srt dist rn angles = Ok x /\ Permutation x angles.
Proof.
  intros srt dist rn angles V L D. unfold cdl_shuffle.
  replace (_ || _) with true by (destruct D as [-> | ->]; reflexivity).
  eexists. split; [reflexivity|]. destruct (V rn) as [P _]. rewrite L in P.
  apply Permutation_trans with (map (fun i => nth i angles 0) (seq 0 (length angles))).
  - now apply Permutation_map.
  - rewrite map_nth_all. apply Permutation_refl.
Qed.

Lemma shuffle_all_perm : forall srt dist angles rn, valid_argsort srt ->
  (forall c a, nth_error angles c = Some a -> length (rn c) = length a) ->
  dist = "gaussian" \/ dist = "laplacian" ->
  exists x, cdl_shuffle_all srt dist rn angles = Ok x /\ Forall2 (@Permutation R) x angles.
Proof.
  intros srt dist angles. induction angles as [|a angles IH]; intros rn V L D.
  - exists []. split; [reflexivity|constructor].
  - destruct (shuffle_perm srt dist (rn 0%nat) a V (L 0%nat a eq_refl) D) as (x & E & P).
    destruct (IH (fun c => rn (S c)) V (fun c b H => L (S c) b H) D) as (y & E' & P').
    exists (x :: y). split; [cbn; rewrite E; cbn; rewrite E'; reflexivity|now constructor].
Qed.

(* every coupling keeps the rays of every cluster *)
Lemma cdl_coupling_l : forall srt c r_aoa r_aod r_zoa r_zod, valid_argsort srt ->
  (forall k a, nth_error (cl_aoa c) k = Some a -> length (r_aoa k) = length a) ->
  (forall k a, nth_error (cl_aod c) k = Some a -> length (r_aod k) = length a) ->
  (forall k a, nth_error (cl_zoa c) k = Some a -> length (r_zoa k) = length a) ->
  (forall k a, nth_error (cl_zod c) k = Some a -> length (r_zod k) = length a) ->
  exists aoa aod zoa zod, cdl_coupling srt c r_aoa r_aod r_zoa r_zod = Ok (aoa, aod, zoa, zod) /\
    Forall2 (@Permutation R) aoa (cl_aoa c) /\ Forall2 (@Permutation R) aod (cl_aod c) /\
    Forall2 (@Permutation R) zoa (cl_zoa c) /\ Forall2 (@Permutation R) zod (cl_zod c).
Proof.
  intros srt c r1 r2 r3 r4 V L1 L2 L3 L4.
  destruct (shuffle_all_perm srt "gaussian" _ _ V L1 (or_introl eq_refl)) as (x1 & E1 & P1).
  destruct (shuffle_all_perm srt "gaussian" _ _ V L2 (or_introl eq_refl)) as (x2 & E2 & P2).
  destruct (shuffle_all_perm srt "laplacian" _ _ V L3 (or_intror eq_refl)) as (x3 & E3 & P3).
  destruct (shuffle_all_perm srt "laplacian" _ _ V L4 (or_intror eq_refl)) as (x4 & E4 & P4).
  exists x1, x2, x3, x4. unfold cdl_coupling. rewrite E1. cbn [bind]. rewrite E2. cbn [bind]. rewrite E3. cbn [bind].
  rewrite E4. repeat split; assumption.
Qed.

(* the speed of the moving end is the drawn one, in every direction *)
Lemma cdl_velocity_norm : forall v phi theta, 0 <= v ->
  let '(x, y, z) := cdl_velocity v phi theta in sqrt (x ^ 2 + y ^ 2 + z ^ 2) = v.
Proof.
  intros v phi theta H. cbn -[pow]. pose proof (sin2_cos2 phi) as A. pose proof (sin2_cos2 theta) as B. unfold Rsqr in A, B.
  replace ((v * cos phi * sin theta) ^ 2 + (v * sin phi * sin theta) ^ 2 + (v * cos theta) ^ 2) with (v * v).
  - now apply sqrt_square.
  - transitivity (v * v * (sin theta * sin theta * (sin phi * sin phi + cos phi * cos phi) + cos theta * cos theta)); [|ring].
    rewrite A, Rmult_1_r, B. ring.
Qed.

(* the scenario class called directly *)
Lemma opt_slot : forall (o : option pyarg) d,
  match o with Some v => Some v | None => Some d end = Some (match o with Some v => v | None => d end).
Proof. intros [v|] d; reflexivity. Qed.

Lemma known_keywords : forall kw : frame, ~ In "always_generate_lsp" (map fst kw) ->
  forallb (fun k => mem (fst k) (map fst scenario_signature)) kw = forallb (fun k => mem (fst k) (map fst channel_signature)) kw.
Proof.
  induction kw as [|[k v] kw IH]; intros N; [reflexivity|]. cbn [forallb fst]. cbn in N.
  rewrite IH by tauto. f_equal. apply eq_true_iff_eq. rewrite !mem_In. cbn. intuition congruence.
Qed.

Lemma channel_body_scenario : forall e v1 v2 v3 v4 v5 v6 v7 v8 v9 v11 v12,
  (obj <- build e [v1; v2; v3; v4; v5; v6; v7; v8; v9; PBool false; v11; v12] ;; Ok (co_scenario obj)) =
  scenario_body e (combine (map fst scenario_signature) [v1; v2; v3; v4; v5; v6; v7; v8; v9; v11; v12]).
Proof.
  intros. rewrite build_values.
  transitivity (sc <- typed_init e v1 v2 v3 v4 v5 v6 v7 v11 ;;
         match v2, v3, v8, v9 with
         | PArr ut, PArr bs, PNum w, PNum h =>
             Ok {| so_scenario := sc; so_ut := ut; so_bs := bs; so_width := w; so_height := h; so_precision := v12 |}
         | _, _, _, _ => Err (TypeError "wrong kind of argument")
         end); [|lazy -[scenario_init]; reflexivity].
  destruct (typed_init e v1 v2 v3 v4 v5 v6 v7 v11) as [sc|] eqn:E; [|reflexivity]. cbn [bind].
  unfold typed_init in E. destruct v1; try discriminate. destruct v2; try discriminate. destruct v3; try discriminate.
  destruct v4; try discriminate. destruct v5; try discriminate. destruct v6; try discriminate.
  destruct v7; try discriminate. destruct v11; try discriminate.
  destruct v8; try reflexivity. destruct v9; try reflexivity. cbn [bind].
  pose proof (init_dir _ _ _ _ _ _ _ _ _ _ E) as (D & _ & D' & _). unfold channel_body. cbn [so_scenario]. rewrite D'.
  destruct D as [-> | ->]; reflexivity.
Qed.

Lemma scenario_direct_l : forall e pos kw,
  (length pos <= 9)%nat -> ~ In "always_generate_lsp" (map fst kw) ->
  construct_scenario e pos kw = (obj <- construct e pos kw ;; Ok (co_scenario obj)).
Proof.
  intros e pos kw L N. unfold construct_scenario, construct, call_with.
  replace (Nat.ltb (length scenario_signature) (length pos)) with false
    by (symmetry; apply Nat.ltb_ge; cbn [length scenario_signature]; lia).
  replace (Nat.ltb (length channel_signature) (length pos)) with false
    by (symmetry; apply Nat.ltb_ge; cbn [length channel_signature]; lia).
  rewrite known_keywords by exact N. destruct (forallb _ kw); [|reflexivity]. cbn [negb].
  assert (F : firstn (length pos) (map fst scenario_signature) = firstn (length pos) (map fst channel_signature)).
  { do 10 (destruct pos as [|? pos]; [reflexivity|]). cbn in L. lia. }
  rewrite F. destruct (existsb _ kw); [reflexivity|].
  rewrite !fill_slots.
  assert (A : assoc "always_generate_lsp" kw = None).
  { destruct (assoc "always_generate_lsp" kw) as [v|] eqn:A; [|reflexivity].
    apply assoc_In, (in_map fst) in A. contradiction. }
  assert (S : exists v1 v2 v3 v4 v5 w6 w7 w8 w9 w11 w12,
    slots scenario_signature pos kw = [v1; v2; v3; v4; v5; Some w6; Some w7; Some w8; Some w9; Some w11; Some w12] /\
    slots channel_signature pos kw = [v1; v2; v3; v4; v5; Some w6; Some w7; Some w8; Some w9; Some (PBool false); Some w11; Some w12]).
  { do 10 (destruct pos as [|? pos];
      [unfold slots, slot, scenario_signature, channel_signature; cbn [tl nth_error fst snd]; rewrite A, ?opt_slot;
       do 11 eexists; split; reflexivity|]). cbn in L. lia. }
  destruct S as (v1 & v2 & v3 & v4 & v5 & w6 & w7 & w8 & w9 & w11 & w12 & -> & ->).
  destruct v1 as [v1|]; [|reflexivity]. destruct v2 as [v2|]; [|reflexivity]. destruct v3 as [v3|]; [|reflexivity].
  destruct v4 as [v4|]; [|reflexivity]. destruct v5 as [v5|]; [|reflexivity].
  cbn [all_some]. cbn [bind]. rewrite <- channel_body_scenario. reflexivity.
Qed.
