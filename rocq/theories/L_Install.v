(* Lemmas about the installer hook. *)
From Coq Require Import String Ascii List Bool Arith Lia.
From Verif Require Import M_Base M_Install S_Install.
Import ListNotations.
Open Scope list_scope.

Lemma starts_iff s t : starts s t = true <-> exists b, t = s ++ b.
Proof.
  revert t; induction s as [|a s IH]; intros t; cbn.
  - split; [intros _; exists t; reflexivity|reflexivity].
  - destruct t as [|b t]; [split; [discriminate|intros [x H]; discriminate]|].
    rewrite andb_true_iff, Ascii.eqb_eq, IH. split.
    + intros [-> [x ->]]. exists x; reflexivity.
    + intros [x H]. injection H as -> ->. split; [reflexivity|exists x; reflexivity].
Qed.

Lemma isin_iff s t : isin s t = true <-> occurs s t.
Proof.
  unfold occurs. induction t as [|c t IH].
  - cbn. rewrite orb_false_r, starts_iff. split.
    + intros [b H]. exists [], b. exact H.
    + intros (a & b & H). destruct a; [|discriminate]. exists b; exact H.
  - cbn [isin]. rewrite orb_true_iff, starts_iff, IH. split.
    + intros [[b H]|(a & b & ->)]; [exists [], b; exact H|exists (c :: a), b; reflexivity].
    + intros (a & b & H). destruct a as [|x a]; [left; exists b; exact H|right].
      injection H as -> ->. exists a, b; reflexivity.
Qed.

Lemma isin_not s t : isin s t = false <-> ~ occurs s t.
Proof. rewrite <- isin_iff. destruct (isin s t); split; congruence. Qed.

Lemma occurs_app_l s a b : occurs s b -> occurs s (a ++ b).
Proof. intros (x & y & ->). exists (a ++ x), y. now rewrite app_assoc. Qed.
Lemma occurs_app_r s a b : occurs s a -> occurs s (a ++ b).
Proof. intros (x & y & ->). exists x, (y ++ b). now rewrite !app_assoc. Qed.

(* --- readlines computes the lines --- *)
Lemma lines_cons_nl t ls : lines_of t ls -> lines_of (nl :: t) ([nl] :: ls).
Proof.
  assert (F : full_line [nl]) by (exists []; split; [reflexivity|intros []]).
  intros [-> [H|(f & l & -> & H & O)]]; split; try reflexivity.
  - left; constructor; assumption.
  - right; exists ([nl] :: f), l; repeat split; try constructor; try apply O; auto.
Qed.

Lemma readlines_lines t : lines_of t (readlines t).
Proof.
  induction t as [|c t IH].
  - split; [reflexivity|left; constructor].
  - cbn [readlines]. destruct (Ascii.eqb_spec c nl) as [->|N]; [apply lines_cons_nl, IH|].
    destruct IH as [E H].
    destruct (readlines t) as [|l ls].
    + cbn in E; subst t. split; [reflexivity|]. right; exists [], [c].
      repeat split; [constructor|discriminate|]. intros [K|[]]; congruence.
    + split; [cbn in E |- *; congruence|].
      destruct H as [H|(f & z & E2 & H & O)].
      * left. inversion H as [|? ? (b & -> & K) H2]; subst. constructor; [|exact H2].
        exists (c :: b); split; [reflexivity|]. intros [Q|Q]; [congruence|exact (K Q)].
      * destruct f as [|f0 f]; cbn in E2.
        -- injection E2 as -> ->. right; exists [], (c :: z). repeat split; [constructor|discriminate|].
           destruct O as [_ O]. intros [Q|Q]; [congruence|exact (O Q)].
        -- injection E2 as -> ->. right. inversion H as [|? ? (b & -> & K) H2]; subst.
           exists ((c :: b ++ [nl]) :: f), z. repeat split; try apply O.
           constructor; [|exact H2]. exists (c :: b); split; [reflexivity|].
           intros [Q|Q]; [congruence|exact (K Q)].
Qed.

Lemma readlines_open l : open_line l -> readlines l = [l].
Proof.
  intros [N I]. induction l as [|c l IH]; [congruence|].
  cbn. destruct (Ascii.eqb_spec c nl) as [->|_]; [exfalso; apply I; left; reflexivity|].
  destruct l as [|d l]; [reflexivity|].
  rewrite IH; [reflexivity|discriminate|intros Q; apply I; right; exact Q].
Qed.

Lemma readlines_full l r : full_line l -> readlines (l ++ r) = l :: readlines r.
Proof.
  intros (b & -> & I). induction b as [|c b IH].
  - cbn. reflexivity.
  - cbn. destruct (Ascii.eqb_spec c nl) as [->|_]; [exfalso; apply I; left; reflexivity|].
    cbn in IH. rewrite IH; [reflexivity|intros Q; apply I; right; exact Q].
Qed.

Lemma lines_unique t ls : lines_of t ls -> readlines t = ls.
Proof.
  intros [-> H].
  assert (G : forall f r, Forall full_line f -> readlines (concat f ++ r) = f ++ readlines r).
  { induction f as [|l f IH]; intros r F; [reflexivity|]. inversion F; subst.
    cbn. rewrite <- app_assoc, readlines_full by assumption. rewrite IH by assumption. reflexivity. }
  destruct H as [H|(f & l & -> & H & O)].
  - rewrite <- (app_nil_r (concat ls)), G by assumption. cbn. apply app_nil_r.
  - rewrite concat_app. cbn. rewrite app_nil_r, G, readlines_open by assumption. reflexivity.
Qed.

(* --- universal newlines --- *)
Lemma universal_same t : same_text t (universal t).
Proof.
  enough (H : forall n s, length s <= n -> same_text s (universal s)) by (apply (H (length t)); lia).
  intros n; induction n as [|n IH]; intros [|c s] L; cbn in L; try lia; try constructor.
  cbn. destruct (Ascii.eqb_spec c cr) as [->|N].
  - destruct s as [|d s].
    + constructor; [cbn; discriminate|constructor].
    + destruct (Ascii.eqb_spec d nl) as [->|M].
      * constructor. apply IH. cbn in L; lia.
      * constructor; [cbn; congruence|]. apply (IH (d :: s)). cbn in *; lia.
  - constructor; [exact N|]. apply IH; lia.
Qed.

Lemma universal_no_cr t : ~ In cr (universal t).
Proof.
  enough (H : forall n s, length s <= n -> ~ In cr (universal s)) by (apply (H (length t)); lia).
  assert (D : nl <> cr) by discriminate.
  intros n; induction n as [|n IH]; intros [|c s] L; cbn in L; try lia; cbn; try tauto.
  destruct (Ascii.eqb_spec c cr) as [->|N].
  - intros [Q|Q]; [congruence|]. destruct s as [|d s]; [exact Q|].
    destruct (Ascii.eqb d nl).
    + revert Q. apply IH. cbn in L; lia.
    + revert Q. apply (IH (d :: s)). cbn in *; lia.
  - intros [Q|Q]; [congruence|]. revert Q. apply IH; lia.
Qed.

Lemma universal_id t : ~ In cr t -> universal t = t.
Proof.
  induction t as [|c t IH]; intros I; [reflexivity|]. cbn.
  destruct (Ascii.eqb_spec c cr) as [->|N]; [exfalso; apply I; left; reflexivity|].
  rewrite IH; [reflexivity|]. intros Q; apply I; right; exact Q.
Qed.

Lemma same_text_fun t u : same_text t u -> u = universal t.
Proof.
  induction 1 as [|c a b N H IH|a b H IH|a b N H IH]; cbn.
  - reflexivity.
  - destruct (Ascii.eqb_spec c cr); [contradiction|]. congruence.
  - congruence.
  - destruct a as [|d a].
    + inversion H; reflexivity.
    + destruct (Ascii.eqb_spec d nl) as [->|_]; [exfalso; apply N; reflexivity|].
      rewrite IH. reflexivity.
Qed.

(* --- the search --- *)
Lemma existsb_none ls s : existsb (isin s) ls = false <-> Forall (fun l => ~ occurs s l) ls.
Proof.
  induction ls as [|l ls IH]; cbn [find_index existsb]; [split; [constructor|reflexivity]|].
  rewrite orb_false_iff, IH, isin_not. split; [intros [A B]; constructor; assumption|].
  intros H; inversion H; auto.
Qed.

Lemma existsb_some ls s : existsb (isin s) ls = true <-> exists l, In l ls /\ occurs s l.
Proof.
  rewrite existsb_exists. split; intros (l & A & B); exists l; split; trivial; apply isin_iff; exact B.
Qed.

Lemma find_index_none i ls : find_index i ls = None <-> Forall (fun l => ~ occurs preceding_line l) ls.
Proof.
  revert i; induction ls as [|l ls IH]; intros i; cbn [find_index existsb]; [split; [constructor|reflexivity]|].
  destruct (isin preceding_line l) eqn:E.
  - split; [discriminate|]. intros H; inversion H as [|? ? A B]. exfalso; apply A, isin_iff, E.
  - rewrite IH. apply isin_not in E. split; [intros H; constructor; assumption|intros H; inversion H; assumption].
Qed.

Lemma find_index_at i (pre : list text) (a : text) (post : list text) :
  Forall (fun l => ~ occurs preceding_line l) pre -> occurs preceding_line a ->
  find_index i (pre ++ a :: post) = Some (i + S (length pre)).
Proof.
  intros F O; revert i; induction pre as [|l pre IH]; intros i; cbn [find_index app length].
  - apply isin_iff in O. rewrite O. f_equal; lia.
  - inversion F as [|? ? A B]; subst. apply isin_not in A. rewrite A, IH by assumption. f_equal; lia.
Qed.

Lemma find_index_split i ls k : find_index i ls = Some k ->
  exists (pre : list text) (a : text) (post : list text), ls = pre ++ a :: post /\ k = i + S (length pre) /\
    Forall (fun l => ~ occurs preceding_line l) pre /\ occurs preceding_line a.
Proof.
  revert i; induction ls as [|l ls IH]; intros i; cbn [find_index existsb]; [discriminate|].
  destruct (isin preceding_line l) eqn:E.
  - intros H; injection H as <-. exists [], l, ls. repeat split; [cbn [length]; lia|constructor|apply isin_iff, E].
  - intros H; destruct (IH _ H) as (pre & a & post & -> & -> & F & O).
    exists (l :: pre), a, post. repeat split; [cbn [length]; lia| |exact O].
    constructor; [apply isin_not, E|exact F].
Qed.

Lemma insert_split {A} (pre : list A) a post x :
  insert_at (S (length pre)) x (pre ++ a :: post) = pre ++ a :: x :: post.
Proof.
  unfold insert_at. induction pre as [|y pre IH]; cbn; [reflexivity|].
  cbn in IH. f_equal. exact IH.
Qed.

Lemma import_full : full_line (line_to_add ++ [nl]).
Proof. exists line_to_add. split; [reflexivity|]. cbn. intuition discriminate. Qed.

(* the result of a modifying run, whatever the line ends *)
Lemma modify_added t (ls : list text) (pre : list text) (a : text) (post : list text) :
  same_text t (concat ls) -> lines_of (concat ls) ls -> ls = pre ++ a :: post ->
  Forall (fun l => ~ occurs line_to_add l) ls ->
  Forall (fun l => ~ occurs preceding_line l) pre -> occurs preceding_line a ->
  modify (Some t) = (Some (concat (pre ++ a :: (line_to_add ++ [nl]) :: post)), Added).
Proof.
  intros S L -> N P O. apply same_text_fun in S. unfold modify; cbv zeta. rewrite <- S.
  rewrite (lines_unique _ _ L).
  rewrite (proj2 (existsb_none _ _) N), (find_index_at 0 pre a post P O).
  cbn [plus]. rewrite insert_split. reflexivity.
Qed.

Lemma C56_inserts_l : forall t u (pre : list text) (a : text) (post : list text),
  same_text t u -> lines_of u (pre ++ a :: post) ->
  Forall (fun l => ~ occurs line_to_add l) (pre ++ a :: post) ->
  Forall (fun l => ~ occurs preceding_line l) pre -> occurs preceding_line a -> full_line a ->
  exists t', modify (Some t) = (Some t', Added) /\
             lines_of t' (pre ++ a :: (line_to_add ++ [nl]) :: post).
Proof.
  intros t u pre a post S L N P O F.
  pose proof (proj1 L) as E. subst u.
  eexists; split; [eapply modify_added; eauto|].
  split; [reflexivity|].
  destruct L as [_ [H|(f & l & E & H & Q)]].
  - left. apply Forall_app in H as [H1 H2]. inversion H2; subst.
    apply Forall_app; split; [assumption|]. repeat constructor; try assumption. apply import_full.
  - right. destruct post as [|p post] using rev_ind.
    + apply app_inj_tail in E as [-> ->]. exfalso. destruct F as (b & -> & _). apply (proj2 Q).
      apply in_or_app; right; left; reflexivity.
    + clear IHpost. change (pre ++ a :: post ++ [p]) with (pre ++ (a :: post) ++ [p]) in E.
      rewrite app_assoc in E. apply app_inj_tail in E as [<- ->].
      exists (pre ++ a :: (line_to_add ++ [nl]) :: post), l.
      split; [rewrite <- app_assoc; reflexivity|]. split; [|exact Q].
      apply Forall_app in H as [H1 H2]. inversion H2; subst.
      apply Forall_app; split; [assumption|]. repeat constructor; try assumption. apply import_full.
Qed.

Lemma C56_untouched_l : forall t u ls, same_text t u -> lines_of u ls ->
  ((exists l, In l ls /\ occurs line_to_add l) -> modify (Some t) = (Some t, AlreadyThere)) /\
  (Forall (fun l => ~ occurs line_to_add l) ls -> Forall (fun l => ~ occurs preceding_line l) ls ->
     modify (Some t) = (Some t, NoAnchor)) /\
  modify None = (None, Failed).
Proof.
  intros t u ls S L. apply same_text_fun in S. apply lines_unique in L.
  unfold modify; cbv zeta. rewrite <- S, L. repeat split.
  - intros H. apply existsb_some in H. rewrite H. reflexivity.
  - intros H1 H2. apply existsb_none in H1. rewrite H1. apply (find_index_none 0) in H2.
    rewrite H2. reflexivity.
Qed.

(* the modified file is written with line feeds only and contains the import *)
Lemma no_cr_concat ls : ~ In cr (concat ls) <-> Forall (fun l => ~ In cr l) ls.
Proof.
  induction ls as [|l ls IH]; cbn; [split; [constructor|tauto]|].
  rewrite in_app_iff. split.
  - intros H; constructor; [tauto|apply IH; tauto].
  - intros H; inversion H as [|? ? A B]; subst. rewrite <- IH in B. tauto.
Qed.

Lemma modify_cases t :
  (fst (modify (Some t)) = Some t) \/
  (exists (pre : list text) (a : text) (post : list text), lines_of (universal t) (pre ++ a :: post) /\
     Forall (fun l => ~ occurs line_to_add l) (pre ++ a :: post) /\
     Forall (fun l => ~ occurs preceding_line l) pre /\ occurs preceding_line a /\
     fst (modify (Some t)) = Some (concat (pre ++ a :: (line_to_add ++ [nl]) :: post))).
Proof.
  pose proof (readlines_lines (universal t)) as L.
  unfold modify; cbv zeta. destruct (existsb (isin line_to_add) (readlines (universal t))) eqn:E; [left; reflexivity|].
  destruct (find_index 0 (readlines (universal t))) as [k|] eqn:F; [|left; reflexivity].
  right. destruct (find_index_split _ _ _ F) as (pre & a & post & E2 & -> & P & O).
  exists pre, a, post. rewrite <- E2. repeat split; try assumption; try apply L.
  - apply existsb_none, E.
  - cbn [plus fst]. rewrite E2, insert_split. reflexivity.
Qed.

(* the lines of the modified text *)
Lemma modified_lines u (pre : list text) (a : text) (post : list text) : lines_of u (pre ++ a :: post) ->
  lines_of (concat (pre ++ a :: (line_to_add ++ [nl]) :: post)) (pre ++ a :: (line_to_add ++ [nl]) :: post) \/
  (post = [] /\ open_line a /\
   lines_of (concat (pre ++ a :: (line_to_add ++ [nl]) :: post)) (pre ++ [a ++ line_to_add ++ [nl]])).
Proof.
  intros [E [H|(f & l & E2 & H & Q)]].
  - left. split; [reflexivity|left]. apply Forall_app in H as [H1 H2]. inversion H2; subst.
    apply Forall_app; split; [assumption|]. repeat constructor; try assumption. apply import_full.
  - destruct post as [|p post] using rev_ind.
    + apply app_inj_tail in E2 as [-> ->]. right. split; [reflexivity|split; [exact Q|]].
      split; [now rewrite !concat_app; cbn; rewrite !app_nil_r|].
      left. apply Forall_app; split; [assumption|]. repeat constructor.
      exists (l ++ line_to_add). split; [now rewrite <- app_assoc|].
      rewrite in_app_iff. intros [I|I]; [exact (proj2 Q I)|]. revert I. cbn. intuition discriminate.
    + clear IHpost. change (pre ++ a :: post ++ [p]) with (pre ++ (a :: post) ++ [p]) in E2.
      rewrite app_assoc in E2. apply app_inj_tail in E2 as [<- ->].
      left. split; [reflexivity|right].
      exists (pre ++ a :: (line_to_add ++ [nl]) :: post), l.
      split; [rewrite <- app_assoc; reflexivity|]. split; [|exact Q].
      apply Forall_app in H as [H1 H2]. inversion H2; subst.
      apply Forall_app; split; [assumption|]. repeat constructor; try assumption. apply import_full.
Qed.

Lemma modify_once t : fst (modify (fst (modify t))) = fst (modify t).
Proof.
  destruct t as [t|]; [|reflexivity].
  destruct (modify_cases t) as [E|(pre & a & post & L & N & P & O & E)]; rewrite E; [exact E|].
  set (w := concat _).
  assert (C : ~ In cr w).
  { unfold w. pose proof (universal_no_cr t) as U. rewrite (proj1 L) in U.
    apply no_cr_concat in U. apply no_cr_concat.
    apply Forall_app in U as [U1 U2]. inversion U2; subst. apply Forall_app; split; [assumption|].
    repeat constructor; try assumption. cbn. intuition discriminate. }
  assert (S : same_text w w).
  { pose proof (universal_same w) as S. rewrite (universal_id w C) in S. exact S. }
  assert (H : exists ls, lines_of w ls /\ exists l, In l ls /\ occurs line_to_add l).
  { destruct (modified_lines _ _ _ _ L) as [M|(-> & _ & M)]; fold w in M; eexists; (split; [exact M|]).
    - exists (line_to_add ++ [nl]). split; [apply in_or_app; right; right; left; reflexivity|].
      exists [], [nl]; reflexivity.
    - exists (a ++ line_to_add ++ [nl]). split; [apply in_or_app; right; left; reflexivity|].
      exists a, [nl]; reflexivity. }
  destruct H as (ls & M & H). exact (f_equal fst (proj1 (C56_untouched_l _ _ _ S M) H)).
Qed.

Lemma C56_idempotent_l : forall host n, runs (S n) host = fst (modify host).
Proof.
  intros host n. cbn. induction n as [|n IH]; [reflexivity|].
  cbn. rewrite modify_once. exact IH.
Qed.

Lemma nth_in_app {A} (P : A -> Prop) pre x post i y :
  Forall (fun l => ~ P l) pre -> Forall (fun l => ~ P l) post ->
  nth_error (pre ++ x :: post) i = Some y -> P y -> i = length pre.
Proof.
  intros F G E H. destruct (lt_eq_lt_dec i (length pre)) as [[L|E2]|L]; [|exact E2|].
  - rewrite nth_error_app1 in E by exact L. apply nth_error_In in E.
    rewrite Forall_forall in F. exfalso; exact (F _ E H).
  - rewrite nth_error_app2 in E by lia.
    destruct (i - length pre) as [|k] eqn:K; [lia|]. cbn in E. apply nth_error_In in E.
    rewrite Forall_forall in G. exfalso; exact (G _ E H).
Qed.

Lemma C56_at_most_once_l : forall t u ls n t' u' ls' i j li lj,
  same_text t u -> lines_of u ls -> Forall (fun l => ~ occurs line_to_add l) ls ->
  runs n (Some t) = Some t' -> same_text t' u' -> lines_of u' ls' ->
  nth_error ls' i = Some li -> occurs line_to_add li ->
  nth_error ls' j = Some lj -> occurs line_to_add lj -> i = j.
Proof.
  intros t u ls n t' u' ls' i j li lj S L N E S' L' Ei Oi Ej Oj.
  assert (Z : t' = t -> i = j).
  { intros ->. apply same_text_fun in S, S'. rewrite <- S in S'. subst u'.
    apply lines_unique in L, L'. rewrite L in L'. subst ls'.
    apply nth_error_In in Ei. rewrite Forall_forall in N. exfalso; exact (N _ Ei Oi). }
  destruct n as [|n]; [injection E as <-; exact (Z eq_refl)|].
  rewrite C56_idempotent_l in E.
  destruct (modify_cases t) as [E2|(pre & a & post & M & N2 & P & O & E2)]; rewrite E2 in E; injection E as <-;
    [exact (Z eq_refl)|]. clear Z.
  assert (C : universal (concat (pre ++ a :: (line_to_add ++ [nl]) :: post)) =
              concat (pre ++ a :: (line_to_add ++ [nl]) :: post)).
  { apply universal_id. pose proof (universal_no_cr t) as U. rewrite (proj1 M) in U.
    apply no_cr_concat in U. apply no_cr_concat.
    apply Forall_app in U as [U1 U2]. inversion U2; subst. apply Forall_app; split; [assumption|].
    repeat constructor; try assumption. cbn. intuition discriminate. }
  apply same_text_fun in S'. pose proof (eq_trans S' C) as S2. subst u'. apply lines_unique in L'. rewrite S2 in L'.
  apply Forall_app in N2 as [N3 N4]. inversion N4 as [|? ? N5 N6]; subst.
  destruct (modified_lines _ _ _ _ M) as [Q|(-> & _ & Q)]; apply lines_unique in Q; rewrite Q in Ei, Ej.
  - change (pre ++ a :: (line_to_add ++ [nl]) :: post) with (pre ++ [a] ++ (line_to_add ++ [nl]) :: post) in Ei, Ej.
    rewrite app_assoc in Ei, Ej.
    assert (F : Forall (fun l => ~ occurs line_to_add l) (pre ++ [a])).
    { apply Forall_app; split; [assumption|repeat constructor; assumption]. }
    rewrite (nth_in_app _ _ _ _ _ _ F N6 Ei Oi), (nth_in_app _ _ _ _ _ _ F N6 Ej Oj). reflexivity.
  - assert (F : Forall (fun l => ~ occurs line_to_add l) (@nil text)) by constructor.
    rewrite (nth_in_app _ _ _ _ _ _ N3 F Ei Oi), (nth_in_app _ _ _ _ _ _ N3 F Ej Oj). reflexivity.
Qed.

Lemma C56_refuted_l : exists t,
  (* one complete anchor line, but the file does not end with a line feed *)
  lines_of t [preceding_line] /\
  (exists t', fst (modify (Some t)) = Some t' /\
     forall ls, lines_of t' ls -> ~ In preceding_line ls /\ ~ In (preceding_line ++ [nl]) ls /\
                                  ~ In line_to_add ls /\ ~ In (line_to_add ++ [nl]) ls).
Proof.
  exists preceding_line. split.
  - split; [reflexivity|right]. exists [], preceding_line.
    split; [reflexivity|split; [constructor|split; [discriminate|]]]. cbn. intuition discriminate.
  - eexists. split; [reflexivity|]. intros ls H. apply lines_unique in H. subst ls.
    vm_compute. intuition discriminate.
Qed.
