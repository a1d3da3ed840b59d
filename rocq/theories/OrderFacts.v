(* Lemmas about Tensor.v: the order of the gradients does not matter *)
From Coq Require Import Permutation.
From Verif Require Import Base BaseFacts Labels Array Block Tensor Spec SpecTensor LabelsFacts ArrayFacts BlockFacts TensorFacts.
Local Open Scope string_scope.
Local Open Scope list_scope.
Local Open Scope nat_scope.

(** * Loops over related lists *)

Lemma foldM_Forall2_eq {A B S} (R : A -> B -> Prop) (f : S -> A -> outcome S) (g : S -> B -> outcome S) l l' :
  Forall2 R l l' -> (forall s x y, R x y -> f s x = g s y) -> forall s, foldM f l s = foldM g l' s.
Proof.
  intros H Hf. induction H as [|x y l l' Hxy Hr IH]; intros s; cbn [foldM]; [reflexivity|].
  rewrite (Hf s x y Hxy). destruct (g s y); cbn [bind]; auto.
Qed.

Lemma mapM_Forall2_eq {A B C} (R : A -> B -> Prop) (f : A -> outcome C) (g : B -> outcome C) l l' :
  Forall2 R l l' -> (forall x y, R x y -> f x = g y) -> mapM f l = mapM g l'.
Proof.
  intros H Hf. induction H as [|x y l l' Hxy Hr IH]; cbn [mapM]; [reflexivity|]. rewrite (Hf x y Hxy), IH. reflexivity.
Qed.

Lemma mapM_Forall2 {A B C D} (R : A -> B -> Prop) (Q : C -> D -> Prop) (f : A -> outcome C) (g : B -> outcome D) l l' :
  Forall2 R l l' ->
  (forall x y c, R x y -> f x = Ok c -> exists d, g y = Ok d /\ Q c d) ->
  forall cs, mapM f l = Ok cs -> exists ds, mapM g l' = Ok ds /\ Forall2 Q cs ds.
Proof.
  intros H Hf. induction H as [|x y l l' Hxy Hr IH]; intros cs Hc; cbn [mapM] in *.
  - injection Hc as <-. exists []. split; [reflexivity|constructor].
  - apply bind_ok in Hc as (c & E & Hc). apply bind_ok in Hc as (cs' & E' & Hc). injection Hc as <-.
    destruct (Hf x y c Hxy E) as (d & Ed & Hd). destruct (IH cs' E') as (ds & Eds & Hds).
    exists (d :: ds). rewrite Ed. cbn [bind]. rewrite Eds. split; [reflexivity|]. constructor; assumption.
Qed.

Lemma Forall2_combine {A B C D} (R : A -> B -> Prop) (Q : C -> D -> Prop) l l' : Forall2 R l l' ->
  forall k k', Forall2 Q k k' -> Forall2 (fun x y => R (fst x) (fst y) /\ Q (snd x) (snd y)) (combine l k) (combine l' k').
Proof.
  intros H. induction H as [|x y l l' Hxy Hr IH]; intros k k' Hk; [constructor|].
  destruct Hk as [|z z' k k' Hz Hk]; cbn [combine]; constructor; auto.
Qed.

Lemma Forall2_refl {A} (R : A -> A -> Prop) l : (forall x, R x x) -> Forall2 R l l.
Proof. intros H. induction l; constructor; auto. Qed.

Lemma Forall2_flip {A B} (R : A -> B -> Prop) l l' : Forall2 R l l' -> Forall2 (fun x y => R y x) l' l.
Proof. intros H. induction H; constructor; auto. Qed.

Lemma foldM_ext {A S} (f g : S -> A -> outcome S) l : (forall s x, f s x = g s x) -> forall s, foldM f l s = foldM g l s.
Proof. intros H. induction l as [|x l IH]; intros s; cbn [foldM]; [reflexivity|]. rewrite H. destruct (g s x); cbn [bind]; auto. Qed.

(** * Reordered blocks *)

Lemma reordered_block_refl b : reordered_block b b.
Proof. repeat split; apply Permutation_refl. Qed.

Lemma reordered_block_sym b b' : reordered_block b b' -> reordered_block b' b.
Proof. intros (H1 & H2 & H3). split; [symmetry; exact H1|]. split; apply Permutation_sym; assumption. Qed.

Lemma reordered_block_trans b1 b2 b3 : reordered_block b1 b2 -> reordered_block b2 b3 -> reordered_block b1 b3.
Proof.
  intros (H1 & H2 & H3) (H4 & H5 & H6). split; [congruence|].
  split; eapply Permutation_trans; eassumption.
Qed.

Lemma reordered_sym t t' : reordered t t' -> reordered t' t.
Proof.
  intros [H1 H2]. split; [symmetry; exact H1|]. apply Forall2_flip in H2. revert H2. apply Forall2_impl.
  intros x y H. apply reordered_block_sym. exact H.
Qed.

Lemma hm_get_perm {V} (l l' : list (string * V)) q : NoDup (map fst l) -> Permutation l l' ->
  hm_get String.eqb l q = hm_get String.eqb l' q.
Proof.
  intros Hn Hp. assert (Hn' : NoDup (map fst l')) by (eapply Permutation_NoDup; [apply Permutation_map; exact Hp|exact Hn]).
  destruct (hm_get String.eqb l' q) as [v|] eqn:E.
  - apply (BaseFacts.hm_get_iff _ String.eqb_eq _ _ _ Hn). apply (BaseFacts.hm_get_iff _ String.eqb_eq _ _ _ Hn') in E.
    eapply Permutation_in; [apply Permutation_sym; exact Hp|exact E].
  - destruct (hm_get String.eqb l q) as [v|] eqn:E'; [|reflexivity].
    apply (BaseFacts.hm_get_iff _ String.eqb_eq _ _ _ Hn) in E'.
    apply (Permutation_in _ Hp) in E'. apply (BaseFacts.hm_get_iff _ String.eqb_eq _ _ _ Hn') in E'. congruence.
Qed.

(* blocks to merge *)
Definition reordered_kb (kb kb' : KeyAndBlock) : Prop :=
  fst kb = fst kb' /\ reordered_block (snd kb) (snd kb') /\ NoDup (map fst (tb_gradients (snd kb))).

Lemma reordered_kb_values kb kb' : reordered_kb kb kb' -> tb_values (snd kb) = tb_values (snd kb').
Proof. intros (_ & (H & _) & _). exact H. Qed.

Lemma reordered_kb_gradient kb kb' q : reordered_kb kb kb' ->
  tensor_block_gradient (snd kb) q = tensor_block_gradient (snd kb') q.
Proof. intros (_ & (_ & H & _) & Hn). apply hm_get_perm; assumption. Qed.

Lemma reordered_kb_sym kb kb' : reordered_kb kb kb' -> reordered_kb kb' kb.
Proof.
  intros (H1 & H2 & H3). split; [symmetry; exact H1|]. split; [apply reordered_block_sym; exact H2|].
  destruct H2 as (_ & H2 & _). eapply Permutation_NoDup; [apply Permutation_map; exact H2|exact H3].
Qed.

(** * Adding gradients *)

Lemma add_merged_gradient_ok nb q d s c nb1 :
  add_merged_gradient nb q d s c = Ok nb1 <->
  check_gradient nb q d s c = Ok tt /\ cstring_new q = Some q
  /\ nb1 = mk_block (tb_values nb) (tb_gradients nb ++ [(q, mk_basic d s c (bb_properties (tb_values nb)))])
                    (tb_gradient_parameters nb ++ [q]).
Proof.
  unfold add_merged_gradient, tensor_block_add_gradient, hm_insert_new.
  assert (Hc : forall x, cstring_new q = Some x -> x = q).
  { unfold cstring_new. intros x. destruct (has_nul q); [discriminate|]. intros H. injection H as <-. reflexivity. }
  destruct (check_gradient nb q d s c) as [[]| | |]; cbn [expect bind]; try (split; [discriminate|intros [H _]; discriminate]).
  destruct (cstring_new q) as [q'|] eqn:E; cbn [expect bind].
  - rewrite (Hc q' eq_refl) in *. split.
    + intros H. injection H as <-. auto.
    + intros (_ & _ & ->). reflexivity.
  - split; [discriminate|]. intros (_ & H & _). discriminate.
Qed.

Lemma check_gradient_same nb nb' q d s c : tb_values nb = tb_values nb' ->
  ~ In q (map fst (tb_gradients nb')) -> check_gradient nb q d s c = Ok tt -> check_gradient nb' q d s c = Ok tt.
Proof.
  intros Hv Hq. rewrite <- hm_contains_fst in Hq. apply not_true_iff_false in Hq.
  unfold check_gradient. rewrite Hq, Hv. destruct (hm_contains _ (tb_gradients nb) q); [discriminate|]. auto.
Qed.

Lemma check_gradient_new nb q d s c : check_gradient nb q d s c = Ok tt -> ~ In q (map fst (tb_gradients nb)).
Proof. rewrite <- hm_contains_fst. unfold check_gradient. destruct (hm_contains _ _ q); [discriminate|]. discriminate. Qed.

Section Loop.
  Variable merge : string -> BasicBlock -> outcome (eqs_array * Labels * list Labels).

  Definition merge_step (nb : TensorBlock) (pg : string * BasicBlock) : outcome TensorBlock :=
    let? x := merge (fst pg) (snd pg) in
    add_merged_gradient nb (fst pg) (fst (fst x)) (snd (fst x)) (snd x).

  Lemma merge_step_same nb nb' pg r : reordered_block nb nb' -> merge_step nb pg = Ok r ->
    exists r', merge_step nb' pg = Ok r' /\ reordered_block r r'.
  Proof.
    intros (H1 & H2 & H3) H. unfold merge_step in *. apply bind_ok in H as (x & E & H). rewrite E. cbn [bind].
    apply add_merged_gradient_ok in H as (Hc & Hq & ->).
    eexists. split.
    - apply add_merged_gradient_ok. split; [|split; [exact Hq|reflexivity]].
      eapply check_gradient_same; [exact H1| |exact Hc]. intros Hi. apply (check_gradient_new _ _ _ _ _ Hc).
      eapply Permutation_in; [apply Permutation_map; apply Permutation_sym; exact H2|exact Hi].
    - split; [exact H1|]. rewrite <- H1. cbn [tb_gradients tb_gradient_parameters]. split; apply Permutation_app_tail; assumption.
  Qed.

  Lemma merge_loop_same l : forall nb nb' r, reordered_block nb nb' -> foldM merge_step l nb = Ok r ->
    exists r', foldM merge_step l nb' = Ok r' /\ reordered_block r r'.
  Proof.
    induction l as [|pg l IH]; intros nb nb' r Hr H; cbn [foldM] in *.
    - injection H as <-. eauto.
    - apply bind_ok in H as (nb1 & E & H). destruct (merge_step_same nb nb' pg nb1 Hr E) as (nb1' & E' & Hr').
      rewrite E'. cbn [bind]. exact (IH nb1 nb1' r Hr' H).
  Qed.

  Lemma merge_loop_perm l l' : Permutation l l' -> forall nb r, foldM merge_step l nb = Ok r ->
    exists r', foldM merge_step l' nb = Ok r' /\ reordered_block r r'.
  Proof.
    intros H. induction H as [|x l l' H IH|x y l|l1 l2 l3 H1 IH1 H2 IH2]; intros nb r E.
    - exists r. split; [exact E|apply reordered_block_refl].
    - cbn [foldM] in *. apply bind_ok in E as (nb1 & E1 & E). rewrite E1. cbn [bind]. apply IH. exact E.
    - cbn [foldM] in E. apply bind_ok in E as (nb1 & E1 & E). apply bind_ok in E as (nb2 & E2 & E).
      unfold merge_step in E1, E2. apply bind_ok in E1 as (a & Ea & E1). apply bind_ok in E2 as (b & Eb & E2).
      apply add_merged_gradient_ok in E1 as (C1 & N1 & ->). apply add_merged_gradient_ok in E2 as (C2 & N2 & ->).
      cbn [foldM]. unfold merge_step at 1. rewrite Eb. cbn [bind].
      assert (Hq : fst x <> fst y /\ ~ In (fst x) (map fst (tb_gradients nb))).
      { apply check_gradient_new in C2. cbn [tb_gradients] in C2. rewrite map_app, in_app_iff in C2. cbn in C2.
        split; intros Hx; apply C2; auto. }
      destruct Hq as [Hxy Hx].
      assert (C2' : check_gradient nb (fst x) (fst (fst b)) (snd (fst b)) (snd b) = Ok tt).
      { eapply check_gradient_same; [|exact Hx|exact C2]. reflexivity. }
      rewrite (proj2 (add_merged_gradient_ok nb (fst x) (fst (fst b)) (snd (fst b)) (snd b) _) (conj C2' (conj N2 eq_refl))).
      cbn [bind]. unfold merge_step at 1. rewrite Ea. cbn [bind].
      match goal with |- context [add_merged_gradient ?n (fst y) ?d ?s ?c] =>
        assert (C1' : check_gradient n (fst y) d s c = Ok tt);
        [|pose proof (proj2 (add_merged_gradient_ok n (fst y) d s c _) (conj C1' (conj N1 eq_refl))) as E1]
      end.
      { eapply check_gradient_same; [| |exact C1]; [reflexivity|]. cbn [tb_gradients]. rewrite map_app, in_app_iff.
        intros [Hi|[Hi|[]]]; [exact (check_gradient_new _ _ _ _ _ C1 Hi)|]. apply Hxy. exact Hi. }
      rewrite E1. cbn [bind]. eapply merge_loop_same; [|exact E].
      split; [reflexivity|]. cbn [tb_gradients tb_gradient_parameters tb_values]. split.
      + rewrite <- !app_assoc. apply Permutation_app_head. apply perm_swap.
      + rewrite <- !app_assoc. apply Permutation_app_head. apply perm_swap.
    - destruct (IH1 nb r E) as (r2 & E2 & R2). destruct (IH2 nb r2 E2) as (r3 & E3 & R3).
      exists r3. split; [exact E3|]. eapply reordered_block_trans; eassumption.
  Qed.
End Loop.

(** * Same results *)

(* both succeed with related values, or both fail *)
Definition alike {A} (R : A -> A -> Prop) (o o' : outcome A) : Prop :=
  (exists a a', o = Ok a /\ o' = Ok a' /\ R a a') \/ ((forall a, o <> Ok a) /\ (forall a, o' <> Ok a)).

Lemma alike_bind {A B} (R : B -> B -> Prop) (o : outcome A) f g :
  (forall a, alike R (f a) (g a)) -> alike R (bind o f) (bind o g).
Proof. intros H. destruct o; cbn [bind]; [apply H| | |]; right; split; discriminate. Qed.

Lemma alike_directions {A} (R : A -> A -> Prop) o o' :
  (forall a, o = Ok a -> exists a', o' = Ok a' /\ R a a') -> (forall a', o' = Ok a' -> exists a, o = Ok a) -> alike R o o'.
Proof.
  intros H1 H2. destruct o as [a|e|m|r].
  - destruct (H1 a eq_refl) as (a' & E & HR). left. eauto.
  - right. split; [discriminate|]. intros a E. destruct (H2 a E) as [? H]. discriminate H.
  - right. split; [discriminate|]. intros a E. destruct (H2 a E) as [? H]. discriminate H.
  - right. split; [discriminate|]. intros a E. destruct (H2 a E) as [? H]. discriminate H.
Qed.

Lemma merge_loop_alike merge l l' nb : Permutation l l' ->
  alike reordered_block (foldM (merge_step merge) l nb) (foldM (merge_step merge) l' nb).
Proof.
  intros Hp. apply alike_directions.
  - intros a E. eapply merge_loop_perm; eassumption.
  - intros a E. destruct (merge_loop_perm merge _ _ (Permutation_sym Hp) nb a E) as (r & Er & _). eauto.
Qed.

(** * Merging blocks *)

Lemma merge_samples_same blocks blocks' names sort : Forall2 reordered_kb blocks blocks' ->
  merge_samples blocks names sort = merge_samples blocks' names sort.
Proof.
  intros H. unfold merge_samples. destruct H as [|kb kb' rest rest' Hkb Hr]; [reflexivity|].
  change (index_slice (kb :: rest) 0) with (Ok kb). change (index_slice (kb' :: rest') 0) with (Ok kb'). cbn [bind].
  rewrite (reordered_kb_values _ _ Hkb).
  rewrite (mapM_Forall2_eq reordered_kb _ (extended_samples (labels_size (bb_samples (tb_values (snd kb'))) <? length names))
             (kb :: rest) (kb' :: rest')); [reflexivity|constructor; assumption|].
  intros [k b] [k' b'] Hb. pose proof (reordered_kb_values _ _ Hb) as Hv. destruct Hb as (Hk & _). cbn [fst snd] in *.
  subst k'. unfold extended_samples. rewrite Hv. reflexivity.
Qed.

Lemma check_samples_same first blocks blocks' : Forall2 reordered_kb blocks blocks' ->
  check_same_labels_for_samples first blocks = check_same_labels_for_samples first blocks'.
Proof.
  intros H. induction H as [|[k b] [k' b'] l l' Hkb Hr IH]; [reflexivity|]. cbn [check_same_labels_for_samples].
  pose proof (reordered_kb_values _ _ Hkb) as Hv. cbn [snd] in Hv. rewrite Hv, IH. reflexivity.
Qed.

Lemma check_properties_same first has blocks blocks' : Forall2 reordered_kb blocks blocks' ->
  check_same_labels_for_properties first has blocks = check_same_labels_for_properties first has blocks'.
Proof.
  intros H. induction H as [|[k b] [k' b'] l l' Hkb Hr IH]; [reflexivity|]. cbn [check_same_labels_for_properties].
  pose proof (reordered_kb_values _ _ Hkb) as Hv. cbn [snd] in Hv. rewrite Hv, IH. reflexivity.
Qed.

Lemma merged_properties_same first keys blocks blocks' : Forall2 reordered_kb blocks blocks' ->
  merged_properties first keys blocks = merged_properties first keys blocks'.
Proof.
  intros H. assert (E : blocks_properties blocks = blocks_properties blocks').
  { unfold blocks_properties. eapply mapM_Forall2_eq; [exact H|]. intros x y Hxy. rewrite (reordered_kb_values _ _ Hxy).
    destruct Hxy as (-> & _). reflexivity. }
  unfold merged_properties. rewrite E. reflexivity.
Qed.

Lemma merge_gradient_samples_same p blocks blocks' q mappings : Forall2 reordered_kb blocks blocks' ->
  merge_gradient_samples p blocks q mappings = merge_gradient_samples p blocks' q mappings.
Proof.
  intros H. unfold merge_gradient_samples.
  match goal with |- context [foldM ?f (combine blocks mappings) _] =>
    rewrite (foldM_Forall2_eq (fun x y => reordered_kb (fst x) (fst y) /\ snd x = snd y) f f (combine blocks mappings) (combine blocks' mappings));
      [reflexivity| |] end.
  - apply Forall2_combine; [exact H|]. apply (Forall2_refl eq). reflexivity.
  - intros [names set] [[k b] m] [[k' b'] m'] [Hb Hm]. cbn [fst snd] in *. subst m'.
    pose proof (reordered_kb_gradient _ _ q Hb) as Hg. cbn [snd] in Hg. rewrite Hg. reflexivity.
Qed.

Lemma move_gradient_same p q comps samples kb kb' m start stop new : reordered_kb kb kb' ->
  move_gradient p q comps samples (snd kb) m start stop new = move_gradient p q comps samples (snd kb') m start stop new.
Proof. intros H. unfold move_gradient. rewrite (reordered_kb_gradient _ _ q H). reflexivity. Qed.

Ltac split_steps := repeat (match goal with
  | |- bind ?o _ = bind (bind ?o _) _ => destruct o; cbn [bind]; try reflexivity
  end).

Lemma merge_along_samples_alike p blocks blocks' names sort : Forall2 reordered_kb blocks blocks' ->
  alike reordered_block (merge_blocks_along_samples p blocks names sort) (merge_blocks_along_samples p blocks' names sort).
Proof.
  intros H. pose proof H as H0. unfold merge_blocks_along_samples. destruct H as [|[k b] [k' b'] rest rest' Hkb Hr].
  { right. split; discriminate. }
  match type of H0 with Forall2 _ ?l ?l' => set (blocks := l) in *; set (blocks' := l') in * end. rename H0 into H.
  pose proof (reordered_kb_values _ _ Hkb) as Hv. cbn [snd] in Hv. rewrite <- Hv. cbv zeta.
  rewrite (check_samples_same (tb_values b) _ _ H). apply alike_bind. intros _.
  rewrite (merge_samples_same _ _ _ _ H). apply alike_bind. intros [merged mappings].
  apply alike_bind. intros shape. apply alike_bind. intros n. apply alike_bind. intros new_shape.
  apply alike_bind. intros data. apply alike_bind. intros np.
  assert (Hc : Forall2 (fun x y => reordered_kb (fst x) (fst y) /\ snd x = snd y) (combine blocks mappings) (combine blocks' mappings)).
  { apply Forall2_combine; [exact H|]. apply (Forall2_refl eq). reflexivity. }
  match goal with |- context [foldM ?f (combine blocks mappings) data] => rewrite (foldM_Forall2_eq _ f f _ _ Hc) end.
  2:{ intros s [[k1 b1] m1] [[k2 b2] m2] [Hb Hm]. cbn [fst snd] in *. subst m2. pose proof (reordered_kb_values _ _ Hb) as Hv'.
      cbn [snd] in Hv'. rewrite Hv'. reflexivity. }
  apply alike_bind. intros new_data. apply alike_bind. intros nb.
  set (merge := fun blocks q (g : BasicBlock) =>
    let? new_gradient_samples := merge_gradient_samples p blocks q mappings in
    let? shape := array_shape (bb_data g) in
    let? n_samples := labels_count new_gradient_samples in
    let? new_shape := set_slice shape 0 n_samples in
    let? new_gradient := array_create (bb_data (tb_values b)) new_shape in
    let? new_gradient := foldM (fun new_gradient kbm =>
        let '((_, block), samples_mapping) := kbm in
        move_gradient p q (bb_components g) new_gradient_samples block samples_mapping 0 np new_gradient)
      (combine blocks mappings) new_gradient in
    Ok (new_gradient, new_gradient_samples, bb_components g)).
  rewrite (foldM_ext _ (merge_step (merge blocks)) (tb_gradients b)).
  2:{ intros s [q g]. unfold merge_step, merge. cbn [fst snd]. split_steps. }
  rewrite (foldM_ext _ (merge_step (merge blocks')) (tb_gradients b')).
  2:{ intros s [q g]. unfold merge_step, merge. cbn [fst snd]. split_steps. }
  rewrite (foldM_ext (merge_step (merge blocks)) (merge_step (merge blocks')) (tb_gradients b)).
  2:{ intros s [q g]. unfold merge_step. cbn [fst snd]. replace (merge blocks q g) with (merge blocks' q g); [reflexivity|].
      unfold merge. rewrite (merge_gradient_samples_same p _ _ q mappings H). destruct (merge_gradient_samples p blocks' q mappings); cbn [bind]; try reflexivity.
      destruct (array_shape _); cbn [bind]; try reflexivity. destruct (labels_count _); cbn [bind]; try reflexivity.
      destruct (set_slice _ _ _); cbn [bind]; try reflexivity. destruct (array_create _ _); cbn [bind]; try reflexivity.
      match goal with |- context [foldM ?f (combine blocks mappings) ?s] => rewrite (foldM_Forall2_eq _ f f _ _ Hc); [reflexivity|] end.
      intros s' [[k1 b1] m1] [[k2 b2] m2] [Hb Hm]. cbn [fst snd] in *. subst m2. exact (move_gradient_same _ _ _ _ _ _ _ _ _ _ Hb). }
  apply merge_loop_alike. apply Hkb.
Qed.

Lemma merge_along_properties_alike p blocks blocks' keys names sort : Forall2 reordered_kb blocks blocks' ->
  alike reordered_block (merge_blocks_along_properties p blocks keys names sort) (merge_blocks_along_properties p blocks' keys names sort).
Proof.
  intros H. pose proof H as H0. unfold merge_blocks_along_properties. destruct H as [|[k b] [k' b'] rest rest' Hkb Hr].
  { right. split; discriminate. }
  match type of H0 with Forall2 _ ?l ?l' => set (blocks := l) in *; set (blocks' := l') in * end. rename H0 into H.
  pose proof (reordered_kb_values _ _ Hkb) as Hv. cbn [snd] in Hv. rewrite <- Hv. cbv zeta.
  rewrite (check_properties_same (tb_values b) _ _ _ H). apply alike_bind. intros _.
  rewrite (merge_samples_same _ _ _ _ H). apply alike_bind. intros [merged mappings].
  rewrite (merged_properties_same _ _ _ _ H). apply alike_bind. intros props.
  apply alike_bind. intros new_properties. apply alike_bind. intros np.
  apply alike_bind. intros shape. apply alike_bind. intros n. apply alike_bind. intros new_shape. apply alike_bind. intros new_shape2.
  apply alike_bind. intros data.
  assert (Er : mapM (property_range new_properties) blocks = mapM (property_range new_properties) blocks').
  { eapply mapM_Forall2_eq; [exact H|]. intros [k1 b1] [k2 b2] Hb. pose proof (reordered_kb_values _ _ Hb) as Hv'. cbn [snd] in Hv'.
    unfold property_range. rewrite Hv'. destruct Hb as (Hk & _). cbn [fst] in Hk. rewrite Hk. reflexivity. }
  rewrite Er. apply alike_bind. intros ranges.
  assert (Hc : Forall2 (fun x y => (reordered_kb (fst (fst x)) (fst (fst y)) /\ snd (fst x) = snd (fst y)) /\ snd x = snd y)
    (combine (combine blocks mappings) ranges) (combine (combine blocks' mappings) ranges)).
  { apply (Forall2_combine (fun x y => reordered_kb (fst x) (fst y) /\ snd x = snd y) eq); [|apply Forall2_refl; reflexivity].
    apply Forall2_combine; [exact H|]. apply (Forall2_refl eq). reflexivity. }
  match goal with |- context [foldM ?f (combine (combine blocks mappings) ranges) data] => rewrite (foldM_Forall2_eq _ f f _ _ Hc) end.
  2:{ intros s [[[k1 b1] m1] r1] [[[k2 b2] m2] r2] [[Hb Hm] Hr']. cbn [fst snd] in *. subst m2 r2. pose proof (reordered_kb_values _ _ Hb) as Hv'.
      cbn [snd] in Hv'. rewrite Hv'. reflexivity. }
  apply alike_bind. intros new_data. apply alike_bind. intros nb.
  set (merge := fun blocks q (g : BasicBlock) =>
    let? new_gradient_samples := merge_gradient_samples p blocks q mappings in
    let? shape := array_shape (bb_data g) in
    let? n_samples := labels_count new_gradient_samples in
    let? new_shape := set_slice shape 0 n_samples in
    let? new_shape := set_slice new_shape (length new_shape - 1) np in
    let? new_gradient := array_create (bb_data (tb_values b)) new_shape in
    let? new_gradient := foldM (fun new_gradient kbmr =>
        let '(((_, block), samples_mapping), range) := kbmr in
        match range with
        | Some (start, stop) =>
            move_gradient p q (bb_components g) new_gradient_samples block samples_mapping start stop new_gradient
        | None => Ok new_gradient
        end)
      (combine (combine blocks mappings) ranges) new_gradient in
    Ok (new_gradient, new_gradient_samples, bb_components g)).
  rewrite (foldM_ext _ (merge_step (merge blocks)) (tb_gradients b)).
  2:{ intros s [q g]. unfold merge_step, merge. cbn [fst snd]. split_steps. }
  rewrite (foldM_ext _ (merge_step (merge blocks')) (tb_gradients b')).
  2:{ intros s [q g]. unfold merge_step, merge. cbn [fst snd]. split_steps. }
  rewrite (foldM_ext (merge_step (merge blocks)) (merge_step (merge blocks')) (tb_gradients b)).
  2:{ intros s [q g]. unfold merge_step. cbn [fst snd]. replace (merge blocks q g) with (merge blocks' q g); [reflexivity|].
      unfold merge. rewrite (merge_gradient_samples_same p _ _ q mappings H). destruct (merge_gradient_samples p blocks' q mappings); cbn [bind]; try reflexivity.
      destruct (array_shape _); cbn [bind]; try reflexivity. destruct (labels_count _); cbn [bind]; try reflexivity.
      destruct (set_slice _ _ _); cbn [bind]; try reflexivity. destruct (set_slice _ _ _); cbn [bind]; try reflexivity.
      destruct (array_create _ _); cbn [bind]; try reflexivity.
      match goal with |- context [foldM ?f (combine (combine blocks mappings) ranges) ?s] => rewrite (foldM_Forall2_eq _ f f _ _ Hc); [reflexivity|] end.
      intros s' [[[k1 b1] m1] r1] [[[k2 b2] m2] r2] [[Hb Hm] Hr']. cbn [fst snd] in *. subst m2 r2. destruct r1 as [[start stop]|]; [|reflexivity].
      exact (move_gradient_same _ _ _ _ _ _ _ _ _ _ Hb). }
  apply merge_loop_alike. apply Hkb.
Qed.

(** * Tensor maps *)

Lemma alike_bind_related {A B} (R : A -> A -> Prop) (Q : B -> B -> Prop) (o o' : outcome A) f g :
  alike R o o' -> (forall a a', R a a' -> alike Q (f a) (g a')) -> alike Q (bind o f) (bind o' g).
Proof.
  intros [(a & a' & -> & -> & H)|[H1 H2]] Hf; cbn [bind]; [apply Hf; exact H|]. right.
  split; intros x Hx; apply bind_ok in Hx as (y & Hy & _); [exact (H1 y Hy)|exact (H2 y Hy)].
Qed.

Lemma alike_mapM {A C D} (R : A -> D -> Prop) (Q : C -> C -> Prop) (f : A -> outcome C) (g : D -> outcome C) l l' :
  Forall2 R l l' -> (forall x y, R x y -> alike Q (f x) (g y)) -> alike (Forall2 Q) (mapM f l) (mapM g l').
Proof.
  intros H Hf. induction H as [|x y l l' Hxy Hr IH]; cbn [mapM].
  - left. exists [], []. repeat split. constructor.
  - eapply alike_bind_related; [apply Hf; exact Hxy|]. intros c d Hcd. eapply alike_bind_related; [exact IH|].
    intros cs ds Hcs. left. exists (c :: cs), (d :: ds). repeat split. constructor; assumption.
Qed.

Lemma alike_ok {A} (R : A -> A -> Prop) a a' : R a a' -> alike R (Ok a) (Ok a').
Proof. left. eauto. Qed.

Definition reordered_unique (b b' : TensorBlock) : Prop := reordered_block b b' /\ NoDup (map fst (tb_gradients b)).

Lemma reordered_unique_blocks t t' : wf_tensor t -> reordered t t' -> Forall2 reordered_unique (tm_blocks t) (tm_blocks t').
Proof.
  intros (_ & Hb & _) [_ H]. rewrite Forall_forall in Hb. induction H as [|b b' l l' Hbb Hr IH]; constructor.
  - split; [exact Hbb|]. apply (Hb b). left. reflexivity.
  - apply IH. intros x Hx. apply Hb. right. exact Hx.
Qed.

Lemma all_blocks_alike t t' positions : wf_tensor t -> reordered t t' ->
  alike (Forall2 reordered_kb) (all_blocks_to_merge t positions) (all_blocks_to_merge t' positions).
Proof.
  intros Hw Ht. unfold all_blocks_to_merge. pose proof (reordered_unique_blocks t t' Hw Ht) as Hu. destruct Ht as [Hk _]. rewrite <- Hk.
  apply alike_bind. intros keys.
  apply (alike_mapM (fun x y => fst x = fst y /\ reordered_unique (snd x) (snd y))).
  - apply Forall2_combine; [apply Forall2_refl; reflexivity|exact Hu].
  - intros [k b] [k' b'] [H1 [H2 H3]]. cbn [fst snd] in *. subst k'. apply alike_bind. intros moved. apply alike_ok.
    split; [reflexivity|]. split; assumption.
Qed.

Lemma blocks_matching_same t t' selection : reordered t t' -> blocks_matching t selection = blocks_matching t' selection.
Proof.
  intros [Hk Hb]. apply Forall2_len in Hb. unfold blocks_matching. rewrite Hk, Hb. reflexivity.
Qed.

Lemma some_blocks_alike t t' positions names entry : wf_tensor t -> reordered t t' ->
  alike (Forall2 reordered_kb) (blocks_to_merge_for t positions names entry) (blocks_to_merge_for t' positions names entry).
Proof.
  intros Hw Ht. unfold blocks_to_merge_for. pose proof (reordered_unique_blocks t t' Hw Ht) as Hu.
  apply alike_bind. intros selection. rewrite (blocks_matching_same t t' selection Ht). destruct Ht as [Hk _]. rewrite <- Hk.
  apply alike_bind. intros matching. apply (alike_mapM eq); [apply Forall2_refl; reflexivity|]. intros i j <-.
  apply (alike_bind_related reordered_unique).
  - apply alike_directions; intros b Hb; apply index_slice_ok in Hb.
    + destruct (Forall2_nth_error_l _ _ _ _ _ Hu Hb) as (b' & Hb' & Hr). exists b'. split; [apply index_slice_ok; exact Hb'|exact Hr].
    + destruct (Forall2_nth_error_r _ _ _ _ _ Hu Hb) as (b' & Hb' & Hr). exists b'. apply index_slice_ok. exact Hb'.
  - intros b b' [H2 H3]. apply alike_bind. intros key. apply alike_bind. intros moved. apply alike_ok.
    split; [reflexivity|]. split; assumption.
Qed.

Lemma merged_blocks_alike t t' new_keys positions merge : wf_tensor t -> reordered t t' ->
  (forall l l', Forall2 reordered_kb l l' -> alike reordered_block (merge l) (merge l')) ->
  alike (Forall2 reordered_block) (merged_blocks t new_keys positions merge) (merged_blocks t' new_keys positions merge).
Proof.
  intros Hw Ht Hm. unfold merged_blocks. apply alike_bind. intros n. destruct (n =? 1).
  - eapply alike_bind_related; [apply all_blocks_alike; assumption|]. intros l l' Hl.
    eapply alike_bind_related; [apply Hm; exact Hl|]. intros b b' Hb. apply alike_ok. constructor; [exact Hb|constructor].
  - apply alike_bind. intros entries. apply (alike_mapM eq); [apply Forall2_refl; reflexivity|]. intros e e' <-.
    eapply alike_bind_related; [apply some_blocks_alike; assumption|]. exact Hm.
Qed.

(* C51 *)
Lemma keys_to_samples_order p t t' keys sort : wf_tensor t -> reordered t t' ->
  (exists r r', keys_to_samples p t keys sort = (r, Ok tt) /\ keys_to_samples p t' keys sort = (r', Ok tt) /\ reordered r r')
  \/ (fst (keys_to_samples p t keys sort) = t /\ fst (keys_to_samples p t' keys sort) = t'
      /\ snd (keys_to_samples p t keys sort) <> Ok tt /\ snd (keys_to_samples p t' keys sort) <> Ok tt).
Proof.
  intros Hw Ht.
  assert (H : alike (fun x y => fst x = fst y /\ Forall2 reordered_block (snd x) (snd y))
                    (keys_to_samples_compute p t keys sort) (keys_to_samples_compute p t' keys sort)).
  { unfold keys_to_samples_compute. apply alike_bind. intros count. destruct (0 <? count); [right; split; discriminate|].
    pose proof Ht as [Hk _]. rewrite <- Hk. apply alike_bind. intros [new_keys positions].
    eapply alike_bind_related.
    - apply merged_blocks_alike; [exact Hw|exact Ht|]. intros l l' Hl. apply merge_along_samples_alike. exact Hl.
    - intros bs bs' Hbs. apply alike_ok. split; [reflexivity|exact Hbs]. }
  unfold keys_to_samples. destruct H as [([k bs] & [k' bs'] & -> & -> & H1 & H2)|[H1 H2]].
  - left. eexists. eexists. split; [reflexivity|]. split; [reflexivity|]. split; [exact H1|exact H2].
  - right. destruct (keys_to_samples_compute p t keys sort) as [[? ?]| | |]; [exfalso; exact (H1 _ eq_refl)| | |];
      (destruct (keys_to_samples_compute p t' keys sort) as [[? ?]| | |]; [exfalso; exact (H2 _ eq_refl)| | |]);
      (split; [reflexivity|]; split; [reflexivity|]; split; discriminate).
Qed.

Lemma keys_to_properties_order p t t' keys sort : wf_tensor t -> reordered t t' ->
  (exists r r', keys_to_properties p t keys sort = (r, Ok tt) /\ keys_to_properties p t' keys sort = (r', Ok tt) /\ reordered r r')
  \/ (fst (keys_to_properties p t keys sort) = t /\ fst (keys_to_properties p t' keys sort) = t'
      /\ snd (keys_to_properties p t keys sort) <> Ok tt /\ snd (keys_to_properties p t' keys sort) <> Ok tt).
Proof.
  intros Hw Ht.
  assert (H : alike (fun x y => fst x = fst y /\ Forall2 reordered_block (snd x) (snd y))
                    (keys_to_properties_compute p t keys sort) (keys_to_properties_compute p t' keys sort)).
  { unfold keys_to_properties_compute. cbv zeta. pose proof Ht as [Hk _]. rewrite <- Hk. apply alike_bind. intros [new_keys positions].
    apply alike_bind. intros count.
    eapply alike_bind_related.
    - apply merged_blocks_alike; [exact Hw|exact Ht|]. intros l l' Hl. apply merge_along_properties_alike. exact Hl.
    - intros bs bs' Hbs. apply alike_ok. split; [reflexivity|exact Hbs]. }
  unfold keys_to_properties. destruct H as [([k bs] & [k' bs'] & -> & -> & H1 & H2)|[H1 H2]].
  - left. eexists. eexists. split; [reflexivity|]. split; [reflexivity|]. split; [exact H1|exact H2].
  - right. destruct (keys_to_properties_compute p t keys sort) as [[? ?]| | |]; [exfalso; exact (H1 _ eq_refl)| | |];
      (destruct (keys_to_properties_compute p t' keys sort) as [[? ?]| | |]; [exfalso; exact (H2 _ eq_refl)| | |]);
      (split; [reflexivity|]; split; [reflexivity|]; split; discriminate).
Qed.

(** * components_to_properties *)

(* all the gradients are changed *)
Lemma gradients_components_ok variables l l2 :
  gradients_components_to_properties variables l = (l2, Ok tt) <->
  Forall2 (fun x y => fst x = fst y /\ basic_block_components_to_properties (snd x) variables = (snd y, Ok tt)) l l2.
Proof.
  revert l2. induction l as [|[q g] l IH]; intros l2; cbn [gradients_components_to_properties].
  - split; [intros H; injection H as <-; constructor|]. intros H. inversion H. reflexivity.
  - destruct (basic_block_components_to_properties g variables) as [g' o] eqn:E. destruct o as [[]| | |].
    + destruct (gradients_components_to_properties variables l) as [rest' result] eqn:Er. split.
      * intros H. injection H as <- ->. constructor; [split; [reflexivity|exact E]|]. apply IH. reflexivity.
      * intros H. inversion H as [|? [q2 g2] ? rest2 [H1 H2] H3]; subst. cbn [fst snd] in *.
        assert (Hl : (rest', result) = (rest2, Ok tt)) by (apply IH; exact H3). injection Hl as -> ->.
        rewrite E in H2. injection H2 as ->. subst q2. reflexivity.
    + split; [discriminate|]. intros H. inversion H as [|? [q2 g2] ? rest2 [H1 H2] H3]; subst. cbn [fst snd] in *. congruence.
    + split; [discriminate|]. intros H. inversion H as [|? [q2 g2] ? rest2 [H1 H2] H3]; subst. cbn [fst snd] in *. congruence.
    + split; [discriminate|]. intros H. inversion H as [|? [q2 g2] ? rest2 [H1 H2] H3]; subst. cbn [fst snd] in *. congruence.
Qed.

Lemma block_components_order b b' variables r : reordered_block b b' ->
  tensor_block_components_to_properties b variables = (r, Ok tt) ->
  exists r', tensor_block_components_to_properties b' variables = (r', Ok tt) /\ reordered_block r r'.
Proof.
  intros (H1 & H2 & H3) H. unfold tensor_block_components_to_properties in *. destruct variables as [|v variables].
  { injection H as <-. exists b'. split; [reflexivity|]. split; [exact H1|]. split; assumption. }
  rewrite <- H1. destruct (basic_block_components_to_properties (tb_values b) (v :: variables)) as [values [[]| | |]]; try discriminate H.
  destruct (gradients_components_to_properties (v :: variables) (tb_gradients b)) as [gs o] eqn:E. injection H as <- ->.
  apply gradients_components_ok in E. destruct (Permutation_Forall2 H2 E) as (gs' & Hp & E').
  apply gradients_components_ok in E'. rewrite E'. eexists. split; [reflexivity|]. split; [reflexivity|]. split; assumption.
Qed.

Lemma blocks_components_ok variables l l2 :
  blocks_components_to_properties variables l = (l2, Ok tt) <->
  Forall2 (fun x y => tensor_block_components_to_properties x variables = (y, Ok tt)) l l2.
Proof.
  revert l2. induction l as [|b l IH]; intros l2; cbn [blocks_components_to_properties].
  - split; [intros H; injection H as <-; constructor|]. intros H. inversion H. reflexivity.
  - destruct (tensor_block_components_to_properties b variables) as [b' o] eqn:E. destruct o as [[]| | |].
    + destruct (blocks_components_to_properties variables l) as [rest' result] eqn:Er. split.
      * intros H. injection H as <- ->. constructor; [exact E|]. apply IH. reflexivity.
      * intros H. inversion H as [|? b2 ? rest2 H2 H3]; subst.
        assert (Hl : (rest', result) = (rest2, Ok tt)) by (apply IH; exact H3). injection Hl as -> ->.
        rewrite E in H2. injection H2 as ->. reflexivity.
    + split; [discriminate|]. intros H. inversion H as [|? b2 ? rest2 H2 H3]; subst. congruence.
    + split; [discriminate|]. intros H. inversion H as [|? b2 ? rest2 H2 H3]; subst. congruence.
    + split; [discriminate|]. intros H. inversion H as [|? b2 ? rest2 H2 H3]; subst. congruence.
Qed.

Lemma components_to_properties_order t t' variables r : reordered t t' ->
  components_to_properties t variables = (r, Ok tt) ->
  exists r', components_to_properties t' variables = (r', Ok tt) /\ reordered r r'.
Proof.
  intros [Hk Hb] H. unfold components_to_properties in *. destruct variables as [|v variables].
  { injection H as <-. exists t'. split; [reflexivity|]. split; assumption. }
  destruct (blocks_components_to_properties (v :: variables) (tm_blocks t)) as [bs o] eqn:E. injection H as <- ->.
  apply blocks_components_ok in E.
  assert (H : exists bs', Forall2 (fun x y => tensor_block_components_to_properties x (v :: variables) = (y, Ok tt)) (tm_blocks t') bs'
                          /\ Forall2 reordered_block bs bs').
  { revert bs E. induction Hb as [|b b' l l' Hbb Hr IH]; intros bs E.
    - inversion E. exists []. split; constructor.
    - inversion E as [|? b2 ? bs2 E1 E2]; subst. destruct (block_components_order _ _ _ _ Hbb E1) as (b3 & E3 & R3).
      destruct (IH bs2 E2) as (bs3 & E4 & R4). exists (b3 :: bs3). split; constructor; assumption. }
  destruct H as (bs' & E' & HR). apply blocks_components_ok in E'. rewrite E'. eexists. split; [reflexivity|].
  split; [exact Hk|exact HR].
Qed.
