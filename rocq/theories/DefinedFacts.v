(* Undefined behaviour only comes from arrays of different origins *)
From Coq Require Import Permutation.
From Verif Require Import Base BaseFacts Labels Array Block Tensor Spec SpecTensor LabelsFacts ArrayFacts BlockFacts TensorFacts KeysFacts MergeFacts GroupFacts.
Local Open Scope string_scope.
Local Open Scope list_scope.
Local Open Scope nat_scope.

Definition defined {A} (o : outcome A) : Prop := forall r, o <> Undefined r.

Lemma defined_bind {A B} (o : outcome A) (f : A -> outcome B) :
  defined o -> (forall a, o = Ok a -> defined (f a)) -> defined (bind o f).
Proof. intros Ho Hf. destruct o as [a|e|m|r]; simpl; auto; try (intros r' E; discriminate). exfalso. exact (Ho r eq_refl). Qed.

Lemma defined_mapM {A B} (f : A -> outcome B) l : (forall x, In x l -> defined (f x)) -> defined (mapM f l).
Proof.
  induction l as [|x l IH]; intros H; simpl; [intros r E; discriminate|].
  apply defined_bind; [apply H; left; reflexivity|]. intros y _.
  apply defined_bind; [apply IH; intros; apply H; right; assumption|]. intros ys _ r E. discriminate.
Qed.

Lemma defined_foldM {A S} (P : S -> Prop) (f : S -> A -> outcome S) l : forall s,
  P s -> (forall s x, P s -> In x l -> defined (f s x) /\ forall s', f s x = Ok s' -> P s') -> defined (foldM f l s).
Proof.
  induction l as [|x l IH]; intros s Hs H; simpl; [intros r E; discriminate|].
  destruct (H s x Hs (or_introl eq_refl)) as [H1 H2]. apply defined_bind; [assumption|].
  intros s' E. apply IH; [apply H2; assumption|]. intros. apply H; [assumption|right; assumption].
Qed.

Lemma defined_expect {A} m (o : outcome A) : defined o -> defined (expect m o).
Proof. intros H. destruct o; simpl; try (intros r' E; discriminate). exact H. Qed.

Lemma defined_call {A} a op (o : outcome A) : defined o -> defined (call a op o).
Proof.
  intros H. unfold call, callback_error. destruct (a_kind a); auto. destruct (a_callbacks a op) as [| |st]; auto.
  - intros r E; discriminate.
  - destruct (st =? 0)%Z; [assumption|intros r E; discriminate].
Qed.

Ltac defined_step :=
  match goal with
  | |- defined (Ok _) => intros ? ?; discriminate
  | |- defined (Err _) => intros ? ?; discriminate
  | |- defined (Panic _) => intros ? ?; discriminate
  | |- defined (callback_error _ _) => intros ? ?; discriminate
  | |- defined (bind _ _) => apply defined_bind; [|intros]
  | |- defined (expect _ _) => apply defined_expect
  | |- defined (call _ _ _) => apply defined_call
  | |- defined (mapM _ _) => apply defined_mapM; intros
  | |- defined (expect_some _ ?o) => unfold expect_some
  | |- defined (assert_ _ _) => unfold assert_
  | |- defined (debug_assert ?p _ _) => unfold debug_assert
  | |- defined (index_slice _ _) => unfold index_slice
  | |- defined (set_slice _ _ _) => unfold set_slice
  | |- defined (labels_count _) => unfold labels_count
  | |- defined (labels_iter _) => unfold labels_iter
  | |- defined (labels_position _ _) => unfold labels_position
  | |- defined (labels_index _ _) => unfold labels_index
  | |- defined (array_shape _) => unfold array_shape
  | |- defined (array_origin _) => unfold array_origin
  | |- defined (label_from_usize _) => unfold label_from_usize
  | |- defined (label_usize _ _) => unfold label_usize
  | |- defined (index_slice_Z _ _) => unfold index_slice_Z
  | H : defined ?o |- defined ?o => exact H
  | |- defined (if ?c then _ else _) => destruct c
  | |- defined (match ?c with _ => _ end) => destruct c
  end.
Ltac defined_tac := repeat defined_step.

Lemma defined_labels_build names rs : defined (labels_build names rs).
Proof.
  unfold labels_build. apply defined_bind; [unfold builder_new; defined_tac|]. intros b _.
  apply defined_bind.
  - unfold builder_add_all. apply (defined_foldM (fun _ => True)); [exact I|]. intros s x _ _. split; [|auto].
    unfold builder_add, builder_add_state. destruct (negb _); [defined_tac|]. destruct (hm_get _ _ _); defined_tac.
  - intros b' _. unfold builder_finish. defined_tac.
Qed.

Lemma defined_check_variables vs names : defined (check_variables vs names).
Proof. induction vs; simpl; defined_tac. Qed.

Lemma defined_remove keys vs : defined (remove_variables_from_keys keys vs).
Proof.
  unfold remove_variables_from_keys, labels_single, project. pose proof (defined_check_variables vs (labels_names keys)).
  defined_tac; try apply defined_labels_build.
Qed.

Lemma defined_check_samples first bs : defined (check_same_labels_for_samples first bs).
Proof. induction bs as [|[k b] bs IH]; simpl; defined_tac. Qed.

Lemma defined_check_properties first h bs : defined (check_same_labels_for_properties first h bs).
Proof. induction bs as [|[k b] bs IH]; simpl; defined_tac. Qed.

Lemma defined_samples_mapping merged samples : forall i, defined (samples_mapping_from i merged samples).
Proof. induction samples as [|s samples IH]; intros i; simpl; defined_tac. apply IH. Qed.

Lemma defined_merge_samples bs names sort : defined (merge_samples bs names sort).
Proof.
  unfold merge_samples. defined_step; [defined_tac|]. defined_step.
  - apply defined_mapM. intros [k b] _. unfold extended_samples. defined_tac.
  - defined_step; [apply defined_labels_build|]. defined_step; [|defined_tac].
    apply defined_mapM. intros. apply defined_samples_mapping.
Qed.

Lemma defined_translate p ms row : defined (translate_gradient_sample p ms row).
Proof. unfold translate_gradient_sample. defined_tac. Qed.

Lemma defined_merge_gradient_samples p bs q maps : defined (merge_gradient_samples p bs q maps).
Proof.
  unfold merge_gradient_samples. defined_step.
  - apply (defined_foldM (fun _ => True)); [exact I|]. intros [names set] [[k b] ms] _ _. split; [|auto].
    defined_step; [defined_tac|]. defined_step; [defined_tac|]. defined_step; [|defined_tac].
    apply defined_mapM. intros. apply defined_translate.
  - destruct a as [names set]. defined_step; [defined_tac|]. apply defined_labels_build.
Qed.

Lemma defined_gradient_moves p samples ms rs : forall i, defined (gradient_samples_to_move p i samples ms rs).
Proof.
  induction rs as [|r rs IH]; intros i; simpl; [defined_tac|].
  defined_step; [apply defined_translate|]. defined_step; [defined_tac|]. defined_step; [defined_tac|].
  defined_step; [apply IH|defined_tac].
Qed.

Lemma defined_move output input ms start stop :
  a_kind output = a_kind input ->
  defined (array_move_samples_from output input ms start stop)
  /\ forall o', array_move_samples_from output input ms start stop = Ok o' -> a_kind o' = a_kind output.
Proof.
  intros E. unfold array_move_samples_from. rewrite <- E. destruct (a_kind output) as [| |o] eqn:K.
  - destruct (nd_move_samples _ _ _ _ _); split; try (intros ? ?; discriminate). intros o' H. inversion H. exact K.
  - split; intros ? ?; discriminate.
  - rewrite Nat.eqb_refl. split.
    + apply defined_call. destruct (nd_move_samples _ _ _ _ _); intros ? ?; discriminate.
    + intros o' H. apply call_ok in H as [H _]. destruct (nd_move_samples _ _ _ _ _); [|discriminate]. inversion H. exact K.
Qed.

Lemma defined_create a shape :
  defined (array_create a shape) /\ forall a', array_create a shape = Ok a' -> a_kind a' = a_kind a.
Proof.
  unfold array_create. destruct (a_kind a) as [| |o] eqn:K.
  - split; [defined_tac|]. intros a' H. apply call_ok in H as [H _]. inversion H. exact K.
  - split; [defined_tac|]. intros a' H. inversion H. reflexivity.
  - split; [defined_tac|]. intros a' H. apply call_ok in H as [H _]. inversion H. exact K.
Qed.

Lemma defined_component_shapes c shape cs : forall d, defined (check_component_shapes c shape d cs).
Proof. induction cs as [|x cs IH]; intros d; simpl; defined_tac. apply IH. Qed.

Lemma defined_component_labels cs : forall i, defined (check_component_labels_from i cs).
Proof. induction cs as [|x cs IH]; intros i; simpl; defined_tac. apply IH. Qed.

Lemma defined_gradient_components gs : forall vs i, defined (check_gradient_components i gs vs).
Proof. induction gs as [|x gs IH]; intros [|v vs] i; simpl; defined_tac. apply IH. Qed.

Lemma defined_check_shapes c d s cs p : defined (check_data_and_labels c d s cs p).
Proof. unfold check_data_and_labels. cbv zeta. defined_tac. apply defined_component_shapes. Qed.

Lemma defined_block_new d s cs p : defined (tensor_block_new d s cs p).
Proof.
  unfold tensor_block_new, basic_block_new, check_component_labels. defined_tac.
  - apply defined_check_shapes.
  - apply defined_component_labels.
Qed.

Lemma defined_add_merged b q d s cs : defined (add_merged_gradient b q d s cs).
Proof.
  unfold add_merged_gradient, tensor_block_add_gradient.
  assert (H : defined (check_gradient b q d s cs)).
  { unfold check_gradient, check_component_labels. defined_tac;
      auto using defined_component_labels, defined_gradient_components, defined_check_shapes. }
  destruct (check_gradient b q d s cs).
  - destruct (cstring_new q); defined_tac.
  - defined_tac.
  - defined_tac.
  - exfalso. exact (H _ eq_refl).
Qed.

(* all the arrays of the block have this kind *)
Definition block_kind (k : array_kind) (b : TensorBlock) : Prop :=
  a_kind (bb_data (tb_values b)) = k /\ forall q g, In (q, g) (tb_gradients b) -> a_kind (bb_data g) = k.

Lemma block_kind_gradient k b q g : block_kind k b -> tensor_block_gradient b q = Some g -> a_kind (bb_data g) = k.
Proof. intros [_ H] Hg. apply (H q). apply gradient_In. assumption. Qed.

Lemma defined_move_gradient p q cs ns b ms start stop ng k :
  block_kind k b -> a_kind ng = k ->
  defined (move_gradient p q cs ns b ms start stop ng)
  /\ forall ng', move_gradient p q cs ns b ms start stop ng = Ok ng' -> a_kind ng' = k.
Proof.
  intros Hk Hn. unfold move_gradient. destruct (tensor_block_gradient b q) as [g|] eqn:E.
  - cbn [expect_some bind]. pose proof (block_kind_gradient _ _ _ _ Hk E) as Hg. split.
    + defined_step; [defined_tac|]. defined_step; [defined_tac|]. defined_step; [apply defined_gradient_moves|].
      apply defined_move. congruence.
    + intros ng' H. bind_inv H. bind_inv H. bind_inv H. destruct (defined_move ng (bb_data g) a1 start stop) as [_ Hm]; [congruence|].
      rewrite (Hm _ H). assumption.
  - cbn [expect_some bind]. split; intros ? ?; discriminate.
Qed.

Lemma defined_merge_samples_blocks p bs names sort k :
  Forall (fun kb => block_kind k (snd kb)) bs -> defined (merge_blocks_along_samples p bs names sort).
Proof.
  intros Hbs. destruct bs as [|[k0 b0] others]; [intros ? ?; discriminate|]. cbn [merge_blocks_along_samples]. cbv zeta.
  assert (Hb0 : block_kind k b0) by (inversion Hbs; assumption).
  assert (Hin : forall (maps : list (list sample_mapping)) kb ms, In (kb, ms) (combine ((k0, b0) :: others) maps) -> block_kind k (snd kb)).
  { intros maps kb ms H. apply in_combine_l in H. rewrite Forall_forall in Hbs. apply Hbs. assumption. }
  defined_step; [apply defined_check_samples|]. defined_step; [apply defined_merge_samples|].
  destruct a0 as [merged maps].
  defined_step; [defined_tac|]. defined_step; [defined_tac|]. defined_step; [defined_tac|].
  defined_step; [apply defined_create|]. defined_step; [defined_tac|].
  match goal with H : array_create _ _ = Ok ?x |- _ => rename x into nd; assert (Hnd : a_kind nd = k) by (rewrite (proj2 (defined_create _ _) _ H); apply Hb0) end.
  defined_step.
  { apply (defined_foldM (fun o => a_kind o = k)); [assumption|]. intros s [[key b] ms] Hs Hx.
    apply Hin in Hx. simpl in Hx. destruct Hx as [Hx _].
    destruct (defined_move s (bb_data (tb_values b)) ms 0 a4) as [H1' H2']; [congruence|].
    split; [assumption|]. intros s' E. rewrite (H2' _ E). assumption. }
  defined_step; [apply defined_expect, defined_block_new|].
  apply (defined_foldM (fun _ => True)); [exact I|]. intros s [q g] _ Hq. split; [|auto].
  defined_step; [apply defined_merge_gradient_samples|]. defined_step; [defined_tac|]. defined_step; [defined_tac|].
  defined_step; [defined_tac|]. defined_step; [apply defined_create|].
  match goal with H : array_create _ _ = Ok ?x |- defined (bind (foldM _ _ ?x) _) =>
    rename x into ng; assert (Hng : a_kind ng = k) by (rewrite (proj2 (defined_create _ _) _ H); apply Hb0) end.
  defined_step; [|apply defined_add_merged].
  apply (defined_foldM (fun o => a_kind o = k)); [assumption|]. intros s' [[key b] ms] Hs Hx.
  apply Hin in Hx. simpl in Hx. apply defined_move_gradient; assumption.
Qed.

Lemma defined_blocks_properties bs : defined (blocks_properties bs).
Proof. unfold blocks_properties. defined_tac. Qed.

Lemma defined_merge_properties_blocks p bs keys names sort k :
  Forall (fun kb => block_kind k (snd kb)) bs -> defined (merge_blocks_along_properties p bs keys names sort).
Proof.
  intros Hbs. destruct bs as [|[k0 b0] others]; [intros ? ?; discriminate|]. cbn [merge_blocks_along_properties]. cbv zeta.
  assert (Hb0 : block_kind k b0) by (inversion Hbs; assumption).
  assert (Hin : forall (maps : list (list sample_mapping)) (ranges : list (option (nat * nat))) kb ms r,
     In (kb, ms, r) (combine (combine ((k0, b0) :: others) maps) ranges) -> block_kind k (snd kb)).
  { intros maps ranges kb ms r H. apply in_combine_l, in_combine_l in H. rewrite Forall_forall in Hbs. apply Hbs. assumption. }
  defined_step; [apply defined_check_properties|]. defined_step; [apply defined_merge_samples|].
  destruct a0 as [merged maps].
  defined_step.
  { unfold merged_properties. destruct keys as [keys|].
    - defined_step; [defined_tac|]. defined_step; [apply defined_blocks_properties|]. defined_tac.
    - defined_step; [apply defined_blocks_properties|]. defined_tac. }
  defined_step; [apply defined_labels_build|].
  defined_step; [defined_tac|]. defined_step; [defined_tac|]. defined_step; [defined_tac|].
  defined_step; [defined_tac|]. defined_step; [defined_tac|].
  defined_step; [apply defined_create|].
  match goal with H : array_create _ _ = Ok ?x |- _ => rename x into nd; assert (Hnd : a_kind nd = k) by (rewrite (proj2 (defined_create _ _) _ H); apply Hb0) end.
  defined_step.
  { apply defined_mapM. intros [key b] _. unfold property_range. defined_tac. }
  defined_step.
  { apply (defined_foldM (fun o => a_kind o = k)); [assumption|]. intros s [[[key b] ms] [[start stop]|]] Hs Hx.
    - apply Hin in Hx. simpl in Hx. destruct Hx as [Hx _].
      destruct (defined_move s (bb_data (tb_values b)) ms start stop) as [H1' H2']; [congruence|].
      split; [assumption|]. intros s' E. rewrite (H2' _ E). assumption.
    - split; [defined_tac|]. intros s' E. inversion E as [E']. rewrite <- E'. assumption. }
  defined_step; [apply defined_expect, defined_block_new|].
  apply (defined_foldM (fun _ => True)); [exact I|]. intros s [q g] _ Hq. split; [|auto].
  defined_step; [apply defined_merge_gradient_samples|]. defined_step; [defined_tac|]. defined_step; [defined_tac|].
  defined_step; [defined_tac|]. defined_step; [defined_tac|]. defined_step; [apply defined_create|].
  match goal with H : array_create _ _ = Ok ?x |- defined (bind (foldM _ _ ?x) _) =>
    rename x into ng; assert (Hng : a_kind ng = k) by (rewrite (proj2 (defined_create _ _) _ H); apply Hb0) end.
  defined_step; [|apply defined_add_merged].
  apply (defined_foldM (fun o => a_kind o = k)); [assumption|]. intros s' [[[key b] ms] [[start stop]|]] Hs Hx.
  - apply Hin in Hx. simpl in Hx. apply defined_move_gradient; assumption.
  - split; [defined_tac|]. intros s'' E. inversion E as [E']. rewrite <- E'. assumption.
Qed.

Lemma index_slice_In {A} (l : list A) i x : index_slice l i = Ok x -> In x l.
Proof. unfold index_slice. destruct (nth_error l i) eqn:E; [|discriminate]. intros H; inversion H; subst. eapply nth_error_In; eauto. Qed.

Lemma mapM_Forall {A B} (f : A -> outcome B) (P : B -> Prop) l : forall r,
  (forall x y, In x l -> f x = Ok y -> P y) -> mapM f l = Ok r -> Forall P r.
Proof.
  induction l as [|x l IH]; intros r H E; simpl in E; [inversion E; constructor|].
  bind_inv E. bind_inv E. inversion E; subst. constructor; [eapply H; [left; reflexivity|eassumption]|].
  apply IH; [|assumption]. intros. eapply H; [right; eassumption|eassumption].
Qed.

Lemma defined_key_matches labels vs : forall sel, defined (key_matches labels vs sel).
Proof. induction vs as [|v vs IH]; intros [|x sel]; simpl; defined_tac. apply IH. Qed.

Lemma defined_matching vs sel keys : forall n, defined (matching_blocks n keys vs sel).
Proof. induction keys as [|k keys IH]; intros n; simpl; defined_tac; [apply defined_key_matches|apply IH]. Qed.

Lemma defined_blocks_matching t s : defined (blocks_matching t s).
Proof.
  unfold blocks_matching. defined_tac; [|apply defined_matching].
  generalize (labels_names s). intros l. induction l; simpl; defined_tac.
Qed.

Lemma defined_merged_blocks t new_keys positions merge k :
  Forall (block_kind k) (tm_blocks t) ->
  (forall bs, Forall (fun kb : KeyAndBlock => block_kind k (snd kb)) bs -> defined (merge bs)) ->
  defined (merged_blocks t new_keys positions merge).
Proof.
  intros Hb Hm. rewrite Forall_forall in Hb. unfold merged_blocks. defined_step; [defined_tac|]. destruct (_ =? 1).
  - defined_step.
    + unfold all_blocks_to_merge, project. defined_tac.
    + defined_step; [|defined_tac]. apply Hm.
      match goal with H : all_blocks_to_merge _ _ = _ |- _ => unfold all_blocks_to_merge in H; bind_inv H; revert H; apply mapM_Forall end.
      intros [key b] y Hin E. bind_inv E. inversion E; subst. simpl. apply in_combine_r in Hin. apply Hb. assumption.
  - defined_step; [defined_tac|]. apply defined_mapM. intros entry _. defined_step.
    + unfold blocks_to_merge_for, project. defined_step; [apply defined_labels_build|].
      defined_step; [apply defined_blocks_matching|]. defined_tac.
    + apply Hm. match goal with H : blocks_to_merge_for _ _ _ _ = _ |- _ => unfold blocks_to_merge_for in H; bind_inv H; bind_inv H; revert H; apply mapM_Forall end.
      intros i y _ E. bind_inv E. bind_inv E. bind_inv E. inversion E; subst. simpl. apply Hb. eapply index_slice_In; eauto.
Qed.

Lemma wf_block_kind b : wf_block b -> block_kind (a_kind (bb_data (tb_values b))) b.
Proof. intros H. split; [reflexivity|]. intros q g Hg. apply (wf_block_gradient _ _ _ H Hg). Qed.

Lemma same_origin_kinds t b0 :
  wf_tensor t -> (forall b1 b2, In b1 (tm_blocks t) -> In b2 (tm_blocks t) ->
    a_kind (bb_data (tb_values b1)) = a_kind (bb_data (tb_values b2))) ->
  In b0 (tm_blocks t) -> Forall (block_kind (a_kind (bb_data (tb_values b0)))) (tm_blocks t).
Proof.
  intros (_ & Hb & _) Hs H0. rewrite Forall_forall in *. intros b Hin. rewrite (Hs b0 b H0 Hin). apply wf_block_kind. auto.
Qed.

Lemma keys_to_samples_one_kind p t keys sort t' r k :
  Forall (block_kind k) (tm_blocks t) -> keys_to_samples p t keys sort <> (t', Undefined r).
Proof.
  intros Hk E. unfold keys_to_samples in E.
  assert (H : defined (keys_to_samples_compute p t keys sort)).
  { unfold keys_to_samples_compute. defined_step; [defined_tac|]. destruct (0 <? _); [defined_tac|].
    defined_step; [apply defined_remove|]. destruct a0 as [nk pos]. defined_step; [|defined_tac].
    apply (defined_merged_blocks _ _ _ _ k); [assumption|]. intros bs Hbs. eapply defined_merge_samples_blocks; eauto. }
  destruct (keys_to_samples_compute p t keys sort) as [[nk nb]|e|m|u] eqn:Ec; try discriminate. exact (H _ eq_refl).
Qed.

Lemma keys_to_properties_one_kind p t keys sort t' r k :
  Forall (block_kind k) (tm_blocks t) -> keys_to_properties p t keys sort <> (t', Undefined r).
Proof.
  intros Hk E. unfold keys_to_properties in E.
  assert (H : defined (keys_to_properties_compute p t keys sort)).
  { unfold keys_to_properties_compute. defined_step; [apply defined_remove|]. destruct a as [nk pos].
    defined_step; [defined_tac|]. defined_step; [|defined_tac].
    apply (defined_merged_blocks _ _ _ _ k); [assumption|]. intros bs Hbs. eapply defined_merge_properties_blocks; eauto. }
  destruct (keys_to_properties_compute p t keys sort) as [[nk nb]|e|m|u] eqn:Ec; try discriminate. exact (H _ eq_refl).
Qed.

Lemma same_origin_one_kind t : wf_tensor t ->
  (forall b1 b2, In b1 (tm_blocks t) -> In b2 (tm_blocks t) ->
    a_kind (bb_data (tb_values b1)) = a_kind (bb_data (tb_values b2))) ->
  exists k, Forall (block_kind k) (tm_blocks t).
Proof.
  intros Hwf Hs. destruct (tm_blocks t) as [|b0 bs] eqn:Hbs; [exists RustNdarray; constructor|]. rewrite <- Hbs in *.
  exists (a_kind (bb_data (tb_values b0))). apply same_origin_kinds; auto. rewrite Hbs. left. reflexivity.
Qed.

Lemma keys_to_samples_defined p t keys sort t' r :
  wf_tensor t -> (forall b1 b2, In b1 (tm_blocks t) -> In b2 (tm_blocks t) ->
    a_kind (bb_data (tb_values b1)) = a_kind (bb_data (tb_values b2))) ->
  keys_to_samples p t keys sort <> (t', Undefined r).
Proof. intros Hwf Hs. destruct (same_origin_one_kind t Hwf Hs) as [k Hk]. eapply keys_to_samples_one_kind. exact Hk. Qed.

Lemma keys_to_properties_defined p t keys sort t' r :
  wf_tensor t -> (forall b1 b2, In b1 (tm_blocks t) -> In b2 (tm_blocks t) ->
    a_kind (bb_data (tb_values b1)) = a_kind (bb_data (tb_values b2))) ->
  keys_to_properties p t keys sort <> (t', Undefined r).
Proof. intros Hwf Hs. destruct (same_origin_one_kind t Hwf Hs) as [k Hk]. eapply keys_to_properties_one_kind. exact Hk. Qed.

(** * Reshape *)

Lemma reshape_same_volume a shape :
  a_kind a = RustNdarray -> wf_array a -> volume shape = volume (shape_of a) ->
  exists a', array_reshape a shape = (a', Ok tt) /\ shape_of a' = shape
    /\ forall idx idx' v, in_bounds (shape_of a) idx -> in_bounds shape idx' ->
         offset (shape_of a) idx = offset shape idx' -> (element a idx v <-> element a' idx' v).
Proof.
  intros K Hw Hv. unfold array_reshape, nd_to_shape. rewrite K.
  rewrite prod_volume, Hv, <- (proj1 Hw), Nat.eqb_refl by congruence.
  eexists. split; [reflexivity|]. split; [reflexivity|]. intros idx idx' v Hi Hi' Ho. unfold element, shape_of in *. simpl.
  rewrite Ho. tauto.
Qed.

Lemma reshape_other_volume a shape :
  a_kind a = RustNdarray -> wf_array a -> volume shape <> volume (shape_of a) ->
  exists a' e, array_reshape a shape = (a', Err e).
Proof.
  intros K Hw Hv. unfold array_reshape, nd_to_shape. rewrite K.
  rewrite prod_volume. destruct (Nat.eqb_spec (volume shape) (length (nd_data (a_nd a)))) as [E|E].
  - exfalso. apply Hv. rewrite E. apply Hw. congruence.
  - do 2 eexists. reflexivity.
Qed.

Lemma reshape_failed_unchanged a shape a' r :
  a_kind a <> RustNdarray -> array_reshape a shape = (a', r) -> r <> Ok tt -> a' = a.
Proof.
  intros K H Hr. unfold array_reshape in H. destruct (a_kind a) as [| |o]; [congruence|inversion H; subst; congruence|].
  destruct (call a OpReshape (Ok tt)) as [u|e|m|u]; try (inversion H; reflexivity).
  destruct (nd_to_shape shape (a_nd a)); inversion H; subst; [congruence|reflexivity].
Qed.
