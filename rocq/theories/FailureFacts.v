(* Lemmas about what is left by calls which fail: add_gradient with a NUL byte in the
   parameter, reshape with another size, components_to_properties *)
From Verif Require Import Base BaseFacts Labels Array Block Tensor Spec SpecTensor LabelsFacts ArrayFacts BlockFacts TensorFacts GroupFacts ComponentsFacts.
Local Open Scope string_scope.
Local Open Scope list_scope.
Local Open Scope nat_scope.

Lemma add_gradient_nul b parameter data samples components b' result :
  has_nul parameter = true ->
  tensor_block_add_gradient b parameter data samples components = (b', result) ->
  result <> Ok tt
  /\ (b' <> b ->
      result = Panic "invalid C string"
      /\ tensor_block_gradient b parameter = None
      /\ tb_values b' = tb_values b
      /\ tensor_block_gradient_parameters b' = tensor_block_gradient_parameters b
      /\ tensor_block_gradient b' parameter = Some (mk_basic data samples components (bb_properties (tb_values b)))
      /\ forall other, other <> parameter -> tensor_block_gradient b' other = tensor_block_gradient b other).
Proof.
  intros Hnul. unfold tensor_block_add_gradient, cstring_new. rewrite Hnul.
  destruct (check_gradient b parameter data samples components) as [[]|e|m|r] eqn:E;
    intros H; injection H as <- <-; (split; [discriminate|]); intros Hb; try contradiction.
  unfold tensor_block_gradient, tensor_block_gradient_parameters, hm_insert_new. cbn [tb_values tb_gradients tb_gradient_parameters].
  assert (Hnew : hm_get String.eqb (tb_gradients b) parameter = None).
  { unfold check_gradient in E. destruct (hm_contains String.eqb (tb_gradients b) parameter) eqn:Eg; [discriminate|].
    unfold hm_contains in Eg. destruct (hm_get _ _ _); [discriminate|reflexivity]. }
  split; [reflexivity|]. split; [exact Hnew|]. split; [reflexivity|]. split; [reflexivity|]. split.
  - rewrite hm_get_app, Hnew. simpl. rewrite String.eqb_refl. reflexivity.
  - intros other Hother. rewrite hm_get_app. destruct (hm_get _ _ other); [reflexivity|].
    simpl. apply String.eqb_neq in Hother. rewrite Hother. reflexivity.
Qed.

Lemma add_gradient_again b parameter data samples components data2 samples2 components2 b' :
  tensor_block_add_gradient b parameter data samples components = (b', Panic "invalid C string") -> b' <> b ->
  exists m, tensor_block_add_gradient b' parameter data2 samples2 components2 = (b', Err (InvalidParameter m)).
Proof.
  intros H Hb. destruct (has_nul parameter) eqn:En.
  - destruct (add_gradient_nul _ _ _ _ _ _ _ En H) as [_ K]. destruct (K Hb) as (_ & _ & _ & _ & Hg & _).
    unfold tensor_block_add_gradient, check_gradient, hm_contains. unfold tensor_block_gradient in Hg. rewrite Hg. eexists. reflexivity.
  - destruct (add_gradient_frame _ _ _ _ _ _ _ En H) as [K _]. contradiction (Hb (K ltac:(discriminate))).
Qed.

Lemma reshape_failed a shape a' e :
  a_kind a = RustNdarray -> array_reshape a shape = (a', Err e) -> shape_of a' = [0] /\ (forall idx v, ~ element a' idx v) /\ wf_array a'.
Proof.
  intros K H. unfold array_reshape in H. rewrite K in H. destruct (nd_to_shape shape (a_nd a)); [discriminate|]. injection H as <- _.
  split; [reflexivity|]. split.
  - intros idx v [_ H]. change (nth_error (@nil Z) (offset [0] idx) = Some v) in H. destruct (offset [0] idx); discriminate.
  - split; intros _; reflexivity.
Qed.

Lemma builder_new_shared n names1 names2 : good_names names1 -> good_names names2 -> In n names1 -> In n names2 ->
  builder_new (names1 ++ names2) = Panic "invalid labels: the same name is used multiple times".
Proof.
  intros [V1 _] [V2 _] H1 H2. unfold builder_new.
  destruct (find (fun name => negb (is_valid_label_name name)) (names1 ++ names2)) as [name|] eqn:Ef.
  - apply find_some in Ef as [Hi Hv]. assert (H : builder_new [name] = builder_new [name]) by reflexivity.
    assert (V : good_names [name]).
    { split; [|constructor; [intros []|constructor]]. constructor; [|constructor]. rewrite Forall_forall in V1, V2. apply in_app_or in Hi as [Hi|Hi]; auto. }
    pose proof (proj2 (builder_new_ok [name] _) (conj V eq_refl)) as K. unfold builder_new in K. cbn [find] in K. rewrite Hv in K. discriminate.
  - destruct (count_distinct String.eqb (names1 ++ names2) =? length (names1 ++ names2)) eqn:Ec; [|reflexivity].
    apply count_distinct_names in Ec. exfalso. induction names1 as [|m names1 IH]; [contradiction|]. inversion Ec as [|? ? Hm Hn]; subst.
    destruct H1 as [->|H1]; [apply Hm, in_or_app; auto|]. inversion V1; subst. apply IH; auto.
    cbn [find app] in Ef. destruct (negb (is_valid_label_name m)); [discriminate|exact Ef].
Qed.

Lemma components_shared t b0 rest variables n :
  wf_tensor t -> tm_blocks t = b0 :: rest ->
  In variables (map labels_names (bb_components (tb_values b0))) -> In n variables -> In n (labels_names (bb_properties (tb_values b0))) ->
  exists before component after,
    bb_components (tb_values b0) = before ++ component :: after /\ labels_names component = variables
    /\ components_to_properties t variables
       = (mk_tensor (tm_keys t)
            (mk_block (mk_basic (bb_data (tb_values b0)) (bb_samples (tb_values b0)) (before ++ after) (bb_properties (tb_values b0)))
               (tb_gradients b0) (tb_gradient_parameters b0) :: rest),
          Panic "invalid labels: the same name is used multiple times").
Proof.
  intros (_ & Hwf & _) Hb Hin Hn Hp. rewrite Hb in Hwf. inversion Hwf as [|? ? [Hwv _] _]; subst.
  apply in_map_iff in Hin as (x & Hx & Hin). apply in_split in Hin as (pre & post & Hc).
  exists pre, x, post. split; [exact Hc|]. split; [exact Hx|].
  destruct (wf_basic_axes _ Hwv) as (_ & Hcs & [Hpl _]).
  assert (Hxl : wf_labels x) by (rewrite Hc in Hcs; apply Forall_app in Hcs as [_ Hcs]; inversion Hcs as [|? ? [K _] _]; exact K).
  unfold components_to_properties. destruct variables as [|v variables]; [contradiction|]. rewrite Hb. cbn [blocks_components_to_properties].
  unfold tensor_block_components_to_properties. rewrite basic_block_components_eq. rewrite Hc, (find_component_found (v :: variables) pre x post Hx).
  2:{ rewrite <- Hc. apply Hwv. }
  rewrite nth_error_middle, remove_nth_middle. cbn zeta. unfold prepared.
  rewrite (builder_new_shared n _ _ (wf_names_good _ Hxl) (wf_names_good _ Hpl)); [reflexivity|rewrite Hx; exact Hn|exact Hp].
Qed.

Lemma blocks_components_failed variables : forall blocks blocks' r,
  blocks_components_to_properties variables blocks = (blocks', r) -> r <> Ok tt ->
  exists before b after before' b', blocks = before ++ b :: after /\ blocks' = before' ++ b' :: after
    /\ Forall2 (fun x x' => tensor_block_components_to_properties x variables = (x', Ok tt)) before before'
    /\ tensor_block_components_to_properties b variables = (b', r).
Proof.
  induction blocks as [|b blocks IH]; cbn [blocks_components_to_properties]; intros blocks' r H Hr; [injection H as <- <-; contradiction|].
  destruct (tensor_block_components_to_properties b variables) as [b' rb] eqn:Eb. destruct rb as [[]|e|m|u].
  - destruct (blocks_components_to_properties variables blocks) as [rest' result] eqn:Er. injection H as <- <-.
    destruct (IH _ _ eq_refl Hr) as (before & x & after & before' & x' & -> & -> & Hf & Hx).
    exists (b :: before), x, after, (b' :: before'), x'. repeat split; auto.
  - injection H as <- <-. exists [], b, blocks, [], b'. repeat split; auto.
  - injection H as <- <-. exists [], b, blocks, [], b'. repeat split; auto.
  - injection H as <- <-. exists [], b, blocks, [], b'. repeat split; auto.
Qed.

Lemma components_failed t variables t' r :
  components_to_properties t variables = (t', r) -> r <> Ok tt ->
  tm_keys t' = tm_keys t
  /\ exists before b after before' b', tm_blocks t = before ++ b :: after /\ tm_blocks t' = before' ++ b' :: after
       /\ Forall2 (fun x x' => tensor_block_components_to_properties x variables = (x', Ok tt)) before before'
       /\ tensor_block_components_to_properties b variables = (b', r).
Proof.
  intros H Hr. unfold components_to_properties in H. destruct variables as [|v variables]; [injection H as <- <-; contradiction|].
  destruct (blocks_components_to_properties (v :: variables) (tm_blocks t)) as [blocks result] eqn:E. injection H as <- <-.
  split; [reflexivity|]. exact (blocks_components_failed _ _ _ _ E Hr).
Qed.
