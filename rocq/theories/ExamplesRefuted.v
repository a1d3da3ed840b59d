(* Counter-examples: tensor maps which can not be moved, or are moved wrongly *)
From Coq Require Import Permutation.
From Verif Require Import Base BaseFacts Labels Array Block Tensor Spec SpecTensor LabelsFacts ArrayFacts BlockFacts TensorFacts Examples ExamplesMoved.
Local Open Scope string_scope.
Local Open Scope list_scope.
Local Open Scope nat_scope.

Definition ex_with_gradient (b : TensorBlock) (parameter : string) (data : eqs_array) (samples : Labels)
    (components : list Labels) : TensorBlock :=
  fst (tensor_block_add_gradient b parameter data samples components).

Definition ex_map (keys : Labels) (blocks : list TensorBlock) : TensorMap :=
  match tensor_map_new keys blocks with Ok t => t | _ => ex_tensor end.

Lemma ex_block_reachable data s cs p :
  wf_array data -> wf_labels s -> Forall wf_labels cs -> wf_labels p ->
  tensor_block_new data s cs p = Ok (ex_block data s cs p) -> reachable_block (ex_block data s cs p).
Proof. intros. apply reachable_new with (data := data) (samples := s) (components := cs) (properties := p); assumption. Qed.

Lemma ex_with_gradient_reachable b q data s cs :
  reachable_block b -> wf_array data -> wf_labels s -> Forall wf_labels cs ->
  snd (tensor_block_add_gradient b q data s cs) = Ok tt -> reachable_block (ex_with_gradient b q data s cs).
Proof.
  intros Hb Hd Hs Hc H. unfold ex_with_gradient. destruct (tensor_block_add_gradient b q data s cs) as [b' r] eqn:E.
  eapply reachable_add; eauto. simpl in H. subst r. discriminate.
Qed.

Lemma ex_map_accepted keys blocks :
  wf_labels keys -> Forall reachable_block blocks -> tensor_map_new keys blocks = Ok (ex_map keys blocks) ->
  accepted (ex_map keys blocks).
Proof. intros. exists keys, blocks. auto. Qed.

Ltac ex_reach :=
  repeat match goal with
  | |- Forall _ [] => constructor
  | |- Forall _ (_ :: _) => constructor
  | |- wf_labels _ => apply ex_labels_wf
  | |- wf_array _ => apply ex_array_wf
  | |- reachable_block (ex_with_gradient _ _ _ _ _) => apply ex_with_gradient_reachable
  | |- reachable_block (ex_block _ _ _ _) => apply ex_block_reachable
  | |- snd _ = Ok tt => vm_compute; reflexivity
  | |- tensor_block_new _ _ _ _ = _ => vm_compute; reflexivity
  end.

Definition ex_k2 := ex_labels ["k"] [[0]; [1]]%Z.
Definition ex_move_k := ex_labels ["k"] [].
Definition ex_s1 (v : Z) := ex_labels ["s"] [[v]].
Definition ex_p1 := ex_labels ["p"] [[0]]%Z.

(** * Calls which panic *)

(* the gradient refers to sample 3 of a single sample *)
Definition ex_range_block : TensorBlock :=
  ex_with_gradient (ex_block (ex_array [1; 1] 0) (ex_s1 0) [] ex_p1) "g" (ex_array [1; 1] 5)
    (ex_labels ["sample"] [[3]]%Z) [].
Definition ex_range_map : TensorMap := ex_map (ex_labels ["k"] [[0]]%Z) [ex_range_block].

Lemma ex_range_map_out : ~ Forall gradient_samples_in_range (tm_blocks ex_range_map).
Proof.
  intros H. rewrite Forall_forall in H. specialize (H ex_range_block).
  destruct (H ltac:(vm_compute; left; reflexivity) "g" (mk_basic (ex_array [1; 1] 5) (ex_labels ["sample"] [[3]]%Z) [] ex_p1) [3]%Z)
    as (i & rest & E & Hi); [vm_compute; left; reflexivity|vm_compute; left; reflexivity|].
  injection E as E _. assert (G : length (rows (bb_samples (tb_values ex_range_block))) = 1) by (vm_compute; reflexivity).
  rewrite G in Hi. lia.
Qed.

Lemma ex_range_map_accepted : accepted ex_range_map.
Proof. apply ex_map_accepted; [apply ex_labels_wf|unfold ex_range_block; ex_reach|vm_compute; reflexivity]. Qed.

Lemma ex_range_panics :
  exists p t keys sort t' m,
    accepted t /\ wf_labels keys /\ labels_names keys <> []
    /\ ~ Forall gradient_samples_in_range (tm_blocks t)
    /\ keys_to_samples p t keys sort = (t', Panic m).
Proof.
  exists Release, ex_range_map, ex_move_k, true, ex_range_map, "index out of bounds".
  split; [apply ex_range_map_accepted|].
  split; [apply ex_labels_wf|]. split; [vm_compute; discriminate|].
  split; [apply ex_range_map_out|vm_compute; reflexivity].
Qed.

(* same panic with keys_to_properties *)
Lemma ex_range_panics_properties :
  exists p t keys sort t' m,
    accepted t /\ wf_labels keys /\ labels_names keys <> []
    /\ ~ Forall gradient_samples_in_range (tm_blocks t)
    /\ keys_to_properties p t keys sort = (t', Panic m).
Proof.
  exists Release, ex_range_map, ex_move_k, true, ex_range_map, "index out of bounds".
  split; [apply ex_range_map_accepted|].
  split; [apply ex_labels_wf|]. split; [vm_compute; discriminate|].
  split; [apply ex_range_map_out|vm_compute; reflexivity].
Qed.

(* a block without property *)
Definition ex_no_property_map : TensorMap :=
  ex_map (ex_labels ["k"] [[0]]%Z) [ex_block (ex_array [1; 0] 0) (ex_s1 0) [] (ex_labels ["p"] [])].

Lemma ex_no_property_panics :
  exists p t keys sort t' m b,
    accepted t /\ wf_labels keys /\ labels_names keys <> []
    /\ In b (tm_blocks t) /\ rows (bb_properties (tb_values b)) = []
    /\ keys_to_properties p t keys sort = (t', Panic m).
Proof.
  exists Release, ex_no_property_map, ex_move_k, true, ex_no_property_map, "range end index out of range for slice",
    (ex_block (ex_array [1; 0] 0) (ex_s1 0) [] (ex_labels ["p"] [])).
  split; [apply ex_map_accepted; [apply ex_labels_wf|ex_reach|vm_compute; reflexivity]|].
  split; [apply ex_labels_wf|]. split; [vm_compute; discriminate|].
  split; [vm_compute; left; reflexivity|]. split; vm_compute; reflexivity.
Qed.

(* a moved variable with the name of a sample variable *)
Definition ex_shared_map : TensorMap :=
  ex_map (ex_labels ["s"] [[0]]%Z) [ex_block (ex_array [1; 1] 0) (ex_s1 0) [] ex_p1].

Lemma ex_shared_panics :
  exists p t keys sort t' m b n,
    accepted t /\ wf_labels keys
    /\ In b (tm_blocks t) /\ In n (labels_names keys) /\ In n (labels_names (bb_samples (tb_values b)))
    /\ keys_to_samples p t keys sort = (t', Panic m).
Proof.
  exists Release, ex_shared_map, (ex_labels ["s"] []), true, ex_shared_map,
    "invalid labels: the same name is used multiple times", (ex_block (ex_array [1; 1] 0) (ex_s1 0) [] ex_p1), "s".
  split; [apply ex_map_accepted; [apply ex_labels_wf|ex_reach|vm_compute; reflexivity]|].
  split; [apply ex_labels_wf|]. split; [vm_compute; left; reflexivity|].
  split; [vm_compute; auto|]. split; [vm_compute; auto|]. vm_compute; reflexivity.
Qed.

(* a tensor map without blocks *)
Definition ex_no_block_map : TensorMap := ex_map (ex_labels ["k"] []) [].

Lemma ex_no_block_panics :
  exists p t keys sort t' m,
    accepted t /\ wf_labels keys /\ labels_names keys <> [] /\ tm_blocks t = []
    /\ keys_to_samples p t keys sort = (t', Panic m).
Proof.
  exists Release, ex_no_block_map, ex_move_k, true, ex_no_block_map, "assertion failed: !blocks_to_merge.is_empty()".
  split; [apply ex_map_accepted; [apply ex_labels_wf|ex_reach|vm_compute; reflexivity]|].
  split; [apply ex_labels_wf|]. split; [vm_compute; discriminate|]. split; vm_compute; reflexivity.
Qed.

(* no variable to move *)
Lemma ex_no_variable_panics :
  exists p t keys sort t' m,
    accepted t /\ wf_labels keys /\ labels_names keys = []
    /\ keys_to_samples p t keys sort = (t', Panic m).
Proof.
  exists Release, ex_shared_map, (ex_labels [] []), true, ex_shared_map, "attempt to divide by zero".
  split; [apply ex_map_accepted; [apply ex_labels_wf|ex_reach|vm_compute; reflexivity]|].
  split; [apply ex_labels_wf|]. split; [vm_compute; reflexivity|]. vm_compute; reflexivity.
Qed.

(** * Gradients with different components *)

Definition ex_mixed_block (s : Z) (component : Z) (first : Z) : TensorBlock :=
  ex_with_gradient (ex_block (ex_array [1; 1] 0) (ex_s1 s) [] ex_p1) "g" (ex_array [1; 1; 1] first)
    (ex_labels ["sample"] [[0]]%Z) [ex_labels ["c"] [[component]]].
Definition ex_mixed_map : TensorMap := ex_map ex_k2 [ex_mixed_block 0 5 100; ex_mixed_block 1 6 200].

Lemma ex_mixed_accepted : accepted ex_mixed_map.
Proof.
  apply ex_map_accepted; [apply ex_labels_wf| |vm_compute; reflexivity].
  unfold ex_mixed_block. ex_reach.
Qed.

(* the labels of an entry are labels of the block *)
Lemma located_In axes : forall idx labels, located axes idx labels -> Forall2 (fun l r => In r (rows l)) axes labels.
Proof.
  induction axes as [|l axes IH]; intros [|i idx] [|r labels] H; simpl in H; try contradiction; constructor.
  - eapply nth_error_In. apply H.
  - eapply IH. apply H.
Qed.

Lemma gradient_value_components t key q s rest cs pr v :
  tensor_gradient_value t key q s rest cs pr v ->
  exists b g, In b (tm_blocks t) /\ In (q, g) (tb_gradients b) /\ Forall2 (fun l r => In r (rows l)) (bb_components g) cs.
Proof.
  intros (b & (i & _ & Hb) & j & g & _ & Hg & idx & Hl & _). exists b, g.
  split; [eapply nth_error_In; eauto|]. split; [assumption|].
  apply located_In in Hl. unfold axes in Hl. inversion Hl as [|? ? ? ? _ H]; subst.
  apply Forall2_app_inv_l in H as (l1 & l2 & H1 & H2 & E). inversion H2 as [|? ? ? ? _ H3]; subst. inversion H3; subst.
  apply app_inj_tail in E as [-> _]. assumption.
Qed.

Definition ex_mixed_samples : TensorMap := fst (keys_to_samples Release ex_mixed_map ex_move_k true).
Definition ex_mixed_properties : TensorMap := fst (keys_to_properties Release ex_mixed_map ex_move_k true).

(* all gradient components are labelled 5 *)
Definition only_five (t : TensorMap) : bool :=
  forallb (fun b => forallb (fun qg => list_eqb (list_eqb row_eqb) (map rows (bb_components (snd qg))) [[[5]]]%Z) (tb_gradients b))
          (tm_blocks t).

Lemma only_five_no_six t key q s rest pr v :
  only_five t = true -> ~ tensor_gradient_value t key q s rest [[6]]%Z pr v.
Proof.
  intros H Hv. apply gradient_value_components in Hv as (b & g & Hb & Hg & Hc). unfold only_five in H.
  rewrite forallb_forall in H. specialize (H b Hb). rewrite forallb_forall in H. specialize (H (q, g) Hg). simpl in H.
  inversion Hc as [|c ? ? ? Hin Hrest E1 E2]; subst. rewrite <- E1 in H. inversion Hrest; subst. simpl in H.
  rewrite andb_true_r in H.
  apply (list_eqb_spec row_eqb (fun a b => row_eqb_eq a b)) in H. rewrite H in Hin. destruct Hin as [Hin|[]]. discriminate.
Qed.

Lemma ex_mixed_samples_release :
  exists t keys sort t' key q s rest cs pr v,
    accepted t /\ wf_labels keys
    /\ keys_to_samples Release t keys sort = (t', Ok tt)
    /\ tensor_gradient_value t key q s rest cs pr v
    /\ (forall e s' v', ~ tensor_gradient_value t' e q s' rest cs pr v').
Proof.
  exists ex_mixed_map, ex_move_k, true, ex_mixed_samples, [1]%Z, "g", [1]%Z, [], [[6]]%Z, [0]%Z, 200%Z.
  split; [apply ex_mixed_accepted|]. split; [apply ex_labels_wf|]. split; [vm_compute; reflexivity|].
  split; [apply (show_gradient _ 1 0 0 [0; 0; 0]); vm_compute; auto 20|].
  intros e s' v'. apply only_five_no_six. vm_compute. reflexivity.
Qed.

Lemma ex_mixed_properties_release :
  exists t keys sort t' key q s rest cs pr v,
    accepted t /\ wf_labels keys
    /\ keys_to_properties Release t keys sort = (t', Ok tt)
    /\ tensor_gradient_value t key q s rest cs pr v
    /\ (forall e pr' v', ~ tensor_gradient_value t' e q s rest cs pr' v').
Proof.
  exists ex_mixed_map, ex_move_k, true, ex_mixed_properties, [1]%Z, "g", [1]%Z, [], [[6]]%Z, [0]%Z, 200%Z.
  split; [apply ex_mixed_accepted|]. split; [apply ex_labels_wf|]. split; [vm_compute; reflexivity|].
  split; [apply (show_gradient _ 1 0 0 [0; 0; 0]); vm_compute; auto 20|].
  intros e s' v'. apply only_five_no_six. vm_compute. reflexivity.
Qed.

(* the refusal of debug builds is a panic *)
Lemma ex_mixed_debug : exists m, snd (keys_to_samples Debug ex_mixed_map ex_move_k true) = Panic m.
Proof. exists "assertion failed: *gradient.components == *new_components". vm_compute. reflexivity. Qed.

(** * Arrays from different origins *)

Definition ex_foreign (origin : nat) (shape : list nat) : eqs_array :=
  mk_array (ForeignArray origin) (mk_nd shape (repeat 1%Z (prod shape))) [] (fun _ => Works).

Lemma ex_foreign_wf origin shape : wf_array (ex_foreign origin shape).
Proof. split; [intros _|discriminate]. unfold ex_foreign, shape_of; simpl. rewrite repeat_length, prod_volume. reflexivity. Qed.

Definition ex_origins_map : TensorMap :=
  ex_map ex_k2 [ex_block (ex_array [1; 1] 0) (ex_s1 0) [] ex_p1; ex_block (ex_foreign 3 [1; 1]) (ex_s1 1) [] ex_p1].

Lemma ex_origins_undefined :
  exists p t keys sort t' r b1 b2,
    accepted t /\ wf_labels keys
    /\ In b1 (tm_blocks t) /\ In b2 (tm_blocks t)
    /\ array_origin (bb_data (tb_values b1)) <> array_origin (bb_data (tb_values b2))
    /\ keys_to_samples p t keys sort = (t', Undefined r).
Proof.
  exists Release, ex_origins_map, ex_move_k, true, ex_origins_map, "move_samples_from on arrays from different origins",
    (ex_block (ex_array [1; 1] 0) (ex_s1 0) [] ex_p1), (ex_block (ex_foreign 3 [1; 1]) (ex_s1 1) [] ex_p1).
  split.
  { apply ex_map_accepted; [apply ex_labels_wf| |vm_compute; reflexivity]. ex_reach. apply ex_foreign_wf. }
  split; [apply ex_labels_wf|]. split; [vm_compute; left; reflexivity|]. split; [vm_compute; right; left; reflexivity|].
  split; [vm_compute; discriminate|]. vm_compute; reflexivity.
Qed.

Lemma ex_reshape_loses :
  exists a shape a' e,
    a_kind a = RustNdarray /\ wf_array a /\ array_reshape a shape = (a', Err e)
    /\ (exists idx v, element a idx v) /\ (forall idx v, ~ element a' idx v).
Proof.
  exists (ex_array [2; 3] 10), [4; 2], (rust_ndarray (mk_nd [0] [])), (External 255 "calling eqs_array_t.reshape failed").
  split; [reflexivity|]. split; [apply ex_array_wf|]. split; [vm_compute; reflexivity|].
  split; [exists [1; 1], 14%Z; split; [apply bounded_in_bounds; reflexivity|vm_compute; reflexivity]|].
  intros idx v [_ H]. change (nth_error (@nil Z) (offset [0] idx) = Some v) in H. destruct (offset [0] idx); discriminate H.
Qed.

Lemma ex_same_kind b1 b2 : In b1 (tm_blocks ex_tensor) -> In b2 (tm_blocks ex_tensor) ->
  a_kind (bb_data (tb_values b1)) = a_kind (bb_data (tb_values b2)).
Proof.
  assert (E : Forall (eq RustNdarray) (map (fun b => a_kind (bb_data (tb_values b))) (tm_blocks ex_tensor))).
  { vm_compute. repeat constructor. }
  rewrite Forall_map, Forall_forall in E. intros H1 H2. rewrite <- (E b1 H1), <- (E b2 H2). reflexivity.
Qed.
