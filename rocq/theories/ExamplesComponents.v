(* Concrete tensor maps with moved components, and counter-examples *)
From Coq Require Import Permutation.
From Verif Require Import Base BaseFacts Labels Array Block Tensor Spec SpecTensor LabelsFacts ArrayFacts BlockFacts TensorFacts Examples ExamplesMoved.
Local Open Scope string_scope.
Local Open Scope list_scope.
Local Open Scope nat_scope.

Definition ex_components_moved : TensorMap := fst (components_to_properties ex_tensor ["xyz"]).
Lemma ex_components_moved_ok : components_to_properties ex_tensor ["xyz"] = (ex_components_moved, Ok tt).
Proof. vm_compute. reflexivity. Qed.

Lemma ex_among_last_two b : In b (tm_blocks ex_tensor) -> among_last_two (tb_values b) "xyz".
Proof.
  assert (E : Forall (eq [["xyz"]]) (map (fun b => map labels_names (bb_components (tb_values b))) (tm_blocks ex_tensor))).
  { vm_compute. repeat constructor. }
  intros Hb. rewrite Forall_map, Forall_forall in E. specialize (E b Hb).
  exists 0. unfold component_at. rewrite <- (map_length labels_names (bb_components (tb_values b))), <- E.
  split; [reflexivity|]. apply le_S, le_n.
Qed.

Lemma ex_responsive : Forall responsive_block (tm_blocks ex_tensor).
Proof.
  assert (E : Forall (fun x => fst x = RustNdarray /\ Forall (eq RustNdarray) (snd x))
                (map (fun b => (a_kind (bb_data (tb_values b)), map (fun qg => a_kind (bb_data (snd qg))) (tb_gradients b)))
                     (tm_blocks ex_tensor))).
  { vm_compute. repeat constructor. }
  rewrite Forall_map in E. eapply Forall_impl; [|exact E]. intros b [H1 H2]. cbn [fst snd] in *. split.
  - intros op. apply rust_answers. assumption.
  - intros q g Hg op. apply rust_answers. rewrite Forall_map, Forall_forall in H2. symmetry. apply (H2 (q, g) Hg).
Qed.

(* tensor map with a single block *)
Definition ex_single_keys := ex_labels ["key"] [[0]]%Z.
Definition ex_single (b : TensorBlock) : TensorMap :=
  match tensor_map_new ex_single_keys [b] with Ok t => t | _ => ex_tensor end.

Lemma ex_single_wf b : reachable_block b -> wf_tensor (ex_single b).
Proof.
  intros Hb. unfold ex_single. destruct (tensor_map_new ex_single_keys [b]) as [t|e|m|r] eqn:E; try apply ex_tensor_wf.
  assert (Hk : axis_labels ex_single_keys) by (split; [apply ex_labels_wf|vm_compute; discriminate]).
  assert (Hf : Forall wf_block [b]) by (constructor; [apply reachable_wf; assumption|constructor]).
  apply (tensor_map_new_ok _ _ _ Hk Hf) in E as [Hh ->]. split; [assumption|]. split; assumption.
Qed.

(* three components, the first one is moved *)
Definition ex_three_components : TensorBlock :=
  ex_block (ex_array [1; 2; 2; 2; 1] 0) (ex_labels ["s"] [[0]]%Z)
    [ex_labels ["x"] [[0]; [1]]%Z; ex_labels ["y"] [[0]; [1]]%Z; ex_labels ["z"] [[0]; [1]]%Z]
    (ex_labels ["p"] [[0]]%Z).
Definition ex_three : TensorMap := ex_single ex_three_components.

Lemma ex_three_components_reachable : reachable_block ex_three_components.
Proof.
  apply reachable_new with (data := ex_array [1; 2; 2; 2; 1] 0) (samples := ex_labels ["s"] [[0]]%Z)
    (components := [ex_labels ["x"] [[0]; [1]]%Z; ex_labels ["y"] [[0]; [1]]%Z; ex_labels ["z"] [[0]; [1]]%Z])
    (properties := ex_labels ["p"] [[0]]%Z);
    [apply ex_array_wf|apply ex_labels_wf|repeat constructor; apply ex_labels_wf|apply ex_labels_wf|].
  vm_compute. reflexivity.
Qed.

Lemma ex_three_wf : wf_tensor ex_three.
Proof. apply ex_single_wf, ex_three_components_reachable. Qed.

Definition ex_three_moved : TensorMap := fst (components_to_properties ex_three ["x"]).
Definition ex_three_moved_y : TensorMap := fst (components_to_properties ex_three ["y"]).

Lemma ex_component_mislabelled :
  exists t name t' key b s cs1 xv cs2 pr v v',
    wf_tensor t /\ components_to_properties t [name] = (t', Ok tt)
    /\ block_of t key b /\ component_at (tb_values b) name (length cs1)
    /\ a_kind (bb_data (tb_values b)) = RustNdarray
    /\ entry (tb_values b) s (cs1 ++ xv :: cs2) pr v
    /\ tensor_entry t' key s (cs1 ++ cs2) (xv ++ pr) v' /\ v' <> v.
Proof.
  exists ex_three, "x", ex_three_moved, [0]%Z, ex_three_components, [0]%Z, [], [1]%Z, [[0]; [1]]%Z, [0]%Z, 5%Z, 6%Z.
  split; [apply ex_three_wf|]. split; [vm_compute; reflexivity|].
  split; [exists 0; vm_compute; auto|]. split; [vm_compute; reflexivity|]. split; [vm_compute; reflexivity|].
  split; [apply (show_basic_entry _ [0; 1; 0; 1; 0]); vm_compute; auto 20|].
  split; [apply (show_entry _ 0 [0; 0; 1; 1]); vm_compute; auto 20|]. discriminate.
Qed.

(* the component and one of the properties have the same name *)
Definition ex_colliding_block : TensorBlock :=
  ex_block (ex_array [1; 2; 2] 0) (ex_labels ["s"] [[0]]%Z) [ex_labels ["n"] [[0]; [1]]%Z] (ex_labels ["n"] [[0]; [1]]%Z).
Definition ex_colliding : TensorMap := ex_single ex_colliding_block.

Lemma ex_colliding_reachable : reachable_block ex_colliding_block.
Proof.
  apply reachable_new with (data := ex_array [1; 2; 2] 0) (samples := ex_labels ["s"] [[0]]%Z)
    (components := [ex_labels ["n"] [[0]; [1]]%Z])
    (properties := ex_labels ["n"] [[0]; [1]]%Z);
    [apply ex_array_wf|apply ex_labels_wf|repeat constructor; apply ex_labels_wf|apply ex_labels_wf|].
  vm_compute. reflexivity.
Qed.

Lemma ex_colliding_wf : wf_tensor ex_colliding.
Proof. apply ex_single_wf, ex_colliding_reachable. Qed.

(* the shapes do not agree anymore *)
Definition broken (b : TensorBlock) : bool :=
  negb (length (shape_of (bb_data (tb_values b))) =? length (axes (tb_values b))).

Lemma broken_not_wf t : existsb broken (tm_blocks t) = true -> ~ wf_tensor t.
Proof.
  intros H (_ & Hb & _). apply existsb_exists in H as (b & Hin & H). rewrite Forall_forall in Hb.
  destruct (Hb b Hin) as [(_ & _ & Hs & _) _]. unfold broken in H. rewrite Hs, map_length, Nat.eqb_refl in H. discriminate.
Qed.

Definition ex_colliding_moved : TensorMap := fst (components_to_properties ex_colliding ["n"]).

Lemma ex_component_panic :
  exists t variables t' m,
    wf_tensor t /\ Forall responsive_block (tm_blocks t)
    /\ components_to_properties t variables = (t', Panic m) /\ t' <> t /\ ~ wf_tensor t'.
Proof.
  exists ex_colliding, ["n"], ex_colliding_moved, "invalid labels: the same name is used multiple times".
  split; [apply ex_colliding_wf|].
  split. { constructor; [|constructor]. split; [intros op; apply rust_answers; vm_compute; reflexivity|intros q g []]. }
  split; [vm_compute; reflexivity|].
  assert (Hn : ~ wf_tensor ex_colliding_moved) by (apply broken_not_wf; vm_compute; reflexivity).
  split; [|assumption]. intros E. apply Hn. rewrite E. apply ex_colliding_wf.
Qed.

(* an array which can not be reshaped *)
Definition ex_fixed_array : eqs_array :=
  mk_array (ForeignArray 3) (mk_nd [1; 2; 2] [0; 1; 2; 3]%Z) [] (fun op => match op with OpReshape => Fails 7 | _ => Works end).
Definition ex_fixed_block : TensorBlock :=
  ex_block ex_fixed_array (ex_labels ["s"] [[0]]%Z) [ex_labels ["x"] [[0]; [1]]%Z] (ex_labels ["n"] [[0]; [1]]%Z).
Definition ex_fixed : TensorMap := ex_single ex_fixed_block.

Lemma ex_fixed_reachable : reachable_block ex_fixed_block.
Proof.
  apply reachable_new with (data := ex_fixed_array) (samples := ex_labels ["s"] [[0]]%Z)
    (components := [ex_labels ["x"] [[0]; [1]]%Z])
    (properties := ex_labels ["n"] [[0]; [1]]%Z);
    [split; [intros _; reflexivity|discriminate]|apply ex_labels_wf|repeat constructor; apply ex_labels_wf|apply ex_labels_wf|].
  vm_compute. reflexivity.
Qed.

Definition ex_fixed_moved : TensorMap := fst (components_to_properties ex_fixed ["x"]).

Lemma ex_component_error :
  exists t variables t' e,
    wf_tensor t /\ components_to_properties t variables = (t', Err e) /\ t' <> t /\ ~ wf_tensor t'.
Proof.
  exists ex_fixed, ["x"], ex_fixed_moved, (External 7 "calling eqs_array_t.reshape failed").
  assert (Hw : wf_tensor ex_fixed) by apply ex_single_wf, ex_fixed_reachable.
  split; [assumption|]. split; [vm_compute; reflexivity|].
  assert (Hn : ~ wf_tensor ex_fixed_moved) by (apply broken_not_wf; vm_compute; reflexivity).
  split; [|assumption]. intros E. apply Hn. rewrite E. assumption.
Qed.
