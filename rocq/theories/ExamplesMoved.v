(* Concrete tensor maps after a move, and counter-examples *)
From Coq Require Import Permutation.
From Verif Require Import Base BaseFacts Labels Array Block Tensor Spec SpecTensor LabelsFacts ArrayFacts BlockFacts TensorFacts MovedFacts Examples.
Local Open Scope string_scope.
Local Open Scope list_scope.
Local Open Scope nat_scope.

Definition ex_to_samples : TensorMap := fst (keys_to_samples Debug ex_tensor (ex_labels ["center"] []) true).
Definition ex_to_properties : TensorMap := fst (keys_to_properties Release ex_tensor (ex_labels ["center"] []) true).
Definition ex_to_listed : TensorMap := fst (keys_to_properties Release ex_tensor (ex_labels ["center"] [[7]; [8]]%Z) true).

Lemma ex_to_samples_ok : keys_to_samples Debug ex_tensor (ex_labels ["center"] []) true = (ex_to_samples, Ok tt).
Proof. vm_compute. reflexivity. Qed.
Lemma ex_to_properties_ok : keys_to_properties Release ex_tensor (ex_labels ["center"] []) true = (ex_to_properties, Ok tt).
Proof. vm_compute. reflexivity. Qed.
Lemma ex_to_listed_ok : keys_to_properties Release ex_tensor (ex_labels ["center"] [[7]; [8]]%Z) true = (ex_to_listed, Ok tt).
Proof. vm_compute. reflexivity. Qed.

(* computable versions of [located] and [element], used to exhibit entries *)
Fixpoint bounded (shape idx : list nat) : bool :=
  match shape, idx with
  | [], [] => true
  | n :: shape, i :: idx => (i <? n) && bounded shape idx
  | _, _ => false
  end.

Lemma bounded_in_bounds shape : forall idx, bounded shape idx = true -> in_bounds shape idx.
Proof.
  induction shape as [|n shape IH]; intros [|i idx] H; simpl in H; try discriminate; [constructor|].
  apply andb_true_iff in H as [H1 H2]. apply Nat.ltb_lt in H1. constructor; [assumption|]. apply IH; assumption.
Qed.

Lemma show_basic_entry b idx s cs pr v :
  located (axes b) idx (s :: cs ++ [pr])
  /\ bounded (shape_of (bb_data b)) idx = true
  /\ nth_error (nd_data (a_nd (bb_data b))) (offset (shape_of (bb_data b)) idx) = Some v ->
  entry b s cs pr v.
Proof. intros (H1 & H2 & H3). exists idx. split; [assumption|]. split; [apply bounded_in_bounds; assumption|assumption]. Qed.

Lemma show_entry t i idx key s cs pr v :
  let b := nth i (tm_blocks t) ex_block_1 in
  nth_error (rows (tm_keys t)) i = Some key /\ nth_error (tm_blocks t) i = Some b
  /\ located (axes (tb_values b)) idx (s :: cs ++ [pr])
  /\ bounded (shape_of (bb_data (tb_values b))) idx = true
  /\ nth_error (nd_data (a_nd (bb_data (tb_values b)))) (offset (shape_of (bb_data (tb_values b))) idx) = Some v ->
  tensor_entry t key s cs pr v.
Proof. intros b (H1 & H2 & H3). exists i, b. split; [assumption|]. split; [assumption|]. apply (show_basic_entry _ idx). assumption. Qed.

Lemma show_gradient t i j k idx key q s rest cs pr v :
  let b := nth i (tm_blocks t) ex_block_1 in
  let g := snd (nth k (tb_gradients b) ("", tb_values b)) in
  nth_error (rows (tm_keys t)) i = Some key /\ nth_error (tm_blocks t) i = Some b
  /\ nth_error (rows (bb_samples (tb_values b))) j = Some s
  /\ nth_error (tb_gradients b) k = Some (q, g)
  /\ located (axes g) idx ((Z.of_nat j :: rest) :: cs ++ [pr])
  /\ bounded (shape_of (bb_data g)) idx = true
  /\ nth_error (nd_data (a_nd (bb_data g))) (offset (shape_of (bb_data g)) idx) = Some v ->
  tensor_gradient_value t key q s rest cs pr v.
Proof.
  intros b g (H1 & H2 & H3 & H4 & H5). exists b. split; [exists i; auto|]. exists j, g. split; [assumption|].
  split; [eapply nth_error_In; eauto|]. apply (show_basic_entry _ idx). assumption.
Qed.

Lemma ex_agreeing variables : agreeing_groups ex_tensor variables.
Proof.
  intros key1 b1 key2 b2 H1 H2 _ q g1 g2 Hg1 Hg2.
  assert (G : forall b g, In b (tm_blocks ex_tensor) -> In (q, g) (tb_gradients b) -> bb_components g = [ex_cell; ex_xyz]).
  { assert (E : Forall (Forall (eq [ex_cell; ex_xyz]))
                  (map (fun b => map (fun qg => bb_components (snd qg)) (tb_gradients b)) (tm_blocks ex_tensor))).
    { vm_compute. repeat constructor. }
    intros b g Hb Hg. rewrite Forall_map, Forall_forall in E. specialize (E b Hb). rewrite Forall_map, Forall_forall in E.
    symmetry. apply (E (q, g) Hg). }
  rewrite (G b1 g1), (G b2 g2); auto; try (eapply block_of_In; eauto).
  repeat (constructor; [split; reflexivity|]). constructor.
Qed.

Definition ex_swapped := ex_labels ["spin"; "center"] [].

Lemma ex_samples_misnamed :
  exists p t keys sort t' e b' s name v,
    wf_tensor t /\ wf_labels keys /\ keys_to_samples p t keys sort = (t', Ok tt)
    /\ block_of t' e b' /\ In s (rows (bb_samples (tb_values b')))
    /\ In name (labels_names keys)
    /\ In (name, v) (named (labels_names (bb_samples (tb_values b'))) s)
    /\ forall key, In key (rows (tm_keys t)) -> ~ In (name, v) (named (labels_names (tm_keys t)) key).
Proof.
  exists Debug, ex_tensor, ex_swapped, true, (fst (keys_to_samples Debug ex_tensor ex_swapped true)), [4]%Z.
  exists (nth 0 (tm_blocks (fst (keys_to_samples Debug ex_tensor ex_swapped true))) ex_block_1), [1; 8; 0]%Z, "spin", 8%Z.
  split; [apply ex_tensor_wf|]. split; [apply ex_labels_wf|]. split; [vm_compute; reflexivity|].
  split; [exists 0; vm_compute; auto|]. split; [vm_compute; auto|]. split; [vm_compute; auto|].
  split; [vm_compute; auto|]. intros key Hk. vm_compute in Hk. intros H.
  destruct Hk as [<-|[<-|[<-|[]]]]; vm_compute in H; intuition discriminate.
Qed.

Lemma ex_properties_misnamed :
  exists p t keys sort t' e b' pr name v,
    wf_tensor t /\ wf_labels keys /\ keys_to_properties p t keys sort = (t', Ok tt)
    /\ block_of t' e b' /\ In pr (rows (bb_properties (tb_values b')))
    /\ In name (labels_names keys)
    /\ In (name, v) (named (labels_names (bb_properties (tb_values b'))) pr)
    /\ forall key, In key (rows (tm_keys t)) -> ~ In (name, v) (named (labels_names (tm_keys t)) key).
Proof.
  exists Debug, ex_tensor, ex_swapped, true, (fst (keys_to_properties Debug ex_tensor ex_swapped true)), [4]%Z.
  exists (nth 0 (tm_blocks (fst (keys_to_properties Debug ex_tensor ex_swapped true))) ex_block_1), [8; 0; 3; 1]%Z, "spin", 8%Z.
  split; [apply ex_tensor_wf|]. split; [apply ex_labels_wf|]. split; [vm_compute; reflexivity|].
  split; [exists 0; vm_compute; auto|]. split; [vm_compute; auto 20|]. split; [vm_compute; auto|].
  split; [vm_compute; auto|]. intros key Hk. vm_compute in Hk. intros H.
  destruct Hk as [<-|[<-|[<-|[]]]]; vm_compute in H; intuition discriminate.
Qed.

Lemma ex_not_empty b : In b (tm_blocks ex_tensor) -> a_kind (bb_data (tb_values b)) <> RustEmptyArray.
Proof.
  assert (E : Forall (eq RustNdarray) (map (fun b => a_kind (bb_data (tb_values b))) (tm_blocks ex_tensor))).
  { vm_compute. repeat constructor. }
  intros Hb. rewrite Forall_map, Forall_forall in E. rewrite <- (E b Hb). discriminate.
Qed.

(** * A tensor map with data which can be moved *)

Definition check_in_range (b : TensorBlock) : bool :=
  forallb (fun qg => forallb (fun row => match row with
      | z :: _ => (0 <=? z)%Z && (z <? Z.of_nat (length (rows (bb_samples (tb_values b)))))%Z
      | [] => false
      end) (rows (bb_samples (snd qg)))) (tb_gradients b).

Lemma check_in_range_sound b : check_in_range b = true -> gradient_samples_in_range b.
Proof.
  intros H q g row Hg Hrow. unfold check_in_range in H. rewrite forallb_forall in H. specialize (H _ Hg). cbn [snd] in H.
  rewrite forallb_forall in H. specialize (H _ Hrow). destruct row as [|z rest]; [discriminate|].
  apply andb_true_iff in H as [H1 H2]. apply Z.leb_le in H1. apply Z.ltb_lt in H2.
  exists (Z.to_nat z), rest. rewrite Z2Nat.id by lia. split; [reflexivity|lia].
Qed.

Definition check_rust (b : TensorBlock) : bool :=
  kind_eqb (a_kind (bb_data (tb_values b))) RustNdarray
  && forallb (fun qg => kind_eqb (a_kind (bb_data (snd qg))) RustNdarray) (tb_gradients b).

Lemma check_rust_sound b : check_rust b = true ->
  a_kind (bb_data (tb_values b)) = RustNdarray /\ responsive_block b.
Proof.
  unfold check_rust. intros H. apply andb_true_iff in H as [H1 H2]. apply kind_eqb_eq in H1. rewrite forallb_forall in H2.
  split; [exact H1|]. split.
  - intros op. apply rust_answers. exact H1.
  - intros q g Hg op. apply rust_answers. apply kind_eqb_eq. exact (H2 _ Hg).
Qed.

Lemma ex_tensor_workable : workable ex_tensor.
Proof.
  assert (E : forallb (fun b => check_in_range b && check_rust b && forallb (fun qg => String.eqb (fst qg) "positions") (tb_gradients b))
                (tm_blocks ex_tensor) = true) by (vm_compute; reflexivity).
  rewrite forallb_forall in E.
  assert (Hb : forall b, In b (tm_blocks ex_tensor) -> check_in_range b = true /\ check_rust b = true
     /\ forallb (fun qg => String.eqb (fst qg) "positions") (tb_gradients b) = true).
  { intros b Hb. specialize (E b Hb). apply andb_true_iff in E as [E E3]. apply andb_true_iff in E as [E1 E2]. exact (conj E1 (conj E2 E3)). }
  split; [apply ex_tensor_wf|]. split; [vm_compute; discriminate|].
  split; [exists RustNdarray; split; [discriminate|]; intros b H; exact (proj1 (check_rust_sound b (proj1 (proj2 (Hb b H)))))|].
  split; [|vm_compute; reflexivity].
  intros b H. destruct (Hb b H) as (H1 & H2 & H3). split; [exact (proj2 (check_rust_sound b H2))|].
  split; [apply check_in_range_sound; exact H1|]. intros q g Hg. rewrite forallb_forall in H3. specialize (H3 _ Hg).
  apply String.eqb_eq in H3. cbn [fst] in H3. subst q. clear. vm_compute. intuition discriminate.
Qed.

Lemma ex_tensor_names (names : list string) :
  forallb (fun b => forallb (fun n => negb (existsb (String.eqb n) names)) (labels_names (bb_samples (tb_values b)))) (tm_blocks ex_tensor) = true ->
  forall b name, In b (tm_blocks ex_tensor) -> In name names -> ~ In name (labels_names (bb_samples (tb_values b))).
Proof.
  intros E b name Hb Hn Hi. rewrite forallb_forall in E. specialize (E b Hb). rewrite forallb_forall in E. specialize (E _ Hi).
  apply negb_true_iff in E. apply not_true_iff_false in E. apply E. apply existsb_exists. exists name. split; [exact Hn|apply String.eqb_refl].
Qed.

Lemma ex_tensor_property_names (names : list string) :
  forallb (fun b => forallb (fun n => negb (existsb (String.eqb n) names)) (labels_names (bb_properties (tb_values b)))) (tm_blocks ex_tensor) = true ->
  forall b name, In b (tm_blocks ex_tensor) -> In name names -> ~ In name (labels_names (bb_properties (tb_values b))).
Proof.
  intros E b name Hb Hn Hi. rewrite forallb_forall in E. specialize (E b Hb). rewrite forallb_forall in E. specialize (E _ Hi).
  apply negb_true_iff in E. apply not_true_iff_false in E. apply E. apply existsb_exists. exists name. split; [exact Hn|apply String.eqb_refl].
Qed.

Lemma ex_tensor_some_properties b : In b (tm_blocks ex_tensor) -> rows (bb_properties (tb_values b)) <> [].
Proof.
  intros Hb E. assert (H : forallb (fun b => negb (length (rows (bb_properties (tb_values b))) =? 0)) (tm_blocks ex_tensor) = true) by (vm_compute; reflexivity).
  rewrite forallb_forall in H. specialize (H b Hb). rewrite E in H. discriminate.
Qed.

(** * Blocks with two gradients *)

Definition ex_strain_array_1 := ex_array [2; 2; 3] 700.
Definition ex_strain_samples_1 := ex_labels ["sample"] [[0]; [1]]%Z.
Definition ex_strain_array_2 := ex_array [1; 2; 3] 800.
Definition ex_strain_samples_2 := ex_labels ["sample"] [[2]]%Z.
Definition ex_two_1 : TensorBlock :=
  fst (tensor_block_add_gradient ex_block_1 "strain" ex_strain_array_1 ex_strain_samples_1 [ex_xyz]).
Definition ex_two_2 : TensorBlock :=
  fst (tensor_block_add_gradient ex_block_2 "strain" ex_strain_array_2 ex_strain_samples_2 [ex_xyz]).
Definition ex_two_keys := ex_labels ["center"; "spin"] [[1; 0]; [1; 1]]%Z.
Definition ex_two : TensorMap := mk_tensor ex_two_keys [ex_two_1; ex_two_2].

(* another order for the gradients of the first block *)
Definition ex_two_reordered : TensorMap :=
  mk_tensor ex_two_keys [mk_block (tb_values ex_two_1) (rev (tb_gradients ex_two_1)) (rev (tb_gradient_parameters ex_two_1)); ex_two_2].

Lemma ex_two_1_reachable : reachable_block ex_two_1.
Proof.
  eapply reachable_add with (b := ex_block_1) (parameter := "strain") (data := ex_strain_array_1)
    (samples := ex_strain_samples_1) (components := [ex_xyz]) (result := Ok tt);
    auto using ex_block_1_reachable, ex_xyz_wf.
  - apply ex_array_wf.
  - apply ex_labels_wf.
  - discriminate.
Qed.

Lemma ex_two_2_reachable : reachable_block ex_two_2.
Proof.
  eapply reachable_add with (b := ex_block_2) (parameter := "strain") (data := ex_strain_array_2)
    (samples := ex_strain_samples_2) (components := [ex_xyz]) (result := Ok tt);
    auto using ex_block_2_reachable, ex_xyz_wf.
  - apply ex_array_wf.
  - apply ex_labels_wf.
  - discriminate.
Qed.

Lemma ex_two_wf : wf_tensor ex_two.
Proof.
  assert (Hk : axis_labels ex_two_keys) by (split; [apply ex_labels_wf|vm_compute; discriminate]).
  assert (Hb : Forall wf_block [ex_two_1; ex_two_2]).
  { constructor; [apply (reachable_wf _ ex_two_1_reachable)|]. constructor; [apply (reachable_wf _ ex_two_2_reachable)|constructor]. }
  assert (E : tensor_map_new ex_two_keys [ex_two_1; ex_two_2] = Ok ex_two) by (vm_compute; reflexivity).
  destruct (proj1 (tensor_map_new_ok _ _ _ Hk Hb) E) as [Hhom _].
  split; [exact Hk|]. split; [exact Hb|exact Hhom].
Qed.

Lemma ex_two_is_reordered : reordered ex_two ex_two_reordered.
Proof.
  split; [reflexivity|]. constructor; [|constructor; [|constructor]].
  - split; [reflexivity|]. split; apply Permutation_rev.
  - split; [reflexivity|]. split; apply Permutation_refl.
Qed.
