(* Lemmas about Block.v: construction of blocks and gradients *)
From Coq Require Import Permutation.
From Verif Require Import Base BaseFacts Labels Array Block Tensor Spec SpecTensor LabelsFacts ArrayFacts.
Local Open Scope string_scope.
Local Open Scope list_scope.
Local Open Scope nat_scope.

Lemma call_answers {A} a op (body : outcome A) : answers a op -> call a op body = body.
Proof.
  intros H. unfold call. destruct (a_kind a) as [| |o] eqn:E; try reflexivity.
  destruct (H _ E) as [->| ->]; reflexivity.
Qed.

Lemma call_ok {A} a op (body : outcome A) r : call a op body = Ok r -> body = Ok r /\ answers a op.
Proof.
  unfold call, answers. destruct (a_kind a) as [| |o] eqn:E.
  - intros H. split; [assumption|]. discriminate.
  - intros H. split; [assumption|]. discriminate.
  - destruct (a_callbacks a op) as [| |st]; try discriminate.
    + intros H. split; auto.
    + destruct (Z.eqb_spec st 0) as [->|]; [|discriminate]. intros H. split; auto.
Qed.

Lemma array_shape_ok a s : array_shape a = Ok s <-> answers a OpShape /\ s = shape_of a.
Proof.
  unfold array_shape. split.
  - intros H. apply call_ok in H as [H Ha]. inversion H; auto.
  - intros [Ha ->]. rewrite call_answers by assumption. reflexivity.
Qed.

Lemma array_origin_ok a k : array_origin a = Ok k <-> answers a OpOrigin /\ k = a_kind a.
Proof.
  unfold array_origin. split.
  - intros H. apply call_ok in H as [H Ha]. inversion H; auto.
  - intros [Ha ->]. rewrite call_answers by assumption. reflexivity.
Qed.

Lemma kind_eqb_eq k1 k2 : kind_eqb k1 k2 = true <-> k1 = k2.
Proof.
  destruct k1, k2; simpl; split; try congruence.
  - rewrite Nat.eqb_eq. congruence.
  - intros H; inversion H. apply Nat.eqb_refl.
Qed.

Lemma check_component_shapes_ok context shape cs : forall d d',
  Forall wf_labels cs ->
  (check_component_shapes context shape d cs = Ok d' <->
   d' = d + length cs
   /\ Forall (fun c => labels_names c <> []) cs
   /\ forall i c, nth_error cs i = Some c -> nth_error shape (d + i) = Some (length (rows c))).
Proof.
  induction cs as [|c cs IH]; intros d d' Hwf; simpl.
  - split.
    + intros H; inversion H; subst. split; [lia|]. split; [constructor|]. intros [|i] c H'; discriminate.
    + intros (-> & _ & _). f_equal; lia.
  - inversion Hwf as [|? ? Hc Hcs]; subst. rewrite bind_ok. split.
    + intros (n & Hn & H). apply index_slice_ok in Hn. bind_inv H.
      apply (labels_count_ok _ _ Hc) in Hb as [Hne ->].
      destruct (Nat.eqb_spec n (length (rows c))) as [->|]; simpl in H; [|discriminate].
      apply (IH _ _ Hcs) in H as (-> & Hf & Hs). split; [lia|]. split; [constructor; assumption|].
      intros [|i] c' Hi; simpl in Hi.
      * inversion Hi; subst. rewrite Nat.add_0_r. assumption.
      * rewrite <- (Hs i c' Hi). f_equal; lia.
    + intros (-> & Hf & Hs). inversion Hf as [|? ? Hne Hf']; subst.
      exists (length (rows c)). split.
      { apply index_slice_ok. rewrite <- (Hs 0 c eq_refl). f_equal; lia. }
      rewrite (proj2 (labels_count_ok c (length (rows c)) Hc)) by auto. simpl.
      rewrite Nat.eqb_refl. simpl. apply (IH _ _ Hcs). split; [lia|]. split; [assumption|].
      intros i c' Hi. rewrite <- (Hs (S i) c' Hi). f_equal; lia.
Qed.

Lemma shape_axes shape (s : nat) cs (p : nat) :
  shape = s :: cs ++ [p] <->
  length shape = length cs + 2 /\ nth_error shape 0 = Some s
  /\ (forall i c, nth_error cs i = Some c -> nth_error shape (1 + i) = Some c)
  /\ nth_error shape (1 + length cs) = Some p.
Proof.
  split.
  - intros ->. repeat split.
    + simpl. rewrite app_length. simpl. lia.
    + intros i c Hi. simpl. rewrite nth_error_app1; [assumption|]. apply nth_error_Some; congruence.
    + simpl. rewrite nth_error_app2 by lia. rewrite Nat.sub_diag. reflexivity.
  - intros (Hl & H0 & Hc & Hp). apply nth_error_ext. intros [|i]; [assumption|].
    simpl nth_error at 2. destruct (Nat.lt_trichotomy i (length cs)) as [Hi|[->|Hi]].
    + rewrite nth_error_app1 by assumption. destruct (nth_error cs i) as [c|] eqn:E.
      * apply Hc in E. exact E.
      * apply nth_error_None in E; lia.
    + rewrite nth_error_app2 by lia. rewrite Nat.sub_diag. exact Hp.
    + rewrite nth_error_app2 by lia. transitivity (@None nat).
      * apply nth_error_None. lia.
      * symmetry. apply nth_error_None. simpl. lia.
Qed.

Lemma check_data_and_labels_ok context data samples components properties :
  wf_labels samples -> Forall wf_labels components -> wf_labels properties ->
  (check_data_and_labels context data samples components properties = Ok tt <->
   answers data OpShape
   /\ shape_of data = map (fun l => length (rows l)) (samples :: components ++ [properties])
   /\ NoDup (map labels_names components)
   /\ labels_names samples <> [] /\ labels_names properties <> []
   /\ Forall (fun c => labels_names c <> []) components).
Proof.
  intros Hs Hc Hp. unfold check_data_and_labels.
  assert (Hmap : map (fun l => length (rows l)) (samples :: components ++ [properties])
                 = length (rows samples) :: map (fun l => length (rows l)) components ++ [length (rows properties)]).
  { simpl. rewrite map_app. reflexivity. }
  rewrite Hmap, bind_ok. split.
  - intros (shape & Hshape & H). apply array_shape_ok in Hshape as [Ha ->].
    destruct (Nat.eqb_spec (length (shape_of data)) (length components + 2)) as [Hl|]; simpl negb in H; cbn iota in H; [|discriminate].
    bind_inv H. apply index_slice_ok in Hb. bind_inv H.
    apply (labels_count_ok _ _ Hs) in Hb0 as [Hne ->].
    destruct (Nat.eqb_spec a (length (rows samples))) as [->|]; simpl negb in H; cbn iota in H; [|discriminate].
    destruct (count_distinct names_eqb (map labels_names components) =? length components) eqn:Ed;
      simpl negb in H; cbn iota in H; [|discriminate].
    rewrite <- (map_length labels_names components), Nat.eqb_eq, count_distinct_NoDup in Ed by apply names_eqb_eq.
    bind_inv H. apply (check_component_shapes_ok _ _ _ _ _ Hc) in Hb0 as (-> & Hne' & Hcs).
    bind_inv H. apply index_slice_ok in Hb0. bind_inv H.
    apply (labels_count_ok _ _ Hp) in Hb1 as [Hnep ->].
    destruct (Nat.eqb_spec a (length (rows properties))) as [->|]; simpl negb in H; cbn iota in H; [|discriminate].
    split; [assumption|]. split; [|auto].
    apply shape_axes. rewrite map_length. split; [assumption|]. split; [assumption|]. split; [|assumption].
    intros i c Hi. rewrite nth_error_map in Hi. destruct (nth_error components i) as [c'|] eqn:E; [|discriminate].
    inversion Hi; subst. apply Hcs. assumption.
  - intros (Ha & Hshape & Hd & Hne & Hnep & Hne'). apply shape_axes in Hshape as (Hl & H0 & Hcs & Hpr).
    rewrite map_length in *. exists (shape_of data). split; [apply array_shape_ok; auto|].
    rewrite Hl, Nat.eqb_refl. simpl negb; cbn iota.
    unfold index_slice at 1. rewrite H0. simpl bind.
    rewrite (proj2 (labels_count_ok samples _ Hs)) by auto. simpl bind. rewrite Nat.eqb_refl. simpl negb; cbn iota.
    apply (proj2 (count_distinct_NoDup names_eqb names_eqb_eq _)) in Hd. rewrite map_length in Hd.
    rewrite Hd, Nat.eqb_refl. simpl negb; cbn iota.
    assert (E : check_component_shapes context (shape_of data) 1 components = Ok (1 + length components)).
    { apply (check_component_shapes_ok _ _ _ _ _ Hc). split; [reflexivity|]. split; [assumption|].
      intros i c Hi. apply Hcs. rewrite nth_error_map, Hi. reflexivity. }
    rewrite E. simpl bind. unfold index_slice. simpl in Hpr. simpl. rewrite Hpr. simpl.
    rewrite (proj2 (labels_count_ok properties _ Hp)) by auto. simpl. rewrite Nat.eqb_refl. reflexivity.
Qed.

Lemma check_component_labels_ok components :
  check_component_labels components = Ok tt <-> Forall (fun c => length (labels_names c) = 1) components.
Proof.
  unfold check_component_labels.
  enough (G : forall i, check_component_labels_from i components = Ok tt
                        <-> Forall (fun c => length (labels_names c) = 1) components) by apply G.
  induction components as [|c cs IH]; intros i; simpl.
  - split; [constructor|reflexivity].
  - unfold labels_size at 1. fold (labels_names c).
    destruct (Nat.eqb_spec (length (labels_names c)) 1) as [E|E]; simpl.
    + rewrite IH. split; [auto|]. intros H; inversion H; assumption.
    + split; [discriminate|]. intros H; inversion H; contradiction.
Qed.

Lemma one_name_nonempty cs :
  Forall (fun c => length (labels_names c) = 1) cs -> Forall (fun c => labels_names c <> []) cs.
Proof. apply Forall_impl. intros c H E. rewrite E in H. discriminate. Qed.

Lemma tensor_block_new_ok data samples components properties b :
  wf_labels samples -> Forall wf_labels components -> wf_labels properties -> answers data OpShape ->
  (tensor_block_new data samples components properties = Ok b <->
   shapes_agree data samples components properties
   /\ b = mk_block (mk_basic data samples components properties) [] []).
Proof.
  intros Hs Hc Hp Ha. unfold tensor_block_new, basic_block_new, shapes_agree.
  rewrite bind_ok. split.
  - intros (v & Hv & H). bind_inv Hv. bind_inv Hv. destruct a, a0.
    apply check_data_and_labels_ok in Hb; auto. apply check_component_labels_ok in Hb0.
    inversion Hv; subst. inversion H; subst. intuition.
  - intros [(H1 & H2 & H3 & H4 & H5) ->].
    eexists. split; [|reflexivity].
    rewrite (proj2 (check_data_and_labels_ok _ data samples components properties Hs Hc Hp)).
    + simpl. rewrite (proj2 (check_component_labels_ok components)) by assumption. reflexivity.
    + repeat (split; [assumption|]). apply one_name_nonempty; assumption.
Qed.

Lemma tensor_block_new_answers data samples components properties b :
  tensor_block_new data samples components properties = Ok b -> answers data OpShape.
Proof.
  unfold tensor_block_new, basic_block_new, check_data_and_labels. intros H.
  bind_inv H. bind_inv Hb. bind_inv Hb0. apply array_shape_ok in Hb1. tauto.
Qed.

(* refused blocks give an error, not a panic *)
Lemma check_component_shapes_no_panic context shape cs : forall d,
  Forall wf_labels cs -> Forall (fun c => labels_names c <> []) cs -> d + length cs <= length shape ->
  match check_component_shapes context shape d cs with
  | Ok d' => d' = d + length cs
  | Err (InvalidParameter _) => True
  | _ => False
  end.
Proof.
  induction cs as [|c cs IH]; intros d Hwf Hne Hd; simpl; [lia|].
  inversion Hwf as [|? ? Hc Hcs]; subst. inversion Hne as [|? ? Hn Hns]; subst. simpl in Hd.
  unfold index_slice. destruct (nth_error shape d) as [n|] eqn:E; [|apply nth_error_None in E; lia].
  simpl. rewrite (proj2 (labels_count_ok c _ Hc)) by auto. simpl.
  destruct (n =? length (rows c)); simpl; [|exact I].
  specialize (IH (d + 1) Hcs Hns). destruct (check_component_shapes _ _ _ _) as [d'|[]| |]; try (apply IH; lia); auto.
  lia.
Qed.

Lemma tensor_block_new_error data samples components properties :
  wf_labels samples -> Forall wf_labels components -> wf_labels properties -> answers data OpShape ->
  labels_names samples <> [] -> labels_names properties <> [] ->
  Forall (fun c => labels_names c <> []) components ->
  (exists b, tensor_block_new data samples components properties = Ok b)
  \/ (exists m, tensor_block_new data samples components properties = Err (InvalidParameter m)).
Proof.
  intros Hs Hc Hp Ha Hns Hnp Hnc. unfold tensor_block_new, basic_block_new, check_data_and_labels.
  rewrite (proj2 (array_shape_ok data (shape_of data))) by auto. simpl.
  destruct (Nat.eqb_spec (length (shape_of data)) (length components + 2)) as [Hl|]; simpl; [|eauto].
  unfold index_slice. destruct (nth_error (shape_of data) 0) as [s0|] eqn:E0; [|apply nth_error_None in E0; lia].
  simpl. rewrite (proj2 (labels_count_ok samples _ Hs)) by auto. simpl.
  destruct (s0 =? length (rows samples)); simpl; [|eauto].
  destruct (count_distinct names_eqb (map labels_names components) =? length components); simpl; [|eauto].
  pose proof (check_component_shapes_no_panic "data and labels don't match" (shape_of data) components 1 Hc Hnc) as Hcs.
  destruct (check_component_shapes _ _ _ _) as [d|[]| |]; try (exfalso; apply Hcs; lia); simpl; eauto.
  rewrite Hcs by lia. destruct (nth_error (shape_of data) (1 + length components)) as [sp|] eqn:Ep;
    [|apply nth_error_None in Ep; lia].
  cbn [bind].
  rewrite (proj2 (labels_count_ok properties _ Hp)) by auto. simpl.
  destruct (sp =? length (rows properties)); simpl; [|eauto].
  assert (Hcc : check_component_labels components = Ok tt
                \/ exists m, check_component_labels components = Err (InvalidParameter m)).
  { unfold check_component_labels.
    enough (G : forall i, check_component_labels_from i components = Ok tt
                \/ exists m, check_component_labels_from i components = Err (InvalidParameter m)) by apply G.
    clear. induction components as [|c cs IH]; intros i; simpl; [auto|].
    destruct (negb _); [eauto|]. apply IH. }
  destruct Hcc as [->|[m ->]]; simpl; eauto.
Qed.

(** * Gradients *)

Lemma check_gradient_components_ok gradient : forall values i,
  Forall wf_labels gradient -> Forall wf_labels values -> length gradient = length values ->
  (check_gradient_components i gradient values = Ok tt <-> Forall2 same_labels gradient values).
Proof.
  induction gradient as [|g gradient IH]; intros [|v values] i Hg Hv Hl; simpl in *; try discriminate.
  - split; [constructor|reflexivity].
  - inversion Hg; inversion Hv; subst.
    destruct (labels_eqb g v) eqn:E; simpl.
    + apply labels_eqb_same in E; auto. rewrite IH by (auto; lia). split; [auto|].
      intros H; inversion H; assumption.
    + split; [discriminate|]. intros H'; inversion H' as [|? ? ? ? Hs Hr]; subst.
      apply labels_eqb_same in Hs; auto. congruence.
Qed.

Lemma ends_with_skipn l suffix :
  ends_with l suffix <->
  length suffix <= length l /\ Forall2 same_labels (skipn (length l - length suffix) l) suffix.
Proof.
  unfold ends_with. split.
  - intros (prefix & rest & -> & H). pose proof (Forall2_len _ _ _ H) as Hl. rewrite app_length. split; [lia|].
    rewrite skipn_app_exact by lia. assumption.
  - intros [Hl H]. exists (firstn (length l - length suffix) l), (skipn (length l - length suffix) l).
    split; [symmetry; apply firstn_skipn|assumption].
Qed.

Lemma hm_contains_fst b parameter :
  hm_contains String.eqb (tb_gradients b) parameter = true <-> In parameter (map fst (tb_gradients b)).
Proof. apply hm_contains_spec. apply String.eqb_eq. Qed.

Lemma check_gradient_ok b parameter data samples components :
  wf_basic (tb_values b) ->
  wf_labels samples -> Forall wf_labels components ->
  answers data OpShape -> answers data OpOrigin -> answers (bb_data (tb_values b)) OpOrigin ->
  (check_gradient b parameter data samples components = Ok tt <->
   acceptable_gradient b parameter data samples components).
Proof.
  intros (Hwa & Hax & Hsh & Hone & Hnd) Hs Hc Has Hao Hav.
  assert (Hp : wf_labels (bb_properties (tb_values b))).
  { rewrite Forall_forall in Hax. apply Hax. unfold axes. right. apply in_or_app. simpl; auto. }
  assert (Hvc : Forall wf_labels (bb_components (tb_values b))).
  { apply Forall_forall. intros c Hin. rewrite Forall_forall in Hax. apply Hax. right. apply in_or_app; auto. }
  unfold check_gradient, acceptable_gradient, compatible_gradient, shapes_agree.
  destruct (hm_contains String.eqb (tb_gradients b) parameter) eqn:Eg.
  { apply hm_contains_fst in Eg. split; [discriminate|]. intros (H & _). contradiction. }
  apply not_true_iff_false in Eg. rewrite hm_contains_fst in Eg.
  rewrite (proj2 (array_origin_ok data _)) by auto. simpl bind.
  rewrite (proj2 (array_origin_ok (bb_data (tb_values b)) _)) by auto. simpl bind.
  destruct (kind_eqb (a_kind data) (a_kind (bb_data (tb_values b)))) eqn:Ek; simpl negb; cbn iota.
  2:{ apply not_true_iff_false in Ek. rewrite kind_eqb_eq in Ek. split; [discriminate|].
      intros (_ & _ & (_ & _ & _ & H) & _). simpl in H. contradiction. }
  apply kind_eqb_eq in Ek.
  destruct (String.eqb_spec parameter "values") as [->|Hnv].
  { split; [discriminate|]. intros (_ & H & _). congruence. }
  destruct (labels_names samples) as [|n others] eqn:En.
  { replace (labels_size samples) with 0 by (unfold labels_size; change (l_names samples) with (labels_names samples); rewrite En; reflexivity).
    simpl. split; [discriminate|]. intros (_ & _ & ((o & H) & _) & _). simpl in H. congruence. }
  replace (labels_size samples) with (S (length others)) by (unfold labels_size; change (l_names samples) with (labels_names samples); rewrite En; reflexivity).
  rewrite (proj2 (Nat.ltb_ge (S (length others)) 1)) by lia. simpl orb.
  destruct (String.eqb_spec n "sample") as [->|Hn]; simpl negb; cbn iota.
  2:{ split; [discriminate|]. intros (_ & _ & ((o & H) & _) & _). simpl in H. congruence. }
  destruct (check_component_labels components) as [[]|e|m|r] eqn:Ecl; simpl bind.
  2,3,4: split; [discriminate|]; intros (_ & _ & _ & _ & H & _);
         apply check_component_labels_ok in H; congruence.
  apply check_component_labels_ok in Ecl.
  destruct (Nat.ltb_spec (length components) (length (bb_components (tb_values b)))) as [Hlt|Hge].
  { split; [discriminate|]. intros (_ & _ & (_ & H & _) & _). apply ends_with_skipn in H. simpl in H. lia. }
  assert (Hcg : forall i, check_gradient_components i
             (skipn (length components - length (bb_components (tb_values b))) components)
             (bb_components (tb_values b)) = Ok tt <-> ends_with components (bb_components (tb_values b))).
  { intros i. rewrite check_gradient_components_ok.
    - rewrite ends_with_skipn. tauto.
    - rewrite <- (firstn_skipn (length components - length (bb_components (tb_values b))) components) in Hc.
      apply Forall_app in Hc. tauto.
    - assumption.
    - rewrite skipn_length. lia. }
  rewrite bind_ok. split.
  - intros ([] & H1 & H2). apply Hcg in H1. apply check_data_and_labels_ok in H2; auto.
    destruct H2 as (_ & Hshape & Hd & Hne & Hnep & _). simpl.
    repeat split; try assumption; try congruence; eauto.
  - intros (_ & _ & (_ & H1 & _ & _) & Hshape & _ & Hd & Hne & Hnep). simpl in H1.
    exists tt. split; [apply Hcg; assumption|]. apply check_data_and_labels_ok; auto.
    repeat (split; [assumption|]). split; [congruence|]. split; [assumption|].
    apply one_name_nonempty; assumption.
Qed.

Lemma check_gradient_answers b parameter data samples components :
  check_gradient b parameter data samples components = Ok tt ->
  answers data OpShape /\ answers data OpOrigin /\ answers (bb_data (tb_values b)) OpOrigin.
Proof.
  unfold check_gradient. destruct (hm_contains _ _ _); [discriminate|]. intros H.
  bind_inv H. bind_inv H. apply array_origin_ok in Hb, Hb0.
  destruct (negb _); [discriminate|]. destruct (String.eqb parameter "values"); [discriminate|].
  destruct (_ || _); [discriminate|]. bind_inv H. destruct (_ <? _); [discriminate|]. bind_inv H.
  unfold check_data_and_labels in H. bind_inv H. apply array_shape_ok in Hb3. tauto.
Qed.

Lemma add_gradient_ok b parameter data samples components b' :
  wf_basic (tb_values b) ->
  wf_labels samples -> Forall wf_labels components -> has_nul parameter = false ->
  answers data OpShape -> answers data OpOrigin -> answers (bb_data (tb_values b)) OpOrigin ->
  (tensor_block_add_gradient b parameter data samples components = (b', Ok tt) <->
   acceptable_gradient b parameter data samples components
   /\ b' = mk_block (tb_values b)
             (tb_gradients b ++ [(parameter, mk_basic data samples components (bb_properties (tb_values b)))])
             (tb_gradient_parameters b ++ [parameter])).
Proof.
  intros Hb Hs Hc Hnul Has Hao Hav. unfold tensor_block_add_gradient.
  pose proof (check_gradient_ok b parameter data samples components Hb Hs Hc Has Hao Hav) as Hcg.
  unfold cstring_new. rewrite Hnul.
  destruct (check_gradient b parameter data samples components) as [[]|e|m|r] eqn:E.
  - split.
    + intros H; inversion H; subst. split; [apply Hcg; reflexivity|reflexivity].
    + intros [_ ->]. reflexivity.
  - split; [discriminate|]. intros [H _]. apply Hcg in H. discriminate.
  - split; [discriminate|]. intros [H _]. apply Hcg in H. discriminate.
  - split; [discriminate|]. intros [H _]. apply Hcg in H. discriminate.
Qed.

Lemma add_gradient_frame b parameter data samples components b' result :
  has_nul parameter = false ->
  tensor_block_add_gradient b parameter data samples components = (b', result) ->
  (result <> Ok tt -> b' = b)
  /\ (result = Ok tt ->
      tb_values b' = tb_values b
      /\ tensor_block_gradient_parameters b' = tensor_block_gradient_parameters b ++ [parameter]
      /\ tensor_block_gradient b' parameter
         = Some (mk_basic data samples components (bb_properties (tb_values b)))
      /\ forall other, other <> parameter ->
           tensor_block_gradient b' other = tensor_block_gradient b other).
Proof.
  intros Hnul. unfold tensor_block_add_gradient, cstring_new. rewrite Hnul.
  destruct (check_gradient b parameter data samples components) as [[]|e|m|r] eqn:E;
    intros H; inversion H; subst; (split; [intros Hr; try reflexivity; congruence|]); try discriminate.
  intros _. unfold tensor_block_gradient, tensor_block_gradient_parameters, hm_insert_new. simpl.
  assert (Hnew : hm_get String.eqb (tb_gradients b) parameter = None).
  { unfold check_gradient in E. destruct (hm_contains String.eqb (tb_gradients b) parameter) eqn:Eg; [discriminate|].
    unfold hm_contains in Eg. destruct (hm_get _ _ _); [discriminate|reflexivity]. }
  split; [reflexivity|]. split; [reflexivity|]. split.
  - rewrite hm_get_app, Hnew. simpl. rewrite String.eqb_refl. reflexivity.
  - intros other Hother. rewrite hm_get_app. destruct (hm_get _ _ other); [reflexivity|].
    simpl. apply String.eqb_neq in Hother. rewrite Hother. reflexivity.
Qed.

(** * The invariant of reachable blocks *)

Lemma shapes_agree_wf_basic data samples components properties :
  wf_array data -> wf_labels samples -> Forall wf_labels components -> wf_labels properties ->
  shapes_agree data samples components properties ->
  wf_basic (mk_basic data samples components properties).
Proof.
  intros Ha Hs Hc Hp (H1 & H2 & H3 & H4 & H5). unfold wf_basic, axes; simpl.
  split; [assumption|]. split; [|auto].
  constructor; [split; assumption|]. apply Forall_app. split.
  - apply Forall_forall. intros c Hin. rewrite Forall_forall in Hc, H2. split; [auto|].
    specialize (H2 c Hin). intros E; rewrite E in H2; discriminate.
  - repeat constructor; assumption.
Qed.

Lemma add_gradient_wf b parameter data samples components b' result :
  wf_block b -> wf_array data -> wf_labels samples -> Forall wf_labels components ->
  tensor_block_add_gradient b parameter data samples components = (b', result) ->
  (forall m, result <> Panic m) -> wf_block b'.
Proof.
  intros IH Ha Hs Hc H Hnp. unfold tensor_block_add_gradient in H.
  destruct (check_gradient b parameter data samples components) as [[]|e|m|r] eqn:E;
    try (inversion H; subst; assumption).
  pose proof (check_gradient_answers _ _ _ _ _ E) as (A1 & A2 & A3).
  destruct IH as (Hv & Hg & Hnd & Hperm & Hval).
  apply check_gradient_ok in E; auto. destruct E as (Hnew & Hnv & Hcomp & Hag).
  destruct (cstring_new parameter) as [pc|] eqn:Ec.
  2:{ inversion H; subst. exfalso. eapply Hnp; reflexivity. }
  unfold cstring_new in Ec. destruct (has_nul parameter); inversion Ec; subst.
  inversion H; subst. unfold wf_block, hm_insert_new; simpl. rewrite map_app. simpl.
  split; [assumption|]. split; [|split; [|split]].
  + apply Forall_app. split; [assumption|]. constructor; [|constructor]. simpl. split; [|assumption].
    apply shapes_agree_wf_basic; auto.
    destruct Hv as (_ & Hax & _). rewrite Forall_forall in Hax. apply Hax. right. apply in_or_app; simpl; auto.
  + apply NoDup_snoc. auto.
  + apply Permutation_app_tail. assumption.
  + rewrite in_app_iff. simpl. intros [Hin|[Hin|[]]]; [contradiction|congruence].
Qed.

Lemma block_new_wf data samples components properties b :
  wf_array data -> wf_labels samples -> Forall wf_labels components -> wf_labels properties ->
  tensor_block_new data samples components properties = Ok b -> wf_block b.
Proof.
  intros Ha Hs Hc Hp H. pose proof (tensor_block_new_answers _ _ _ _ _ H) as Hans.
  apply tensor_block_new_ok in H as [Hag ->]; auto.
  unfold wf_block; simpl. split; [apply shapes_agree_wf_basic; auto|].
  repeat split; auto; constructor.
Qed.

Lemma reachable_wf b : reachable_block b -> wf_block b.
Proof.
  induction 1.
  - eapply block_new_wf; [| | | |eassumption]; assumption.
  - eapply add_gradient_wf; [| | | |eassumption|]; assumption.
Qed.
