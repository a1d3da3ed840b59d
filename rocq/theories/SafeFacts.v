(* Nothing undefined happens if the callers respect the contract (C58) *)
From Coq Require Import Lia Permutation.
From Verif Require Import Base BaseFacts Labels Array Block Tensor Npy Io Origin CApi Spec SpecTensor SpecIo SpecApi
  LabelsFacts ArrayFacts BlockFacts TensorFacts KeysFacts DefinedFacts ApiFacts QuietFacts ReportFacts OwnerFacts LabelsApiFacts
  ReachFacts HandleFacts.
Local Open Scope string_scope.
Local Open Scope list_scope.
Local Open Scope nat_scope.

Ltac safe_step :=
  match goal with
  | H : defined (Undefined ?r) |- _ => exfalso; exact (H r eq_refl)
  | |- defined (read_exact _ _) => unfold read_exact, end_of_file
  | |- defined (mul_usize _ _ _) => unfold mul_usize
  | |- defined (vec_zeros _ _) => unfold vec_zeros
  | |- defined (check_pointer _ _) => unfold check_pointer
  | |- defined (c_str_to_str _ _) => unfold c_str_to_str; cbv zeta
  | _ => defined_step
  end.
Ltac safe := repeat safe_step.

Lemma defined_fold {A S} (f : S -> A -> outcome S) l : (forall s x, defined (f s x)) -> forall s, defined (foldM f l s).
Proof. intros H s. apply (defined_foldM (fun _ => True)); auto. Qed.

(** * Files *)

Lemma safe_header_fields entries : forall d f s, defined (header_fields entries d f s).
Proof.
  induction entries as [|[k v] entries IH]; intros d f s; cbn [header_fields]; [safe|].
  unfold illegal_value. safe; apply IH.
Qed.

Lemma safe_header reader : defined (header_from_reader reader).
Proof.
  unfold header_from_reader, version_of_bytes, read_header_len, parse_header, header_of_py_value.
  safe_step; [safe|]. destruct a as [magic r1]. destruct (negb _); [safe|].
  safe_step; [safe|]. destruct a as [number r2].
  safe_step; [safe|]. safe_step; [safe|]. destruct a0 as [len r3]. safe_step; [safe|]. destruct a0 as [buffer r4].
  safe_step; [|safe]. safe. apply safe_header_fields.
Qed.

Lemma safe_read_data p reader : defined (read_data p reader).
Proof.
  unfold read_data, shape_size, read_elements, check_for_extra_bytes, from_shape_vec. cbv zeta.
  safe_step; [apply safe_header|]. destruct a as [h r]. destruct (h_fortran_order h); [safe|].
  safe_step; [apply defined_fold; intros; safe|]. safe.
Qed.

Lemma safe_check_fields fields : forall names e, defined (check_fields fields names e).
Proof.
  induction fields as [|f fields IH]; intros names e; cbn [check_fields]; [safe|].
  unfold invalid_dtype. cbv zeta. safe; apply IH.
Qed.

Lemma safe_read_labels p reader : defined (read_labels p reader).
Proof.
  unfold read_labels, check_type_descriptor, read_elements, check_for_extra_bytes, invalid_dtype.
  safe_step; [apply safe_header|]. destruct a as [h r]. destruct (h_fortran_order h); [safe|].
  destruct (h_shape h) as [|n [|? ?]]; [safe| |safe]. safe_step.
  - destruct (h_descriptor h); safe. apply safe_check_fields.
  - destruct a as [names e]. safe. apply defined_labels_build.
Qed.

Lemma safe_by_name a path : defined (by_name a path).
Proof. unfold by_name. safe. Qed.

Lemma safe_gradient_parameters names : defined (gradient_parameters names).
Proof. induction names as [|n names IH]; cbn [gradient_parameters]; safe. Qed.

Lemma safe_read_components p a d shape : defined (read_components p a d shape).
Proof.
  unfold read_components. safe_step; [safe|]. apply defined_mapM. intros i _.
  safe_step; [apply safe_by_name|]. apply safe_read_labels.
Qed.

Lemma safe_check_gradient b q d s cs : defined (check_gradient b q d s cs).
Proof.
  unfold check_gradient, check_component_labels. defined_tac;
    auto using defined_component_labels, defined_gradient_components, defined_check_shapes.
Qed.

Lemma safe_add_gradient b q d s cs : defined (snd (tensor_block_add_gradient b q d s cs)).
Proof.
  unfold tensor_block_add_gradient. pose proof (safe_check_gradient b q d s cs) as H.
  destruct (check_gradient b q d s cs) as [[]|e|m|r]; [destruct (cstring_new q)|..]; cbn [snd]; safe.
Qed.

Lemma safe_load_gradient p a i b q : defined (load_gradient p a i b q).
Proof.
  unfold load_gradient. cbv zeta. safe_step; [apply safe_by_name|]. safe_step; [apply safe_read_data|].
  safe_step; [apply safe_by_name|]. safe_step; [apply safe_read_labels|]. safe_step; [apply safe_read_components|].
  match goal with |- context [tensor_block_add_gradient ?b ?q ?d ?s ?c] => pose proof (safe_add_gradient b q d s c) as H4;
    destruct (tensor_block_add_gradient b q d s c) as [b' r] end. cbn [snd] in H4. safe_step; [exact H4|]. safe.
Qed.

Lemma safe_load_block p a qs i : defined (load_block p a qs i).
Proof.
  unfold load_block. cbv zeta. safe_step; [apply safe_by_name|]. safe_step; [apply safe_read_data|].
  safe_step; [apply safe_by_name|]. safe_step; [apply safe_read_labels|]. safe_step; [apply safe_read_components|].
  safe_step; [apply safe_by_name|]. safe_step; [apply safe_read_labels|]. safe_step; [apply defined_block_new|].
  apply defined_fold. intros. apply safe_load_gradient.
Qed.

Lemma safe_tensor_new keys bs : defined (tensor_map_new keys bs).
Proof.
  unfold tensor_map_new. safe_step; [safe|]. destruct (negb _); [safe|]. safe_step; [|safe].
  assert (H1 : forall cs ns c, defined (check_components_names cs ns c)).
  { clear. induction cs as [|x cs IH]; intros [|n ns] c; cbn [check_components_names]; safe. apply IH. }
  assert (H2 : forall b sn cn c, defined (check_labels_names b sn cn c)).
  { intros. unfold check_labels_names. safe. apply H1. }
  assert (H3 : forall gs d, defined (check_gradients_names gs d)).
  { induction gs as [|[q g] gs IH]; intros d; cbn [check_gradients_names]; [safe|].
    destruct (hm_get _ _ _) as [[sn cn]|]; [|safe]. safe_step; [apply H2|]. apply IH. }
  destruct bs as [|b0 bs]; [safe|]. generalize (b0 :: bs). intros l. induction l as [|b l IH]; cbn [check_all_blocks]; [safe|].
  safe_step; [|exact IH]. unfold check_block_names. cbv zeta. safe_step; [apply H2|]. safe. apply H3.
Qed.

Lemma safe_load p names a : defined (load p names a).
Proof.
  unfold load. safe_step; [apply safe_by_name|]. safe_step; [apply safe_read_labels|].
  safe_step; [apply safe_gradient_parameters|]. safe_step; [safe|].
  safe_step; [apply defined_mapM; intros; apply safe_load_block|]. apply safe_tensor_new.
Qed.

Lemma safe_header_to_bytes h : defined (header_to_bytes h).
Proof. unfold header_to_bytes. cbv zeta. safe. Qed.

Lemma safe_save_labels e path l : defined (save_labels e path l).
Proof.
  unfold save_labels, write_labels. safe_step; [|safe]. safe_step; [safe|].
  safe_step; [safe|]. safe_step; [apply safe_header_to_bytes|]. safe.
Qed.

Lemma safe_save_data e path a : defined (save_data e path a).
Proof.
  unfold save_data, write_data. safe_step; [|safe]. safe_step; [safe|].
  safe_step; [safe|]. safe_step; [apply safe_header_to_bytes|]. unfold array_data. safe.
Qed.

Lemma safe_save_components e d cs : forall i, defined (save_components e d i cs).
Proof.
  induction cs as [|c cs IH]; intros i; cbn [save_components]; [safe|].
  safe_step; [apply safe_save_labels|]. safe_step; [apply IH|]. safe.
Qed.

Lemma safe_save_gradients e i gs : defined (save_gradients e i gs).
Proof.
  induction gs as [|[q g] gs IH]; cbn [save_gradients]; [safe|]. cbv zeta.
  safe_step; [apply safe_save_data|]. safe_step; [apply safe_save_labels|].
  safe_step; [apply safe_save_components|]. safe_step; [exact IH|]. safe.
Qed.

Lemma safe_save e t : defined (save e t).
Proof.
  unfold save. safe_step; [apply safe_save_labels|]. safe_step; [|safe].
  generalize 0. induction (tm_blocks t) as [|b bs IH]; intros i; cbn [save_blocks]; [safe|]. cbv zeta.
  safe_step; [apply safe_save_data|]. safe_step; [apply safe_save_labels|].
  safe_step; [apply safe_save_components|]. safe_step; [apply safe_save_labels|].
  safe_step; [apply safe_save_gradients|]. safe_step; [apply IH|]. safe.
Qed.

(** * Components *)

Lemma safe_reshape a shape : defined (snd (array_reshape a shape)).
Proof.
  unfold array_reshape. assert (H : defined (call a OpReshape (Ok tt))) by safe. destruct (a_kind a).
  - destruct (nd_to_shape shape (a_nd a)); cbn [snd]; safe.
  - cbn [snd]. safe.
  - destruct (call a OpReshape (Ok tt)) as [[]|e|m|r]; [destruct (nd_to_shape shape (a_nd a))|..]; cbn [snd]; safe.
Qed.

Lemma safe_swap_axes a i j : defined (snd (array_swap_axes a i j)).
Proof.
  unfold array_swap_axes. assert (H : defined (call a OpSwapAxes (Ok tt))) by safe. destruct (a_kind a).
  - destruct (nd_swap_axes i j (a_nd a)); cbn [snd]; safe.
  - cbv zeta. destruct (_ && _)%bool; cbn [snd]; safe.
  - destruct (call a OpSwapAxes (Ok tt)) as [[]|e|m|r]; [destruct (nd_swap_axes i j (a_nd a))|..]; cbn [snd]; safe.
Qed.

Lemma safe_builder_add b row : defined (builder_add b row).
Proof.
  unfold builder_add, builder_add_state. destruct (negb _); [safe|]. destruct (hm_get _ _ _); safe.
Qed.

Lemma safe_builder_add_all rs : forall b, defined (builder_add_all b rs).
Proof. intros b. unfold builder_add_all. apply defined_fold. intros. apply safe_builder_add. Qed.

Lemma safe_builder_new names : defined (builder_new names).
Proof. unfold builder_new. safe. Qed.

Lemma safe_builder_finish b : defined (builder_finish b).
Proof. unfold builder_finish. safe. Qed.

Lemma safe_basic_components b vs : defined (snd (basic_block_components_to_properties b vs)).
Proof.
  unfold basic_block_components_to_properties. destruct (find_component vs (bb_components b)) as [axis|]; [|cbn [snd]; safe].
  destruct (nth_error (bb_components b) axis) as [moved|]; [|cbn [snd]; safe]. cbv zeta.
  match goal with |- context [match ?x with Ok _ => _ | Err _ => _ | Panic _ => _ | Undefined _ => _ end] =>
    assert (Hx : defined x) end.
  { safe_step; [apply safe_builder_new|]. safe_step; [safe|]. safe_step; [safe|]. safe_step; [apply safe_builder_add_all|].
    safe_step; [apply safe_builder_finish|]. safe. }
  match goal with |- context [match ?x with Ok _ => _ | Err _ => _ | Panic _ => _ | Undefined _ => _ end] =>
    destruct x as [[[ps axis'] shape]|e|m|r] end; [|cbn [snd]; safe..].
  pose proof (safe_swap_axes (bb_data b) (axis + 1) (axis' - 1)) as H1.
  destruct (array_swap_axes (bb_data b) (axis + 1) (axis' - 1)) as [d1 [[]|e|m|r]]; cbn [snd] in H1 |- *; try (safe; fail).
  pose proof (safe_reshape d1 shape) as H2. destruct (array_reshape d1 shape) as [d2 [[]|e|m|r]]; cbn [snd] in H2 |- *; safe.
Qed.

Lemma safe_gradients_components vs gs : defined (snd (gradients_components_to_properties vs gs)).
Proof.
  induction gs as [|[q g] gs IH]; cbn [gradients_components_to_properties]; [cbn [snd]; safe|].
  pose proof (safe_basic_components g vs) as H. destruct (basic_block_components_to_properties g vs) as [g' [[]|e|m|r]];
    cbn [snd] in H |- *; try (safe; fail).
  destruct (gradients_components_to_properties vs gs) as [gs' r]. exact IH.
Qed.

Lemma safe_block_components vs b : defined (snd (tensor_block_components_to_properties b vs)).
Proof.
  unfold tensor_block_components_to_properties. destruct vs as [|x vs]; [cbn [snd]; safe|].
  pose proof (safe_basic_components (tb_values b) (x :: vs)) as H.
  destruct (basic_block_components_to_properties (tb_values b) (x :: vs)) as [g' [[]|e|m|r]]; cbn [snd] in H |- *; try (safe; fail).
  pose proof (safe_gradients_components (x :: vs) (tb_gradients b)) as H2.
  destruct (gradients_components_to_properties (x :: vs) (tb_gradients b)) as [gs' r]. exact H2.
Qed.

Lemma safe_components vs t : defined (snd (components_to_properties t vs)).
Proof.
  unfold components_to_properties. destruct vs as [|x vs]; [cbn [snd]; safe|].
  assert (H : defined (snd (blocks_components_to_properties (x :: vs) (tm_blocks t)))).
  { induction (tm_blocks t) as [|b bs IH]; cbn [blocks_components_to_properties]; [cbn [snd]; safe|].
    pose proof (safe_block_components (x :: vs) b) as H.
    destruct (tensor_block_components_to_properties b (x :: vs)) as [g' [[]|e|m|r]]; cbn [snd] in H |- *; try (safe; fail).
    destruct (blocks_components_to_properties (x :: vs) bs) as [bs' r]. exact IH. }
  destruct (blocks_components_to_properties (x :: vs) (tm_blocks t)). exact H.
Qed.

(** * Pointers *)

Lemma safe_from_raw {A} (pointer : option (list A)) n : holds_values pointer n -> defined (from_raw_parts pointer n).
Proof.
  unfold holds_values, from_raw_parts. destruct pointer as [memory|].
  - intros H. rewrite (proj2 (Nat.leb_le _ _) H). safe.
  - intros ->. cbn. safe.
Qed.

Lemma safe_labels_from_c c : readable c -> defined (labels_from_c c).
Proof.
  intros Hr. destruct (cl_names c) as [memory|] eqn:En; [|unfold labels_from_c; rewrite En; safe].
  destruct ((match cl_values c with None => true | Some _ => false end) && (0 <? cl_count c))%bool eqn:Ev.
  - unfold labels_from_c. rewrite En, Ev. safe.
  - rewrite (labels_from_c_build c memory En); [|intros E; rewrite E in Ev; cbn in Ev; destruct (cl_count c); [reflexivity|discriminate]|exact Hr].
    safe_step; [safe|]. apply defined_labels_build.
Qed.

Lemma safe_labels_to_c l : defined (labels_to_c l).
Proof. unfold labels_to_c. safe. Qed.

Lemma safe_all_labels cs : Forall readable cs -> defined (mapM labels_from_c cs).
Proof. intros H. rewrite Forall_forall in H. apply defined_mapM. intros c Hc. apply safe_labels_from_c. auto. Qed.

Lemma safe_get_block w block : owners w -> own_block w block -> defined (get_block w block).
Proof.
  intros Hw (h & b & -> & Hb). cbn [get_block]. pose proof (own_blocks _ _ Hw) as [Hnd _].
  apply (BaseFacts.In_hm_get _ Nat.eqb_eq _ _ _ Hnd) in Hb. rewrite Hb. safe.
Qed.

Lemma safe_read_block w block : owners w -> live_block w block -> defined (read_block w block).
Proof. intros Hw [b Hb]. rewrite (points_to_read w block b Hw Hb). safe. Qed.

Lemma safe_pointer w block : block = BlockNull \/ live_block w block -> owners w ->
  defined (let? block := check_pointer "block" (block_pointer block) in read_block w block).
Proof.
  intros [->|H] Hw; [cbn [block_pointer check_pointer bind]; safe|].
  safe_step; [safe|]. assert (a = block) as -> by (destruct block; cbn in H0; congruence). apply safe_read_block; assumption.
Qed.

Lemma safe_get_tensor w h : owners w -> live_tensor w (Some h) -> defined (get_tensor w h).
Proof.
  intros Hw H. destruct (H h eq_refl) as [t Ht]. unfold get_tensor. pose proof (own_tensors _ _ Hw) as [Hnd _].
  apply (BaseFacts.In_hm_get _ Nat.eqb_eq _ _ _ Hnd) in Ht. rewrite Ht. safe.
Qed.

Lemma safe_failure {A B} (o : outcome A) (b : B) : defined o -> defined (bind o (fun _ => Ok b)).
Proof. intros H. apply defined_bind; [exact H|]. intros. safe. Qed.

Lemma safe_reading w o : defined o -> defined (snd (reading w o)).
Proof. intros H. unfold reading. destruct o; cbn [snd bind]; safe. Qed.

Lemma safe_take_blocks bs : forall w, owners w -> NoDup bs -> (forall b, In b bs -> own_block w b) ->
  defined (snd (take_blocks w bs)).
Proof.
  intros w Hw Hd Hb.
  assert (Hex : exists owned, Forall2 (fun b ob => exists h, b = BlockAt h /\ block_at w h ob) bs owned).
  { clear Hd. induction bs as [|b bs IH]; [exists []; constructor|]. destruct (Hb b (or_introl eq_refl)) as (h & ob & E & Hin).
    destruct IH as [owned IH]; [intros; apply Hb; right; assumption|]. exists (ob :: owned). constructor; [eauto|exact IH]. }
  destruct Hex as [owned Hf]. destruct (take_blocks_all bs w owned) as (w1 & E & _); [apply (own_blocks _ _ Hw)|exact Hd|exact Hf|].
  rewrite E. cbn [snd]. safe.
Qed.

Lemma safe_clone a : defined (array_clone a).
Proof. unfold array_clone. safe. Qed.

Lemma safe_clone_arrays arrays : defined (snd (clone_arrays arrays)).
Proof.
  induction arrays as [|a arrays IH]; cbn [clone_arrays]; [cbn [snd]; safe|]. pose proof (safe_clone a) as H.
  destruct (array_clone a); cbn [snd bind]; try (safe; fail). destruct (clone_arrays arrays). exact IH.
Qed.

Lemma safe_write_indexes idx : forall i buffer, defined (snd (write_indexes i buffer idx)).
Proof.
  induction idx as [|x idx IH]; intros i buffer; cbn [write_indexes]; [cbn [snd]; safe|].
  unfold set_slice. destruct (i <? length buffer); [apply IH|cbn [snd bind]; safe].
Qed.

Lemma one_origin_kind t : one_origin t -> exists k, Forall (block_kind k) (tm_blocks t).
Proof. intros [k H]. exists k. apply Forall_forall. intros b Hb. exact (H b Hb). Qed.

Lemma safe_move_keys w tensor keys temporary move : owners w -> live_tensor w tensor -> readable keys ->
  (forall h t l, tensor = Some h -> tensor_at w h t -> defined (snd (move (ot_tensor t) l))) ->
  defined (snd (move_keys w tensor keys temporary move)).
Proof.
  intros Hw Ht Hk Hm. unfold move_keys.
  destruct tensor as [h|]; [|cbn [check_pointer bind snd]; safe]. cbn [check_pointer bind].
  pose proof (safe_labels_from_c keys Hk) as Hl. destruct (labels_from_c keys) as [l|e|m|r]; cbn [bind snd]; try (safe; fail).
  pose proof (safe_get_tensor w h Hw Ht) as Hg. destruct (get_tensor w h) as [t|e|m|r] eqn:E; cbn [bind snd]; try (safe; fail).
  assert (Hin : tensor_at w h t).
  { unfold get_tensor in E. destruct (hm_get Nat.eqb (w_tensors w) h) as [t'|] eqn:E'; [|discriminate]. injection E as ->.
    apply (BaseFacts.hm_get_In _ Nat.eqb_eq) in E'. exact E'. }
  specialize (Hm h t l eq_refl Hin). destruct (move (ot_tensor t) l) as [moved [[]|e|m|r]]; cbn [snd] in Hm |- *; try (safe; fail).
  destruct (new_blocks_arrays w (tm_blocks moved)). cbn [snd]. safe.
Qed.

Lemma call_body_safe p thread w c w' v o : owners w -> respects w c -> call_body p thread w c = (w', v, o) -> defined o.
Proof.
  intros Hw Hr H. assert (Ho : defined (snd (call_body p thread w c))); [|rewrite H in Ho; exact Ho]. clear H w' v o.
  destruct c; cbn [call_body respects] in *.
  - unfold eqs_register_data_origin. destruct name as [name|]; [|cbn [check_pointer bind snd]; safe].
    destruct origin as [[]|]; cbn [check_pointer bind snd]; [|safe].
    assert (Hn : defined (c_str_to_str "called `Result::unwrap()` on an `Err` value" name)) by safe.
    destruct (c_str_to_str _ _); cbn [bind snd]; try (safe; fail). destruct (register_data_origin _ _). cbn [snd]. safe.
  - unfold eqs_get_data_origin. destruct buffer as [buffer|]; [|cbn [check_pointer bind snd]; safe].
    specialize (Hr buffer eq_refl).
    assert (Hg : defined (get_data_origin (w_origins w) origin)) by (unfold get_data_origin; safe).
    destruct (get_data_origin _ _); cbn [bind snd]; try (safe; fail). unfold copy_str_to_c.
    destruct buffer as [|x buffer]; [cbn in Hr; lia|]. cbn [length]. cbv zeta.
    repeat match goal with |- context [if ?x then _ else _] => destruct x end; cbn [snd]; safe.
  - apply safe_reading. unfold c_labels_position. destruct (cl_labels_ptr labels); [|safe].
    safe_step; [|safe]. safe_step; [apply safe_from_raw; exact Hr|]. safe.
  - destruct Hr as (Hs & Hc & Hp). unfold eqs_block. destruct (new_arrays w 1) as [w1 arrays].
    match goal with |- context [match ?x with Ok _ => _ | Err _ => _ | Panic _ => _ | Undefined _ => _ end] =>
      assert (Hx : defined x); [|destruct x as [b|e|m|r]] end; cbn [bind snd]; try (safe; fail).
    + safe_step; [apply safe_labels_from_c; exact Hs|]. safe_step; [apply safe_all_labels; exact Hc|].
      safe_step; [apply safe_labels_from_c; exact Hp|]. apply defined_block_new.
    + destruct (box_block w1 _). cbn [snd]. safe.
  - unfold eqs_block_free. destruct Hr as [->|Hr]; [cbn [snd]; safe|]. pose proof (safe_get_block w block Hw Hr) as Hg.
    destruct block; [cbn [snd]; safe|..]; (destruct (get_block _ _) as [[h b]|e|m|r]; cbn [bind snd]; safe).
  - unfold eqs_block_copy. pose proof (safe_pointer w block Hr Hw) as Hg.
    destruct (let? block := _ in read_block w block) as [b|e|m|r]; cbn [bind snd]; try (safe; fail).
    pose proof (safe_clone_arrays (block_arrays (ob_block b))) as Hc. destruct (clone_arrays _) as [n result]. cbn [snd] in Hc.
    destruct (new_arrays w n) as [w1 arrays]. destruct result as [[]|e|m|r]; cbn [bind snd]; try (safe; fail).
  - apply safe_reading. destruct Hr as [->|Hr]; [cbn [block_pointer check_pointer bind]; safe|].
    safe_step; [safe|]. assert (a = block) as -> by (destruct block; cbn in H; congruence).
    safe_step; [safe|]. safe_step; [safe|]. safe_step; [safe|]. safe_step; [apply safe_read_block; assumption|].
    safe_step; [unfold select_basic_block; safe|]. safe_step; [unfold axis_of_block; cbv zeta; safe|]. safe_step; [apply safe_labels_to_c|]. safe.
  - apply safe_reading. destruct Hr as [->|Hr]; [cbn [block_pointer check_pointer bind]; safe|].
    safe_step; [safe|]. assert (a = block) as -> by (destruct block; cbn in H; congruence).
    safe_step; [safe|]. safe_step; [safe|]. safe_step; [safe|]. safe_step; [apply safe_read_block; assumption|].
    safe_step; [unfold select_basic_block; safe|]. safe_step; [unfold select_array; safe|]. safe.
  - destruct Hr as (Hb & Hs & Hc). unfold eqs_block_add_gradient. destruct (new_arrays w 1) as [w1 arrays] eqn:En.
    assert (Hw1 : w_blocks w1 = w_blocks w) by (unfold new_arrays in En; injection En as <- <-; reflexivity).
    match goal with |- context [match ?x with Ok _ => _ | Err _ => _ | Panic _ => _ | Undefined _ => _ end] =>
      assert (Hx : defined x); [|destruct x as [[[[[handle b] q] ss] cs]|e|m|r]] end; cbn [bind snd]; try (safe; fail).
    + destruct Hb as [->|Hb]; [cbn [block_pointer check_pointer bind]; safe|].
      safe_step; [safe|]. assert (a = block) as -> by (destruct block; cbn in H; congruence).
      safe_step; [safe|]. safe_step; [safe|]. safe_step; [apply safe_labels_from_c; exact Hs|].
      safe_step; [apply safe_all_labels; exact Hc|]. safe_step; [|safe].
      pose proof (safe_get_block w block Hw Hb) as Hg. unfold get_block in *. rewrite Hw1. exact Hg.
    + pose proof (safe_add_gradient (ob_block b) q data ss cs) as Ha.
      destruct (tensor_block_add_gradient _ _ _ _ _) as [b' result]. cbn [snd] in Ha. destruct (_ <? _); cbn [snd]; exact Ha.
  - apply safe_reading. destruct Hr as [->|Hr]; [cbn [block_pointer check_pointer bind]; safe|].
    safe_step; [safe|]. assert (a = block) as -> by (destruct block; cbn in H; congruence).
    safe_step; [safe|]. safe_step; [safe|]. safe_step; [apply safe_read_block; assumption|]. cbv zeta. safe.
  - destruct Hr as (Hk & Hb). unfold eqs_tensormap. pose proof (safe_labels_from_c keys Hk) as Hl.
    destruct (labels_from_c keys) as [l|e|m|r]; cbn [bind snd]; try (safe; fail).
    destruct (Nat.eqb_spec (count_distinct block_ptr_eqb blocks) (length blocks)) as [E|E]; cbn [negb]; [|cbn [snd]; safe].
    apply (count_distinct_NoDup _ block_ptr_eqb_eq) in E. pose proof (safe_take_blocks blocks w Hw E Hb) as Ht.
    destruct (take_blocks w blocks) as [w1 [owned|e|m|r]]; cbn [bind snd] in Ht |- *; try (safe; fail). cbv zeta.
    pose proof (safe_tensor_new l (map ob_block owned)) as Hn.
    destruct (tensor_map_new _ _); cbn [bind snd]; try (safe; fail). destruct (box_tensor w1 _). cbn [snd]. safe.
  - unfold eqs_tensormap_free. destruct tensor as [h|]; [|cbn [snd]; safe]. pose proof (safe_get_tensor w h Hw Hr) as Hg.
    destruct (get_tensor w h); cbn [bind snd]; safe.
  - apply safe_reading. destruct tensor as [h|]; [|cbn [check_pointer bind]; safe]. cbn [check_pointer bind].
    safe_step; [safe|]. safe_step; [apply safe_get_tensor; assumption|]. safe_step; [apply safe_labels_to_c|]. safe.
  - apply safe_reading. destruct tensor as [h|]; [|cbn [check_pointer bind]; safe]. cbn [check_pointer bind].
    safe_step; [safe|]. safe_step; [apply safe_get_tensor; assumption|]. safe.
  - destruct Hr as (Ht & Hs). unfold eqs_tensormap_blocks_matching.
    match goal with |- context [match ?x with Ok _ => _ | Err _ => _ | Panic _ => _ | Undefined _ => _ end] =>
      assert (Hx : defined x); [|destruct x as [[buffer bs]|e|m|r]] end; cbn [bind snd]; try (safe; fail).
    + destruct tensor as [h|]; [|cbn [check_pointer bind]; safe]. cbn [check_pointer bind].
      safe_step; [safe|]. safe_step; [safe|]. safe_step; [apply safe_labels_from_c; exact Hs|].
      safe_step; [apply safe_get_tensor; assumption|]. safe_step; [apply defined_blocks_matching|]. safe.
    + pose proof (safe_write_indexes bs 0 buffer) as Hi. destruct (write_indexes 0 buffer bs). exact Hi.
  - destruct Hr as (Ht & Hk & Hm). apply safe_move_keys; try assumption. intros h t l E Hin.
    destruct (one_origin_kind (ot_tensor t)) as [k Hf]; [apply (Hm h); assumption|].
    intros r E'. destruct (keys_to_properties p (ot_tensor t) l sort_samples) as [t' o] eqn:Ek. cbn [snd] in E'. subst o.
    eapply keys_to_properties_one_kind; eassumption.
  - unfold eqs_tensormap_components_to_properties.
    match goal with |- context [match ?x with Ok _ => _ | Err _ => _ | Panic _ => _ | Undefined _ => _ end] =>
      assert (Hx : defined x); [|destruct x as [[[h vs] t]|e|m|r]] end; cbn [bind snd]; try (safe; fail).
    + destruct tensor as [h|]; [|cbn [check_pointer bind]; safe]. cbn [check_pointer bind].
      safe_step; [safe|]. safe_step; [safe|]. safe_step; [apply safe_get_tensor; assumption|]. safe.
    + pose proof (safe_components vs (ot_tensor t)) as Hc. destruct (components_to_properties _ _). exact Hc.
  - destruct Hr as (Ht & Hk & Hm). apply safe_move_keys; try assumption. intros h t l E Hin.
    destruct (one_origin_kind (ot_tensor t)) as [k Hf]; [apply (Hm h); assumption|].
    intros r E'. destruct (keys_to_samples p (ot_tensor t) l sort_samples) as [t' o] eqn:Ek. cbn [snd] in E'. subst o.
    eapply keys_to_samples_one_kind; eassumption.
  - unfold eqs_tensormap_load.
    match goal with |- context [match ?x with Ok _ => _ | Err _ => _ | Panic _ => _ | Undefined _ => _ end] =>
      assert (Hx : defined x); [|destruct x as [t|e|m|r]] end; cbn [bind snd]; try (safe; fail).
    + safe_step; [safe|]. safe_step; [safe|]. safe_step; [unfold open_file; safe|]. apply safe_load.
    + destruct (new_blocks_arrays w (tm_blocks t)) as [w1 arrays]. destruct (box_tensor w1 _). cbn [snd]. safe.
  - unfold eqs_tensormap_save.
    match goal with |- context [match ?x with Ok _ => _ | Err _ => _ | Panic _ => _ | Undefined _ => _ end] =>
      assert (Hx : defined x); [|destruct x as [[q t]|e|m|r]] end; cbn [bind snd]; try (safe; fail).
    + safe_step; [safe|]. destruct tensor as [h|]; [|cbn [check_pointer bind]; safe]. cbn [check_pointer bind].
      safe_step; [safe|]. safe_step; [safe|]. safe_step; [apply safe_get_tensor; assumption|]. safe.
    + pose proof (safe_save LittleEndian (ot_tensor t)) as Hs. destruct (save LittleEndian (ot_tensor t)); cbn [bind snd]; safe.
  - cbn [snd]. safe.
Qed.

Lemma run_call_safe p thread w c w' v r : owners w -> respects w c -> run_call p thread w c <> (w', v, Crashed r).
Proof.
  intros Hw Hr H. apply run_call_body in H as (w1 & o & Hb & Hres & ->).
  pose proof (call_body_safe _ _ _ _ _ _ _ Hw Hr Hb) as Hd. unfold catch_unwind in Hres.
  destruct o as [[]|e|m|x]; [discriminate|..|exact (Hd x eq_refl)]; revert Hres; unfold from_error; cbn [snd];
    destruct (cstring_new _); discriminate.
Qed.

Lemma respectful_owners p files calls : respectful p (world_start files) calls ->
  forall i, owners (state_at p (world_start files) calls i).
Proof.
  intros Hn. induction i as [|i IH]; [apply owners_start|].
  destruct (state_at_next p calls (world_start files) i) as [(t & c & v & r & Hc)|Hs]; [|rewrite Hs; exact IH].
  pose proof (called_step _ _ _ _ _ _ _ _ Hc) as Hstep. eapply owners_call; [exact IH|exact Hstep|].
  intros m ->. eapply run_call_safe; [exact IH|eapply Hn; exact Hc|exact Hstep].
Qed.

Lemma run_called p calls : forall w i v r, nth_error (snd (run p w calls)) i = Some (v, r) ->
  exists thread c, called p w calls i thread c v r.
Proof.
  intros w i v r H. assert (Hex : nth_error calls i <> None).
  { revert w i H. induction calls as [|[t c] calls IH]; intros w i H; [destruct i; discriminate|].
    destruct i as [|i]; [discriminate|]. cbn [nth_error]. cbn [run] in H. destruct (run_call p t w c) as [[w1 v1] r1].
    destruct r1; [|destruct i; discriminate..]. destruct (run p w1 calls) as [w2 rs] eqn:E. cbn [snd nth_error] in H.
    apply (IH w1). rewrite E. exact H. }
  destruct (nth_error calls i) as [[t c]|] eqn:E; [|contradiction]. exists t, c. split; assumption.
Qed.

Lemma respectful_safe p files calls : respectful p (world_start files) calls -> never_crashed p (world_start files) calls.
Proof.
  intros Hn v r H. apply In_nth_error in H as [i Hi]. destruct (run_called _ _ _ _ _ _ Hi) as (t & c & Hc).
  eapply run_call_safe; [apply (respectful_owners p files calls Hn i)|eapply Hn; exact Hc|eapply called_step; exact Hc].
Qed.
