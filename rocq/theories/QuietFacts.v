(* No message contains a NUL byte, when no name given to the library does *)
From Coq Require Import DecimalString.
From Verif Require Import Base BaseFacts Labels Array Block Tensor Npy Io Origin CApi Spec SpecTensor SpecIo SpecApi
  LabelsFacts ArrayFacts BlockFacts TensorFacts KeysFacts MergeFacts GroupFacts.
Local Open Scope string_scope.
Local Open Scope list_scope.
Local Open Scope nat_scope.

Definition no_nul (s : string) : Prop := has_nul s = false.

Lemma no_nul_append a b : no_nul a -> no_nul b -> no_nul (a +++ b).
Proof.
  unfold no_nul. intros Ha Hb. induction a as [|c a IH]; [exact Hb|]. cbn [has_nul String.append] in *.
  apply orb_false_iff in Ha as [-> Ha]. apply IH. assumption.
Qed.

Lemma no_nul_String c s : Ascii.eqb c nul = false -> no_nul s -> no_nul (String c s).
Proof. unfold no_nul. intros Hc Hs. cbn [has_nul]. rewrite Hc. exact Hs. Qed.

Lemma no_nul_uint d : no_nul (NilEmpty.string_of_uint d).
Proof. unfold no_nul. induction d; try exact IHd; reflexivity. Qed.

Lemma no_nul_nat n : no_nul (string_of_nat n).
Proof. apply no_nul_uint. Qed.

Lemma no_nul_Z z : no_nul (string_of_Z z).
Proof. unfold string_of_Z. destruct (Z.to_int z) as [d|d]; [apply no_nul_uint|exact (no_nul_uint d)]. Qed.

Lemma no_nul_join sep l : no_nul sep -> Forall no_nul l -> no_nul (join sep l).
Proof.
  intros Hs. induction l as [|x l IH]; intros H; [reflexivity|]. apply Forall_cons_iff in H as [Hx H].
  cbn [join]. destruct l; [assumption|]. apply no_nul_append; [assumption|]. apply no_nul_append; auto.
Qed.

Lemma no_nul_c_str s : no_nul (c_str s).
Proof.
  unfold no_nul. induction s as [|c s IH]; [reflexivity|]. cbn [c_str]. destruct (Ascii.eqb c nul) eqn:E; [reflexivity|].
  cbn [has_nul]. rewrite E. exact IH.
Qed.

Lemma cstring_new_no_nul s s' : cstring_new s = Some s' <-> no_nul s /\ s' = s.
Proof.
  unfold cstring_new, no_nul. destruct (has_nul s); split; intros H; try discriminate; try (destruct H; discriminate).
  - injection H as <-. auto.
  - destruct H as [_ ->]. reflexivity.
Qed.

(* errors and panics which can be reported *)
Definition quiet_error (e : error) : Prop := no_nul (error_text e) /\ error_code e <> 0%Z.

Definition yields {A} (Q : A -> Prop) (o : outcome A) : Prop :=
  match o with
  | Ok a => Q a
  | Err e => quiet_error e
  | Panic m => no_nul m
  | Undefined _ => True
  end.

Definition quiet {A} : outcome A -> Prop := yields (fun _ => True).

Lemma yields_bind {A B} (P : A -> Prop) (Q : B -> Prop) (o : outcome A) (f : A -> outcome B) :
  yields P o -> (forall a, o = Ok a -> P a -> yields Q (f a)) -> yields Q (bind o f).
Proof. destruct o; cbn; auto. Qed.

Lemma yields_bind_quiet {A B} (Q : B -> Prop) (o : outcome A) (f : A -> outcome B) :
  quiet o -> (forall a, o = Ok a -> yields Q (f a)) -> yields Q (bind o f).
Proof. intros H1 H2. eapply yields_bind; [exact H1|]. intros a E _. auto. Qed.

Lemma yields_mono {A} (P Q : A -> Prop) (o : outcome A) : yields P o -> (forall a, o = Ok a -> P a -> Q a) -> yields Q o.
Proof. destruct o; cbn; auto. Qed.

Lemma yields_quiet {A} (P : A -> Prop) (o : outcome A) : yields P o -> quiet o.
Proof. intros H. eapply yields_mono; [exact H|]. auto. Qed.

Lemma yields_mapM {A B} (Q : B -> Prop) (f : A -> outcome B) l :
  (forall x, In x l -> yields Q (f x)) -> yields (Forall Q) (mapM f l).
Proof.
  induction l as [|x l IH]; intros H; cbn [mapM]; [constructor|].
  eapply yields_bind; [apply H; left; reflexivity|]. intros y _ Hy.
  eapply yields_bind; [apply IH; intros; apply H; right; assumption|]. intros ys _ Hys. constructor; assumption.
Qed.

Lemma quiet_mapM {A B} (f : A -> outcome B) l : (forall x, In x l -> quiet (f x)) -> quiet (mapM f l).
Proof. intros H. eapply yields_quiet. apply yields_mapM. exact H. Qed.

Lemma yields_foldM {A S} (P : S -> Prop) (f : S -> A -> outcome S) l : forall s,
  P s -> (forall s x, P s -> In x l -> yields P (f s x)) -> yields P (foldM f l s).
Proof.
  induction l as [|x l IH]; intros s Hs H; cbn [foldM]; [assumption|].
  eapply yields_bind; [apply H; [exact Hs|left; reflexivity]|]. intros s' _ Hs'. apply IH; [assumption|].
  intros. apply H; [assumption|right; assumption].
Qed.

Lemma quiet_foldM {A S} (f : S -> A -> outcome S) l s :
  (forall s x, In x l -> quiet (f s x)) -> quiet (foldM f l s).
Proof. intros H. apply yields_foldM; [exact I|]. intros. apply H. assumption. Qed.

Lemma yields_expect {A} (Q : A -> Prop) m (o : outcome A) : no_nul m -> yields Q o -> yields Q (expect m o).
Proof. destruct o; cbn; auto. Qed.

Lemma quiet_callback {A} op status : status <> 0%Z -> @quiet A (callback_error op status).
Proof.
  intros H. split; [|exact H]. apply no_nul_append; [reflexivity|]. apply no_nul_append; [destruct op; reflexivity|].
  apply no_nul_append; [reflexivity|]. apply no_nul_append; [apply no_nul_Z|reflexivity].
Qed.

Lemma yields_call {A} (Q : A -> Prop) a op (o : outcome A) : yields Q o -> yields Q (call a op o).
Proof.
  intros H. unfold call. destruct (a_kind a); auto. destruct (a_callbacks a op) as [| |st]; auto.
  - destruct op; reflexivity.
  - destruct (Z.eqb_spec st 0) as [_|Hst]; [assumption|]. exact (@quiet_callback A op st Hst).
Qed.

Ltac no_nul_tac :=
  repeat match goal with
  | |- no_nul (_ +++ _) => apply no_nul_append
  | |- no_nul (string_of_nat _) => apply no_nul_nat
  | |- no_nul (string_of_Z _) => apply no_nul_Z
  | |- no_nul (join _ _) => apply no_nul_join
  | |- no_nul (c_str _) => apply no_nul_c_str
  | H : Forall no_nul ?l |- Forall no_nul ?l => exact H
  | |- no_nul _ => first [assumption | reflexivity]
  | |- no_nul (String _ _) => apply no_nul_String; [reflexivity|]
  end.

Lemma quiet_bind {A B} (o : outcome A) (f : A -> outcome B) :
  quiet o -> (forall a, o = Ok a -> quiet (f a)) -> quiet (bind o f).
Proof. apply yields_bind_quiet. Qed.
Lemma quiet_expect {A} m (o : outcome A) : no_nul m -> quiet o -> quiet (expect m o).
Proof. apply yields_expect. Qed.
Lemma quiet_call {A} a op (o : outcome A) : quiet o -> quiet (call a op o).
Proof. apply yields_call. Qed.

Ltac quiet_step :=
  match goal with
  | |- yields _ (Err _) => split; [cbn [error_text]; no_nul_tac|discriminate]
  | |- quiet (Err _) => split; [cbn [error_text]; no_nul_tac|discriminate]
  | |- yields _ (Panic _) => cbn [yields]; no_nul_tac
  | |- quiet (Panic _) => cbn [quiet yields]; no_nul_tac
  | |- yields _ (Undefined _) => exact I
  | |- quiet (Undefined _) => exact I
  | |- quiet (Ok _) => exact I
  | |- quiet (callback_error _ _) => apply quiet_callback; discriminate
  | |- quiet (bind _ _) => apply quiet_bind; [|intros]
  | |- quiet (expect _ _) => apply quiet_expect; [no_nul_tac|]
  | |- quiet (call _ _ _) => apply quiet_call
  | |- yields (fun _ => True) ?o => change (quiet o)
  | |- quiet (mapM _ _) => apply quiet_mapM; intros
  | |- quiet (expect_some _ _) => unfold expect_some
  | |- quiet (assert_ _ _) => unfold assert_
  | |- quiet (debug_assert ?p _ _) => unfold debug_assert
  | |- quiet (index_slice _ _) => unfold index_slice
  | |- quiet (set_slice _ _ _) => unfold set_slice
  | |- quiet (labels_count _) => unfold labels_count
  | |- quiet (labels_iter _) => unfold labels_iter
  | |- quiet (labels_position _ _) => unfold labels_position
  | |- quiet (labels_index _ _) => unfold labels_index
  | |- quiet (array_shape _) => unfold array_shape
  | |- quiet (array_origin _) => unfold array_origin
  | |- quiet (label_from_usize _) => unfold label_from_usize
  | |- quiet (label_usize _ _) => unfold label_usize
  | |- quiet (index_slice_Z _ _) => unfold index_slice_Z
  | H : quiet ?o |- quiet ?o => exact H
  | |- quiet (if ?c then _ else _) => destruct c
  | |- quiet (match ?c with _ => _ end) => destruct c
  end.
Ltac quiet_tac := repeat quiet_step.

(** * Labels *)

Definition plain_labels (l : Labels) : Prop := Forall no_nul (l_names l).

Lemma quiet_builder_new names : Forall no_nul names -> quiet (builder_new names).
Proof.
  intros H. unfold builder_new. destruct (find _ names) as [name|] eqn:E.
  - apply find_some in E as [E _]. rewrite Forall_forall in H. specialize (H _ E). quiet_tac.
  - quiet_tac.
Qed.

Lemma quiet_builder_add b entry : quiet (builder_add b entry).
Proof.
  unfold builder_add, builder_add_state. destruct (negb _); [quiet_tac|]. destruct (hm_get _ _ _); quiet_tac.
  apply Forall_forall. intros s Hs. apply in_map_iff in Hs as (z & <- & _). apply no_nul_Z.
Qed.

Lemma quiet_builder_add_all b entries : quiet (builder_add_all b entries).
Proof. apply quiet_foldM. intros. apply quiet_builder_add. Qed.

Lemma quiet_builder_finish b : quiet (builder_finish b).
Proof. unfold builder_finish. quiet_tac. Qed.

Lemma builder_finish_plain b l : builder_finish b = Ok l -> plain_labels l.
Proof.
  unfold builder_finish, plain_labels. destruct (lb_names b) as [|n ns] eqn:En.
  - destruct (lb_values b); intros H; [injection H as <-; constructor|discriminate H].
  - intros H. apply bind_ok in H as (names & Hn & H). injection H as <-. cbn [l_names]. clear En.
    revert names Hn. generalize (n :: ns). clear. intros l. induction l as [|s l IH]; intros names Hn; cbn [mapM] in Hn.
    + injection Hn as <-. constructor.
    + apply bind_ok in Hn as (s' & Hs & Hn). apply bind_ok in Hn as (r & Hr & Hn). injection Hn as <-.
      constructor; [|auto]. destruct (cstring_new s) as [c|] eqn:Ec; [|discriminate Hs]. injection Hs as <-.
      apply cstring_new_no_nul in Ec as [Hc ->]. assumption.
Qed.

Lemma yields_labels_build names rs : Forall no_nul names -> yields plain_labels (labels_build names rs).
Proof.
  intros H. unfold labels_build. apply yields_bind_quiet; [apply quiet_builder_new; assumption|]. intros b _.
  apply yields_bind_quiet; [apply quiet_builder_add_all|]. intros b' _.
  eapply yields_mono; [apply quiet_builder_finish|]. intros l Hl _. eapply builder_finish_plain; eassumption.
Qed.

(** * Blocks *)

Definition plain_basic (b : BasicBlock) : Prop :=
  plain_labels (bb_samples b) /\ Forall plain_labels (bb_components b) /\ plain_labels (bb_properties b).

Definition plain_block (b : TensorBlock) : Prop :=
  plain_basic (tb_values b) /\ Forall (fun qg => no_nul (fst qg) /\ plain_basic (snd qg)) (tb_gradients b).

Lemma quiet_component_shapes c shape cs : no_nul c -> forall d, quiet (check_component_shapes c shape d cs).
Proof. intros Hc. induction cs as [|x cs IH]; intros d; cbn [check_component_shapes]; quiet_tac. apply IH. Qed.

Lemma quiet_component_labels cs : Forall plain_labels cs -> forall i, quiet (check_component_labels_from i cs).
Proof.
  induction cs as [|x cs IH]; intros H i; cbn [check_component_labels_from]; [quiet_tac|].
  apply Forall_cons_iff in H as [Hx H]. unfold labels_names. quiet_tac; [exact Hx|]. apply IH. assumption.
Qed.

Lemma quiet_gradient_components gs : forall vs i, Forall plain_labels vs -> quiet (check_gradient_components i gs vs).
Proof.
  induction gs as [|x gs IH]; intros [|v vs] i H; cbn [check_gradient_components]; try exact I.
  apply Forall_cons_iff in H as [Hx H]. unfold labels_names. quiet_tac; [exact Hx|]. apply IH. assumption.
Qed.

Lemma quiet_check_shapes c d s cs p : no_nul c -> quiet (check_data_and_labels c d s cs p).
Proof. intros Hc. unfold check_data_and_labels. cbv zeta. quiet_tac. apply quiet_component_shapes. assumption. Qed.

Lemma yields_block_new d s cs p : plain_labels s -> Forall plain_labels cs -> plain_labels p ->
  yields plain_block (tensor_block_new d s cs p).
Proof.
  intros Hs Hc Hp. unfold tensor_block_new, basic_block_new, check_component_labels.
  eapply (yields_bind plain_basic).
  - apply yields_bind_quiet; [apply quiet_check_shapes; reflexivity|]. intros _ _.
    apply yields_bind_quiet; [apply quiet_component_labels; assumption|]. intros _ _. repeat split; assumption.
  - intros v _ Hv. split; [assumption|constructor].
Qed.

Lemma quiet_check_gradient b q d s cs : plain_block b -> no_nul q -> Forall plain_labels cs -> quiet (check_gradient b q d s cs).
Proof.
  intros [(_ & Hb & _) _] Hq Hc. unfold check_gradient, check_component_labels. quiet_tac.
  - apply quiet_component_labels. assumption.
  - apply quiet_gradient_components. assumption.
  - apply quiet_check_shapes. reflexivity.
Qed.

Lemma add_gradient_plain b q d s cs b' r : plain_block b -> no_nul q -> plain_labels s -> Forall plain_labels cs ->
  tensor_block_add_gradient b q d s cs = (b', r) -> plain_block b' /\ quiet r.
Proof.
  intros Hb Hq Hs Hc H. pose proof (quiet_check_gradient b q d s cs Hb Hq Hc) as Hg.
  unfold tensor_block_add_gradient in H. destruct (check_gradient b q d s cs) as [u|e|m|u]; try (injection H as <- <-; auto).
  assert (Hn : Forall (fun qg => no_nul (fst qg) /\ plain_basic (snd qg))
    (hm_insert_new (tb_gradients b) q (mk_basic d s cs (bb_properties (tb_values b))))).
  { unfold hm_insert_new. apply Forall_app. split; [apply Hb|]. constructor; [|constructor].
    split; [assumption|]. repeat split; try assumption. apply Hb. }
  destruct (cstring_new q); injection H as <- <-; (split; [split; [apply Hb|exact Hn]|exact I || reflexivity]).
Qed.

Lemma yields_add_merged b q d s cs : plain_block b -> no_nul q -> plain_labels s -> Forall plain_labels cs ->
  yields plain_block (add_merged_gradient b q d s cs).
Proof.
  intros Hb Hq Hs Hc. unfold add_merged_gradient. destruct (tensor_block_add_gradient b q d s cs) as [b' r] eqn:E.
  apply add_gradient_plain in E as [Hb' Hr]; try assumption. apply yields_bind_quiet; [|intros; assumption].
  apply yields_expect; [reflexivity|assumption].
Qed.

Lemma quiet_reshape a shape : quiet (snd (array_reshape a shape)).
Proof.
  unfold array_reshape. destruct (a_kind a) eqn:K; [destruct (nd_to_shape _ _)| |]; cbn [snd]; try exact I.
  - apply quiet_callback. discriminate.
  - pose proof (yields_call (fun _ => True) a OpReshape (Ok tt) I) as Hc.
    destruct (call a OpReshape (Ok tt)); cbn [snd]; try assumption. destruct (nd_to_shape _ _); cbn [snd]; [exact I|].
    apply quiet_callback. discriminate.
Qed.

Lemma quiet_swap_axes a i j : quiet (snd (array_swap_axes a i j)).
Proof.
  unfold array_swap_axes. destruct (a_kind a) eqn:K; [destruct (nd_swap_axes _ _ _)|destruct (_ && _)|]; cbn [snd]; try exact I.
  - apply quiet_callback. discriminate.
  - apply quiet_callback. discriminate.
  - pose proof (yields_call (fun _ => True) a OpSwapAxes (Ok tt) I) as Hc.
    destruct (call a OpSwapAxes (Ok tt)); cbn [snd]; try assumption. destruct (nd_swap_axes _ _ _); cbn [snd]; [exact I|].
    apply quiet_callback. discriminate.
Qed.

Lemma in_remove_nth {A} i (l : list A) x : In x (remove_nth i l) -> In x l.
Proof.
  unfold remove_nth. intros H. apply in_app_iff in H as [H|H].
  - rewrite <- (firstn_skipn i l). apply in_app_iff. auto.
  - rewrite <- (firstn_skipn (S i) l). apply in_app_iff. auto.
Qed.

Lemma basic_components_plain b vs b' r : plain_basic b -> Forall no_nul vs ->
  basic_block_components_to_properties b vs = (b', r) -> plain_basic b' /\ quiet r.
Proof.
  intros Hb Hv H. unfold basic_block_components_to_properties in H.
  destruct (find_component vs (bb_components b)) as [i|]; [|injection H as <- <-; split; [assumption|quiet_tac]].
  destruct (nth_error (bb_components b) i) as [moved|] eqn:Ei; [|injection H as <- <-; split; [assumption|quiet_tac]].
  destruct Hb as (Hs & Hc & Hp).
  assert (Hm : plain_labels moved).
  { rewrite Forall_forall in Hc. apply Hc. eapply nth_error_In. eassumption. }
  assert (Hr : Forall plain_labels (remove_nth i (bb_components b))).
  { rewrite Forall_forall in *. intros l Hl. apply Hc. eapply in_remove_nth. eassumption. }
  cbv zeta in H.
  match type of H with (match ?o with _ => _ end) = _ =>
    assert (Hy : yields (fun x => plain_labels (fst (fst x))) o) end.
  { apply yields_bind_quiet; [apply quiet_builder_new; apply Forall_app; split; assumption|]. intros builder _.
    apply yields_bind_quiet; [quiet_tac|]. intros ? _. apply yields_bind_quiet; [quiet_tac|]. intros ? _.
    apply yields_bind_quiet; [apply quiet_builder_add_all|]. intros ? _.
    apply (yields_bind plain_labels).
    { eapply yields_mono; [apply quiet_builder_finish|]. intros l Hl _. eapply builder_finish_plain. eassumption. }
    intros np _ Hnp. apply yields_bind_quiet; [quiet_tac|]. intros ? _.
    apply yields_bind_quiet; [quiet_tac|]. intros ? _. apply yields_bind_quiet; [quiet_tac|]. intros ? _.
    apply yields_bind_quiet; [quiet_tac|]. intros ? _. destruct (_ <? _); [exact Hnp|reflexivity]. }
  match type of H with (match ?o with _ => _ end) = _ => destruct o as [[[np ax] sh]|e|m|u] end;
    try (injection H as <- <-; split; [repeat split; assumption|exact Hy]). cbn [yields fst] in Hy.
  pose proof (quiet_swap_axes (bb_data b) (i + 1) (ax - 1)) as Hsw.
  destruct (array_swap_axes (bb_data b) (i + 1) (ax - 1)) as [d1 r1]. cbn [snd] in Hsw.
  destruct r1 as [u1|e|m|u1]; try (injection H as <- <-; split; [repeat split; assumption|exact Hsw]).
  pose proof (quiet_reshape d1 sh) as Hre. destruct (array_reshape d1 sh) as [d2 r2]. cbn [snd] in Hre.
  destruct r2 as [u2|e|m|u2]; injection H as <- <-; (split; [repeat split; assumption|exact Hre]).
Qed.

Lemma gradients_components_plain vs gs : Forall no_nul vs -> forall gs' r,
  Forall (fun qg => no_nul (fst qg) /\ plain_basic (snd qg)) gs ->
  gradients_components_to_properties vs gs = (gs', r) ->
  Forall (fun qg => no_nul (fst qg) /\ plain_basic (snd qg)) gs' /\ quiet r.
Proof.
  intros Hv. induction gs as [|[q g] gs IH]; intros gs' r Hg H; cbn [gradients_components_to_properties] in H.
  - injection H as <- <-. split; [constructor|exact I].
  - apply Forall_cons_iff in Hg as [[Hq Hg] Hgs]. cbn [fst snd] in Hq, Hg.
    destruct (basic_block_components_to_properties g vs) as [g' rg] eqn:Eg.
    apply basic_components_plain in Eg as [Hg' Hrg]; try assumption.
    destruct rg as [u|e|m|u]; try (injection H as <- <-; split; [constructor; auto|exact Hrg]).
    destruct (gradients_components_to_properties vs gs) as [rest' result] eqn:Er. injection H as <- <-.
    destruct (IH rest' result Hgs eq_refl) as [H1 H2]. split; [constructor; auto|assumption].
Qed.

Lemma block_components_plain b vs b' r : plain_block b -> Forall no_nul vs ->
  tensor_block_components_to_properties b vs = (b', r) -> plain_block b' /\ quiet r.
Proof.
  intros Hb Hv H. unfold tensor_block_components_to_properties in H.
  destruct vs as [|v vs]; [injection H as <- <-; split; [assumption|exact I]|].
  destruct (basic_block_components_to_properties (tb_values b) (v :: vs)) as [values rv] eqn:Ev.
  apply basic_components_plain in Ev as [H1 H2]; [|apply Hb|assumption].
  destruct rv as [u|e|m|u]; try (injection H as <- <-; split; [split; [assumption|apply Hb]|exact H2]).
  destruct (gradients_components_to_properties (v :: vs) (tb_gradients b)) as [gs' result] eqn:Eg.
  apply gradients_components_plain in Eg as [H3 H4]; [|assumption|apply Hb].
  injection H as <- <-. split; [split; assumption|assumption].
Qed.

(** * Tensor maps *)

Definition plain_tensor (t : TensorMap) : Prop := plain_labels (tm_keys t) /\ Forall plain_block (tm_blocks t).

Lemma blocks_components_plain vs bs : Forall no_nul vs -> forall bs' r, Forall plain_block bs ->
  blocks_components_to_properties vs bs = (bs', r) -> Forall plain_block bs' /\ quiet r.
Proof.
  intros Hv. induction bs as [|b bs IH]; intros bs' r Hb H; cbn [blocks_components_to_properties] in H.
  - injection H as <- <-. split; [constructor|exact I].
  - apply Forall_cons_iff in Hb as [Hb Hbs].
    destruct (tensor_block_components_to_properties b vs) as [b' rb] eqn:Eb.
    apply block_components_plain in Eb as [Hb' Hrb]; try assumption.
    destruct rb as [u|e|m|u]; try (injection H as <- <-; split; [constructor; auto|exact Hrb]).
    destruct (blocks_components_to_properties vs bs) as [rest' result]. injection H as <- <-.
    destruct (IH rest' result Hbs eq_refl) as [H1 H2]. split; [constructor; auto|assumption].
Qed.

Lemma components_plain t vs t' r : plain_tensor t -> Forall no_nul vs ->
  components_to_properties t vs = (t', r) -> plain_tensor t' /\ quiet r.
Proof.
  intros Ht Hv H. unfold components_to_properties in H.
  destruct vs as [|v vs]; [injection H as <- <-; split; [assumption|exact I]|].
  destruct (blocks_components_to_properties (v :: vs) (tm_blocks t)) as [bs result] eqn:Eb. injection H as <- <-.
  apply blocks_components_plain in Eb as [H1 H2]; [|assumption|apply Ht]. split; [split; [apply Ht|assumption]|assumption].
Qed.

Lemma quiet_check_components cs : forall names context, Forall plain_labels cs -> Forall (Forall no_nul) names -> no_nul context ->
  quiet (check_components_names cs names context).
Proof.
  induction cs as [|c cs IH]; intros [|n names] context Hc Hn Hx; cbn [check_components_names]; try exact I.
  apply Forall_cons_iff in Hc as [Hc Hcs]. apply Forall_cons_iff in Hn as [Hn Hns]. unfold labels_names. quiet_tac; [exact Hc|].
  apply IH; assumption.
Qed.

Lemma quiet_check_labels_names b samples components context :
  plain_basic b -> Forall no_nul samples -> Forall (Forall no_nul) components -> no_nul context ->
  quiet (check_labels_names b samples components context).
Proof.
  intros (Hs & Hc & _) H1 H2 H3. unfold check_labels_names, labels_names. quiet_tac; [exact Hs|].
  apply quiet_check_components; assumption.
Qed.

Definition plain_data (d : string * (list string * list (list string))) : Prop :=
  Forall no_nul (fst (snd d)) /\ Forall (Forall no_nul) (snd (snd d)).

Lemma quiet_gradients_names gs data : Forall (fun qg => no_nul (fst qg) /\ plain_basic (snd qg)) gs ->
  Forall plain_data data -> quiet (check_gradients_names gs data).
Proof.
  intros Hg Hd. induction gs as [|[q g] gs IH]; cbn [check_gradients_names]; [exact I|].
  apply Forall_cons_iff in Hg as [[Hq Hg] Hgs]. cbn [fst snd] in *.
  destruct (hm_get String.eqb data q) as [[sn cn]|] eqn:E; [|quiet_tac].
  assert (Hp : Forall no_nul sn /\ Forall (Forall no_nul) cn).
  { clear IH. induction data as [|[k d] data IH]; [discriminate E|]. apply Forall_cons_iff in Hd as [Hk Hd]. cbn [hm_get] in E.
    destruct (String.eqb q k); [injection E as ->; exact Hk|auto]. }
  apply yields_bind_quiet.
  - apply quiet_check_labels_names; tauto || no_nul_tac.
  - intros _ _. apply IH. assumption.
Qed.

Lemma quiet_check_block first b : plain_block first -> plain_block b -> quiet (check_block_names first b).
Proof.
  intros Hf Hb. unfold check_block_names. cbv zeta.
  assert (Hn : forall cs, Forall plain_labels cs -> Forall (Forall no_nul) (map labels_names cs)).
  { intros cs H. apply Forall_map. exact H. }
  apply yields_bind_quiet.
  - apply quiet_check_labels_names; [apply Hb|apply Hf|apply Hn, Hf|reflexivity].
  - intros _ _. unfold labels_names at 1 3 4. 
    match goal with |- yields _ (if ?c then _ else _) => destruct c end.
    + split; [|discriminate]. cbn [error_text]. no_nul_tac; [apply Hb|apply Hf].
    + match goal with |- yields _ (if ?c then _ else _) => destruct c end; [split; [reflexivity|discriminate]|].
      apply quiet_gradients_names; [apply Hb|]. unfold gradients_data_of. apply Forall_map. cbv beta.
      destruct Hf as [_ Hf]. eapply Forall_impl; [|exact Hf]. intros [q g] [_ (Hs & Hc & _)]. split; [exact Hs|apply Hn, Hc].
Qed.

Lemma quiet_check_all first bs : plain_block first -> Forall plain_block bs -> quiet (check_all_blocks first bs).
Proof.
  intros Hf. induction bs as [|b bs IH]; intros Hb; cbn [check_all_blocks]; [exact I|].
  apply Forall_cons_iff in Hb as [Hb Hbs]. apply yields_bind_quiet; [apply quiet_check_block; assumption|]. intros _ _. apply IH. assumption.
Qed.

Lemma yields_tensor_new keys bs : plain_labels keys -> Forall plain_block bs -> yields plain_tensor (tensor_map_new keys bs).
Proof.
  intros Hk Hb. unfold tensor_map_new. apply yields_bind_quiet; [quiet_tac|]. intros n _.
  destruct (negb _); [quiet_tac|]. apply yields_bind_quiet.
  - destruct bs as [|b bs]; [exact I|]. apply quiet_check_all; [|assumption]. apply Forall_cons_iff in Hb as [Hb _]. assumption.
  - intros _ _. split; assumption.
Qed.

Lemma quiet_selection requested names : Forall no_nul requested -> quiet (selection_variables requested names).
Proof.
  induction requested as [|r l IH]; intros H; cbn [selection_variables]; [exact I|]. apply Forall_cons_iff in H as [Hr H].
  destruct (name_position r names); [|quiet_tac]. apply yields_bind_quiet; [apply IH; assumption|]. intros. exact I.
Qed.

Lemma quiet_key_matches labels vs : forall sel, quiet (key_matches labels vs sel).
Proof. induction vs as [|v vs IH]; intros [|x sel]; cbn [key_matches]; try exact I. quiet_tac. apply IH. Qed.

Lemma quiet_matching vs sel keys : forall n, quiet (matching_blocks n keys vs sel).
Proof.
  induction keys as [|k keys IH]; intros n; cbn [matching_blocks]; [exact I|].
  apply yields_bind_quiet; [apply quiet_key_matches|]. intros. apply yields_bind_quiet; [apply IH|]. intros. exact I.
Qed.

Lemma quiet_blocks_matching t s : plain_labels s -> quiet (blocks_matching t s).
Proof.
  intros H. unfold blocks_matching. quiet_tac; [apply quiet_selection; exact H|apply quiet_matching].
Qed.

Lemma quiet_check_variables vs names : Forall no_nul vs -> quiet (check_variables vs names).
Proof.
  induction vs as [|v vs IH]; intros H; cbn [check_variables]; [exact I|]. apply Forall_cons_iff in H as [Hv H].
  quiet_tac. apply IH. assumption.
Qed.

Lemma split_names_plain vs names : Forall no_nul names -> forall i, Forall no_nul (fst (fst (split_names i names vs))).
Proof.
  induction names as [|n names IH]; intros H i; cbn [split_names]; [constructor|]. apply Forall_cons_iff in H as [Hn H].
  specialize (IH H (i + 1)). destruct (split_names (i + 1) names vs) as [[a b] c]. cbn [fst] in IH.
  destruct (mem String.eqb n vs); [exact IH|]. constructor; assumption.
Qed.

Lemma yields_remove keys vs : plain_labels keys -> Forall no_nul vs ->
  yields (fun x => plain_labels (fst x)) (remove_variables_from_keys keys vs).
Proof.
  intros Hk Hv. unfold remove_variables_from_keys. apply yields_bind_quiet; [apply quiet_check_variables; assumption|]. intros _ _.
  pose proof (split_names_plain vs (labels_names keys) Hk 0) as Hs.
  destruct (split_names 0 (labels_names keys) vs) as [[rn ri] ei]. cbn [fst] in Hs.
  apply (yields_bind plain_labels); [|intros l _ Hl; exact Hl].
  destruct ri.
  - apply yields_labels_build. repeat constructor.
  - apply yields_bind_quiet; [quiet_tac|]. intros ? _. apply yields_bind_quiet; [unfold project; quiet_tac|]. intros ? _.
    apply yields_labels_build. assumption.
Qed.

Lemma quiet_check_samples first bs : quiet (check_same_labels_for_samples first bs).
Proof. induction bs as [|[k b] bs IH]; cbn [check_same_labels_for_samples]; quiet_tac. Qed.

Lemma quiet_check_properties first h bs : quiet (check_same_labels_for_properties first h bs).
Proof. induction bs as [|[k b] bs IH]; cbn [check_same_labels_for_properties]; quiet_tac. Qed.

Lemma quiet_samples_mapping merged samples : forall i, quiet (samples_mapping_from i merged samples).
Proof. induction samples as [|s samples IH]; intros i; cbn [samples_mapping_from]; quiet_tac. apply IH. Qed.

Lemma yields_merge_samples bs names sort : Forall no_nul names ->
  yields (fun x => plain_labels (fst x)) (merge_samples bs names sort).
Proof.
  intros Hn. unfold merge_samples. apply yields_bind_quiet; [quiet_tac|]. intros ? _. cbv zeta.
  apply yields_bind_quiet; [apply quiet_mapM; intros [k b] _; unfold extended_samples; quiet_tac|]. intros ? _.
  apply (yields_bind plain_labels); [apply yields_labels_build; assumption|]. intros l _ Hl.
  apply yields_bind_quiet; [apply quiet_mapM; intros; apply quiet_samples_mapping|]. intros ? _. exact Hl.
Qed.

Lemma quiet_translate p ms row : quiet (translate_gradient_sample p ms row).
Proof. unfold translate_gradient_sample. quiet_tac. Qed.

Lemma yields_merge_gradient_samples p bs q maps : Forall (fun kb => plain_block (snd kb)) bs ->
  yields plain_labels (merge_gradient_samples p bs q maps).
Proof.
  intros Hb. unfold merge_gradient_samples.
  apply (yields_bind (fun st => forall names, fst st = Some names -> Forall no_nul names)).
  - apply yields_foldM; [discriminate|]. intros [names set] [[k b] ms] Hs Hin.
    apply in_combine_l in Hin. rewrite Forall_forall in Hb. specialize (Hb _ Hin). cbn [snd] in Hb.
    destruct (tensor_block_gradient b q) as [g|] eqn:Eg; cbn [expect_some bind]; [|reflexivity].
    apply gradient_In in Eg. destruct Hb as [_ Hb]. rewrite Forall_forall in Hb. destruct (Hb _ Eg) as [_ Hg]. cbn [snd] in Hg.
    apply yields_bind_quiet; [quiet_tac|]. intros ? _.
    apply yields_bind_quiet; [apply quiet_mapM; intros; apply quiet_translate|]. intros ? _.
    cbn [yields fst]. intros n En. destruct names as [n0|]; [apply Hs; exact En|]. injection En as <-. apply Hg.
  - intros [names set] _ Hs. destruct names as [n|]; cbn [expect_some bind]; [|reflexivity].
    apply yields_labels_build. apply Hs. reflexivity.
Qed.

Lemma quiet_gradient_moves p samples ms rs : forall i, quiet (gradient_samples_to_move p i samples ms rs).
Proof.
  induction rs as [|r rs IH]; intros i; cbn [gradient_samples_to_move]; [exact I|].
  apply yields_bind_quiet; [apply quiet_translate|]. intros ? _. quiet_tac. apply IH.
Qed.

Lemma quiet_move output input ms start stop : quiet (array_move_samples_from output input ms start stop).
Proof.
  unfold array_move_samples_from. quiet_tac; try (apply quiet_callback; discriminate).
Qed.

Lemma quiet_create a shape : quiet (array_create a shape).
Proof. unfold array_create. quiet_tac. Qed.

Lemma quiet_move_gradient p q cs ns b ms start stop ng : quiet (move_gradient p q cs ns b ms start stop ng).
Proof.
  unfold move_gradient. quiet_tac; [apply quiet_gradient_moves|apply quiet_move].
Qed.

Lemma plain_gradients b q g : plain_block b -> In (q, g) (tb_gradients b) -> no_nul q /\ plain_basic g.
Proof. intros [_ H] Hin. rewrite Forall_forall in H. exact (H _ Hin). Qed.

Lemma yields_merge_samples_blocks p bs names sort : Forall no_nul names ->
  Forall (fun kb => plain_block (snd kb)) bs -> yields plain_block (merge_blocks_along_samples p bs names sort).
Proof.
  intros Hn Hb. destruct bs as [|[k0 b0] others]; [reflexivity|]. cbn [merge_blocks_along_samples]. cbv zeta.
  assert (Hb0 : plain_block b0) by (apply Forall_cons_iff in Hb as [Hb _]; exact Hb).
  pose proof Hb0 as [(Hs0 & Hc0 & Hp0) _].
  apply yields_bind_quiet; [apply quiet_check_samples|]. intros _ _.
  eapply yields_bind; [apply yields_merge_samples; apply Forall_app; split; [exact Hs0|exact Hn]|].
  intros [merged maps] _ Hm. cbn [fst] in Hm.
  do 3 (apply yields_bind_quiet; [quiet_tac|]; intros ? _).
  apply yields_bind_quiet; [apply quiet_create|]. intros ? _.
  apply yields_bind_quiet; [quiet_tac|]. intros ? _.
  apply yields_bind_quiet; [apply quiet_foldM; intros ? [[? ?] ?] _; apply quiet_move|]. intros ? _.
  eapply (yields_bind plain_block); [apply yields_expect; [reflexivity|]; apply yields_block_new; assumption|].
  intros nb _ Hnb. apply yields_foldM; [assumption|]. intros s [q g] Hs Hin.
  destruct (plain_gradients _ _ _ Hb0 Hin) as [Hq (Hgs & Hgc & _)].
  eapply yields_bind; [apply yields_merge_gradient_samples; exact Hb|]. intros ngs _ Hngs.
  do 3 (apply yields_bind_quiet; [quiet_tac|]; intros ? _).
  apply yields_bind_quiet; [apply quiet_create|]. intros ? _.
  apply yields_bind_quiet; [apply quiet_foldM; intros ? [[? ?] ?] _; apply quiet_move_gradient|]. intros ? _.
  apply yields_add_merged; assumption.
Qed.

Lemma quiet_blocks_properties bs : quiet (blocks_properties bs).
Proof. unfold blocks_properties. quiet_tac. Qed.

Lemma quiet_merged_properties first keys bs : quiet (merged_properties first keys bs).
Proof.
  unfold merged_properties. destruct keys as [keys|].
  - apply yields_bind_quiet; [quiet_tac|]. intros ? _. apply yields_bind_quiet; [apply quiet_blocks_properties|]. intros ? _. quiet_tac.
  - apply yields_bind_quiet; [apply quiet_blocks_properties|]. intros ? _. exact I.
Qed.

Lemma yields_merge_properties_blocks p bs keys names sort : Forall no_nul names ->
  Forall (fun kb => plain_block (snd kb)) bs -> yields plain_block (merge_blocks_along_properties p bs keys names sort).
Proof.
  intros Hn Hb. destruct bs as [|[k0 b0] others]; [reflexivity|]. cbn [merge_blocks_along_properties]. cbv zeta.
  assert (Hb0 : plain_block b0) by (apply Forall_cons_iff in Hb as [Hb _]; exact Hb).
  pose proof Hb0 as [(Hs0 & Hc0 & Hp0) _].
  apply yields_bind_quiet; [apply quiet_check_properties|]. intros _ _.
  eapply yields_bind; [apply yields_merge_samples; exact Hs0|].
  intros [merged maps] _ Hm. cbn [fst] in Hm.
  apply yields_bind_quiet; [apply quiet_merged_properties|]. intros ? _.
  eapply yields_bind; [apply yields_labels_build; apply Forall_app; split; [exact Hn|exact Hp0]|]. intros np _ Hnp.
  do 5 (apply yields_bind_quiet; [quiet_tac|]; intros ? _).
  apply yields_bind_quiet; [apply quiet_create|]. intros ? _.
  apply yields_bind_quiet; [apply quiet_mapM; intros [? ?] _; unfold property_range; quiet_tac|]. intros ? _.
  apply yields_bind_quiet; [apply quiet_foldM; intros ? [[[? ?] ?] [[? ?]|]] _; [apply quiet_move|exact I]|]. intros ? _.
  eapply (yields_bind plain_block); [apply yields_expect; [reflexivity|]; apply yields_block_new; assumption|].
  intros nb _ Hnb. apply yields_foldM; [assumption|]. intros s [q g] Hs Hin.
  destruct (plain_gradients _ _ _ Hb0 Hin) as [Hq (Hgs & Hgc & _)].
  eapply yields_bind; [apply yields_merge_gradient_samples; exact Hb|]. intros ngs _ Hngs.
  do 4 (apply yields_bind_quiet; [quiet_tac|]; intros ? _).
  apply yields_bind_quiet; [apply quiet_create|]. intros ? _.
  apply yields_bind_quiet; [apply quiet_foldM; intros ? [[[? ?] ?] [[? ?]|]] _; [apply quiet_move_gradient|exact I]|]. intros ? _.
  apply yields_add_merged; assumption.
Qed.

Lemma mapM_In {A B} (f : A -> outcome B) l : forall r y, mapM f l = Ok r -> In y r -> exists x, In x l /\ f x = Ok y.
Proof.
  induction l as [|x l IH]; intros r y H Hy; cbn [mapM] in H.
  - injection H as <-. destruct Hy.
  - apply bind_ok in H as (z & Hz & H). apply bind_ok in H as (zs & Hzs & H). injection H as <-.
    destruct Hy as [<-|Hy]; [exists x; split; [left; reflexivity|assumption]|].
    destruct (IH _ _ Hzs Hy) as (x' & Hin & Hx'). exists x'. split; [right; assumption|assumption].
Qed.

Lemma yields_merged_blocks t new_keys positions merge : plain_tensor t -> plain_labels new_keys ->
  (forall bs, Forall (fun kb : KeyAndBlock => plain_block (snd kb)) bs -> yields plain_block (merge bs)) ->
  yields (Forall plain_block) (merged_blocks t new_keys positions merge).
Proof.
  intros [_ Hb] Hk Hm. rewrite Forall_forall in Hb. unfold merged_blocks. apply yields_bind_quiet; [quiet_tac|]. intros n _.
  destruct (n =? 1).
  - apply yields_bind_quiet; [unfold all_blocks_to_merge, project; quiet_tac|]. intros bs Hbs.
    apply (yields_bind plain_block); [|intros b _ H; constructor; [exact H|constructor]]. apply Hm.
    apply Forall_forall. intros kb Hkb. unfold all_blocks_to_merge in Hbs. apply bind_ok in Hbs as (keys & _ & Hbs).
    destruct (mapM_In _ _ _ _ Hbs Hkb) as ([key b] & Hin & E). apply bind_ok in E as (mk & _ & E). injection E as <-. cbn [snd].
    apply in_combine_r in Hin. auto.
  - apply yields_bind_quiet; [quiet_tac|]. intros entries _. apply yields_mapM. intros entry _.
    apply yields_bind_quiet.
    + unfold blocks_to_merge_for, project. eapply yields_bind; [apply yields_labels_build; exact Hk|]. intros sel _ Hsel.
      apply yields_bind_quiet; [apply quiet_blocks_matching; assumption|]. intros ? _.
      match goal with |- yields _ ?o => change (quiet o) end. quiet_tac.
    + intros bs Hbs. apply Hm. apply Forall_forall. intros kb Hkb. unfold blocks_to_merge_for in Hbs.
      apply bind_ok in Hbs as (sel & _ & Hbs). apply bind_ok in Hbs as (matching & _ & Hbs).
      destruct (mapM_In _ _ _ _ Hbs Hkb) as (i & _ & E). apply bind_ok in E as (b & Eb & E).
      apply bind_ok in E as (key & _ & E). apply bind_ok in E as (mk & _ & E). injection E as <-. cbn [snd].
      apply Hb. unfold index_slice in Eb. destruct (nth_error (tm_blocks t) i) as [x|] eqn:En; [|discriminate Eb].
      injection Eb as <-. eapply nth_error_In. eassumption.
Qed.

Lemma keys_to_samples_plain p t keys sort t' r : plain_tensor t -> plain_labels keys ->
  keys_to_samples p t keys sort = (t', r) -> plain_tensor t' /\ quiet r.
Proof.
  intros Ht Hk H. unfold keys_to_samples in H.
  assert (Hy : yields (fun x => plain_labels (fst x) /\ Forall plain_block (snd x)) (keys_to_samples_compute p t keys sort)).
  { unfold keys_to_samples_compute. apply yields_bind_quiet; [quiet_tac|]. intros ? _. destruct (0 <? _); [quiet_tac|]. cbv zeta.
    eapply yields_bind; [apply yields_remove; [apply Ht|exact Hk]|]. intros [nk pos] _ Hnk. cbn [fst] in Hnk.
    eapply yields_bind; [apply yields_merged_blocks; try assumption|intros nb _ Hnb; split; [exact Hnk|exact Hnb]].
    intros bs Hbs. apply yields_merge_samples_blocks; assumption. }
  destruct (keys_to_samples_compute p t keys sort) as [[nk nb]|e|m|u]; injection H as <- <-;
    (split; [try assumption; exact Hy|try exact Hy; exact I]).
Qed.

Lemma keys_to_properties_plain p t keys sort t' r : plain_tensor t -> plain_labels keys ->
  keys_to_properties p t keys sort = (t', r) -> plain_tensor t' /\ quiet r.
Proof.
  intros Ht Hk H. unfold keys_to_properties in H.
  assert (Hy : yields (fun x => plain_labels (fst x) /\ Forall plain_block (snd x)) (keys_to_properties_compute p t keys sort)).
  { unfold keys_to_properties_compute. cbv zeta.
    eapply yields_bind; [apply yields_remove; [apply Ht|exact Hk]|]. intros [nk pos] _ Hnk. cbn [fst] in Hnk.
    apply yields_bind_quiet; [quiet_tac|]. intros ? _.
    eapply yields_bind; [apply yields_merged_blocks; try assumption|intros nb _ Hnb; split; [exact Hnk|exact Hnb]].
    intros bs Hbs. apply yields_merge_properties_blocks; assumption. }
  destruct (keys_to_properties_compute p t keys sort) as [[nk nb]|e|m|u]; injection H as <- <-;
    (split; [try assumption; exact Hy|try exact Hy; exact I]).
Qed.
