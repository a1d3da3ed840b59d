(* Proofs about Wrapper.v *)
From Verif Require Import Base BaseFacts LayoutFacts Labels Array Strided Spec SpecTensor ArrayFacts ComponentsFacts StridedFacts Numpy SpecNumpy
  NumpyFacts Wrapper SpecWrapper.
Local Open Scope list_scope.
Local Open Scope nat_scope.

(** * Elements in their buffer *)

Definition inside (sizes : list nat) (o : array_object) : Prop :=
  length (ob_strides o) = length (ob_shape o)
  /\ exists size, nth_error sizes (ob_buffer o) = Some size
     /\ forall idx, in_bounds (ob_shape o) idx ->
        (0 <= ob_address o idx)%Z /\ (ob_address o idx + Z.of_nat (item_bytes (ob_type o)) <= Z.of_nat size)%Z.

Lemma inside_check sizes o : ob_inside sizes o = true -> inside sizes o.
Proof.
  unfold ob_inside, inside. intros H. apply andb_prop in H as [H1 H2]. apply Nat.eqb_eq in H1. split; [exact H1|].
  destruct (nth_error sizes (ob_buffer o)) as [size|]; [|discriminate]. exists size. split; [reflexivity|]. intros idx Hb.
  rewrite forallb_forall in H2. specialize (H2 idx (proj2 (all_indices_In _ _) Hb)). apply andb_prop in H2 as [H2 H3].
  apply Z.leb_le in H2, H3. split; assumption.
Qed.

Lemma inside_more sizes more o : inside sizes o -> inside (sizes ++ more) o.
Proof.
  intros (Hl & size & Hs & H). split; [exact Hl|]. exists size. split; [|exact H].
  rewrite nth_error_app1; [exact Hs|]. apply nth_error_Some. congruence.
Qed.

Lemma distance_times strides k : forall idx,
  np_distance (map (fun s => Z.of_nat (s * k)) strides) idx = (Z.of_nat k * np_distance (map Z.of_nat strides) idx)%Z.
Proof.
  induction strides as [|s strides IH]; intros [|i idx]; cbn [map np_distance]; try lia. rewrite IH. lia.
Qed.

Lemma inside_new sizes shape t :
  inside (sizes ++ [prod shape * item_bytes t]) (new_object (length sizes) shape t).
Proof.
  split; [cbn [new_object ob_strides ob_shape]; rewrite map_length; apply row_major_length|].
  exists (prod shape * item_bytes t). split.
  - cbn [new_object ob_buffer]. rewrite nth_error_app2 by lia. rewrite Nat.sub_diag. reflexivity.
  - intros idx Hb. unfold ob_address. cbn [new_object ob_start ob_strides ob_type ob_shape] in *.
    rewrite distance_times, distance_row_major. pose proof (ravel_lt _ _ Hb) as Hlt. split; [lia|].
    assert (Z.of_nat (ravel shape idx) + 1 <= Z.of_nat (prod shape))%Z by lia. nia.
Qed.

Lemma inside_shape view sizes o shape o' :
  keeps_the_order view -> inside sizes o -> change_shape view o shape = Some o' ->
  inside sizes o' /\ ob_type o' = ob_type o /\ ob_shape o' = shape /\ prod shape = prod (ob_shape o).
Proof.
  intros Hv (Hl & size & Hs & H). unfold change_shape. destruct (Nat.eqb_spec (prod shape) (prod (ob_shape o))) as [Hp|]; [|discriminate].
  destruct (view (ob_shape o) (ob_strides o) shape) as [strides|] eqn:E; [|discriminate]. intros K; inversion K; subst o'; clear K.
  destruct (Hv _ _ _ _ Hl Hp E) as [Hl' Hm]. split; [|split; [reflexivity|split; [reflexivity|exact Hp]]].
  split; [exact Hl'|]. exists size. split; [exact Hs|]. unfold ob_address. cbn [ob_shape ob_start ob_strides ob_type].
  intros idx Hb. apply all_indices_In, (in_map (np_distance strides)) in Hb. rewrite Hm in Hb.
  apply in_map_iff in Hb as (idx' & E' & Hb'). apply all_indices_In in Hb'. rewrite <- E'. exact (H idx' Hb').
Qed.

Lemma inside_swap sizes o axis_1 axis_2 :
  inside sizes o -> axis_1 < length (ob_shape o) -> axis_2 < length (ob_shape o) ->
  inside sizes (mk_object (ob_buffer o) (ob_start o) (swap_nth axis_1 axis_2 (ob_shape o))
                  (swap_nth axis_1 axis_2 (ob_strides o)) (ob_type o)).
Proof.
  intros (Hl & size & Hs & H) H1 H2. split; [cbn [ob_strides ob_shape]; rewrite !swap_nth_length; exact Hl|].
  exists size. split; [exact Hs|]. unfold ob_address in *. cbn [ob_shape ob_start ob_strides ob_type]. intros idx Hb.
  rewrite <- (swap_swap axis_1 axis_2 idx) by (apply in_bounds_length in Hb; rewrite swap_nth_length in Hb; lia).
  rewrite distance_swap.
  - apply H. apply in_bounds_unswap; assumption.
  - lia.
  - lia.
  - rewrite swap_nth_length. apply in_bounds_length in Hb. rewrite swap_nth_length in Hb. lia.
Qed.

Lemma distance_last strides s : forall idx i, length idx = length strides ->
  np_distance (strides ++ [s]) (idx ++ [i]) = (np_distance strides idx + Z.of_nat i * s)%Z.
Proof.
  induction strides as [|x strides IH]; intros [|j idx] i Hl; cbn in Hl; try discriminate; cbn [app np_distance]; [lia|].
  rewrite IH by lia. lia.
Qed.

Lemma inside_type sizes o t o' : inside sizes o -> change_type o t = Some o' ->
  inside sizes o' /\ (item_bytes t = item_bytes (ob_type o) -> ob_shape o' = ob_shape o).
Proof.
  intros (Hl & size & Hs & H). unfold change_type.
  destruct (Nat.eqb_spec (item_bytes t) (item_bytes (ob_type o))) as [Ht|Ht].
  - intros K; inversion K; subst o'; clear K. split; [|reflexivity]. split; [exact Hl|]. exists size. split; [exact Hs|].
    cbn [ob_shape ob_type]. rewrite Ht. exact H.
  - destruct (rev (ob_shape o)) as [|n shape] eqn:Es; [discriminate|].
    destruct (rev (ob_strides o)) as [|s strides] eqn:Er; [discriminate|].
    destruct (Z.eqb_spec s (Z.of_nat (item_bytes (ob_type o)))) as [->|]; [|discriminate]. cbn [andb].
    destruct (Nat.eqb_spec (item_bytes t) 0) as [|Hz]; [discriminate|]. cbn [negb andb].
    destruct (Nat.eqb_spec (n * item_bytes (ob_type o) mod item_bytes t) 0) as [Hm|]; [|discriminate].
    intros K; inversion K; subst o'; clear K. split; [|intros; contradiction].
    apply (f_equal (@rev _)) in Es, Er. rewrite rev_involutive in Es, Er. cbn [rev] in Es, Er.
    assert (Hl' : length (rev strides) = length (rev shape)).
    { rewrite Es, Er, !app_length in Hl. cbn in Hl. lia. }
    set (before := item_bytes (ob_type o)) in *. set (after := item_bytes t) in *.
    split; [cbn [ob_strides ob_shape rev]; rewrite !app_length, Hl'; reflexivity|].
    exists size. split; [exact Hs|]. cbn [ob_shape ob_type rev]. intros idx Hb.
    apply in_bounds_snoc_inv in Hb as (idx' & i & -> & Hb & Hi).
    assert (Hln : length idx' = length (rev strides)) by (rewrite Hl'; exact (in_bounds_length _ _ Hb)).
    unfold ob_address in *. cbn [ob_start ob_strides rev]. rewrite distance_last by exact Hln. fold after.
    assert (Hn : n * before = after * (n * before / after)) by (apply Nat.div_exact; assumption).
    assert (Hn0 : 0 < n).
    { destruct n; [|lia]. rewrite Nat.mul_0_l, Nat.div_0_l in Hi by exact Hz. lia. }
    set (q := n * before / after) in *.
    assert (Hn1 : n - 1 < n) by lia.
    pose proof (H (idx' ++ [0])) as H0. pose proof (H (idx' ++ [n - 1])) as H1. rewrite Es in H0, H1.
    specialize (H0 (proj2 (in_bounds_snoc _ _ _ _) (conj Hb Hn0))). specialize (H1 (proj2 (in_bounds_snoc _ _ _ (n - 1)) (conj Hb Hn1))).
    rewrite Er, distance_last in H0, H1 by exact Hln.
    assert (E1 : (Z.of_nat (n - 1) * Z.of_nat before + Z.of_nat before = Z.of_nat after * Z.of_nat q)%Z).
    { rewrite <- !Nat2Z.inj_mul, <- Hn, Nat2Z.inj_mul. rewrite Nat2Z.inj_sub by lia. nia. }
    assert (E2 : (Z.of_nat i + 1 <= Z.of_nat q)%Z) by lia.
    assert (E3 : (Z.of_nat after * (Z.of_nat i + 1) <= Z.of_nat after * Z.of_nat q)%Z) by (apply Z.mul_le_mono_nonneg_l; lia).
    split; nia.
Qed.

(** * Programs *)

Lemma run_snoc view events e : wrapper_run view (events ++ [e]) = then_heap view (wrapper_run view events) e.
Proof. unfold wrapper_run, then_heap. rewrite fold_left_app. reflexivity. Qed.

Lemma wrapped_is h w wr o : wrapped h w = Some (wr, o) ->
  nth_error (hp_wrappers h) w = Some wr /\ exists i, wr_array wr = Some i /\ nth_error (hp_objects h) i = Some o.
Proof.
  unfold wrapped. destruct (nth_error (hp_wrappers h) w) as [wr'|] eqn:E; [|discriminate].
  destruct (wr_array wr') as [i|] eqn:Ea; [|discriminate]. destruct (nth_error (hp_objects h) i) as [o'|] eqn:Eo; [|discriminate].
  cbn. intros H; inversion H; subst. split; [reflexivity|]. exists i. split; assumption.
Qed.

Lemma array_is_wrapped h w o : array_is h w o -> exists wr, wrapped h w = Some (wr, o).
Proof. intros (wr & i & H1 & H2 & H3). exists wr. unfold wrapped. rewrite H1, H2, H3. reflexivity. Qed.

Lemma nth_error_set_same {A} (l : list A) i x : i < length l -> nth_error (set_nth l i x) i = Some x.
Proof. intros H. rewrite nth_error_set_nth, Nat.eqb_refl. apply Nat.ltb_lt in H. rewrite H. reflexivity. Qed.

Lemma nth_error_set_other {A} (l : list A) i j x : i <> j -> nth_error (set_nth l i x) j = nth_error l j.
Proof. intros H. rewrite nth_error_set_nth. destruct (Nat.eqb_spec j i); [congruence|reflexivity]. Qed.

(* [R] between the shape of wrappers and the one of their array *)
Definition linked (R : list nat -> list nat -> Prop) (h : py_heap) : Prop :=
  Forall (inside (hp_sizes h)) (hp_objects h)
  /\ forall w wr i, nth_error (hp_wrappers h) w = Some wr -> wr_array wr = Some i ->
     exists o, nth_error (hp_objects h) i = Some o /\ R (wr_shape wr) (ob_shape o).

Definition allowed (R : list nat -> list nat -> Prop) (view : view_rule) (h : py_heap) (e : wrapper_event) : Prop :=
  match e with
  | SetShape i shape =>
      forall o o' s, nth_error (hp_objects h) i = Some o -> change_shape view o shape = Some o' ->
        R s (ob_shape o) -> R s (ob_shape o')
  | SetType i t =>
      forall o o' s, nth_error (hp_objects h) i = Some o -> change_type o t = Some o' ->
        R s (ob_shape o) -> R s (ob_shape o')
  | _ => True
  end.

Lemma linked_set R h i o o' :
  linked R h -> nth_error (hp_objects h) i = Some o -> inside (hp_sizes h) o' ->
  (forall s, R s (ob_shape o) -> R s (ob_shape o')) ->
  linked R (mk_heap (hp_sizes h) (set_nth (hp_objects h) i o') (hp_wrappers h)).
Proof.
  intros [Hi Hw] Ho Hin HR. split; cbn [hp_sizes hp_objects hp_wrappers].
  - apply Forall_forall. intros x Hx. apply In_nth_error in Hx as (k & Hk). rewrite Forall_forall in Hi.
    destruct (Nat.eq_dec k i) as [->|Hne].
    + rewrite nth_error_set_same in Hk by (apply nth_error_Some; congruence). inversion Hk; subst. exact Hin.
    + rewrite nth_error_set_other in Hk by congruence. apply Hi. eapply nth_error_In; exact Hk.
  - intros w wr k H1 H2. destruct (Hw w wr k H1 H2) as (x & Hx & HRx). destruct (Nat.eq_dec k i) as [->|Hne].
    + exists o'. split; [apply nth_error_set_same, nth_error_Some; congruence|]. apply HR. congruence.
    + exists x. split; [|exact HRx]. rewrite nth_error_set_other by congruence. exact Hx.
Qed.

Lemma linked_objects R h sizes o :
  linked R h -> inside (hp_sizes h ++ sizes) o ->
  linked R (mk_heap (hp_sizes h ++ sizes) (hp_objects h ++ [o]) (hp_wrappers h)).
Proof.
  intros [Hi Hw] Ho. split; cbn [hp_sizes hp_objects hp_wrappers].
  - apply Forall_app. split; [|constructor; [exact Ho|constructor]]. eapply Forall_impl; [|exact Hi]. intros a. apply inside_more.
  - intros w wr k H1 H2. destruct (Hw w wr k H1 H2) as (x & Hx & HRx). exists x. split; [|exact HRx].
    rewrite nth_error_app1; [exact Hx|]. apply nth_error_Some. congruence.
Qed.

Lemma linked_wrapper R h i o : linked R h -> nth_error (hp_objects h) i = Some o -> forall s, R s (ob_shape o) ->
  linked R (mk_heap (hp_sizes h) (hp_objects h) (hp_wrappers h ++ [mk_wrapper (Some i) s])).
Proof.
  intros [Hi Hw] Ho s HR. split; [exact Hi|]. cbn [hp_objects hp_wrappers]. intros w wr k H1 H2.
  destruct (Nat.lt_ge_cases w (length (hp_wrappers h))) as [Hlt|Hge].
  - rewrite nth_error_app1 in H1 by exact Hlt. exact (Hw w wr k H1 H2).
  - rewrite nth_error_app2 in H1 by exact Hge. destruct (w - length (hp_wrappers h)) as [|n]; cbn in H1.
    + inversion H1; subst wr. cbn in H2. inversion H2; subst k. exists o. split; [exact Ho|exact HR].
    + destruct n; discriminate.
Qed.

Lemma linked_replace R h w o s : linked R h -> inside (hp_sizes h) o -> R s (ob_shape o) -> linked R (replace_array h w o s).
Proof.
  intros Hk Ho HR. pose proof (linked_objects R h [] o Hk) as H. rewrite app_nil_r in H. specialize (H Ho). destruct H as [Hi Hw].
  split; [exact Hi|]. unfold replace_array. cbn [hp_objects hp_wrappers] in *. intros w' wr k H1 H2.
  destruct (Nat.eq_dec w' w) as [->|Hne].
  - assert (Hlt : w < length (hp_wrappers h)).
    { rewrite <- (set_nth_length (hp_wrappers h) w (mk_wrapper (Some (length (hp_objects h))) s)). apply nth_error_Some. congruence. }
    rewrite nth_error_set_same in H1 by exact Hlt. inversion H1; subst wr. cbn in H2. inversion H2; subst k. exists o.
    split; [|exact HR]. rewrite nth_error_app2 by lia. rewrite Nat.sub_diag. reflexivity.
  - rewrite nth_error_set_other in H1 by congruence. exact (Hw w' wr k H1 H2).
Qed.

Lemma linked_destroy R h w s : linked R h ->
  linked R (mk_heap (hp_sizes h) (hp_objects h) (set_nth (hp_wrappers h) w (mk_wrapper None s))).
Proof.
  intros [Hi Hw]. split; [exact Hi|]. cbn [hp_objects hp_wrappers]. intros w' wr k H1 H2. destruct (Nat.eq_dec w' w) as [->|Hne].
  - assert (Hlt : w < length (hp_wrappers h)).
    { rewrite <- (set_nth_length (hp_wrappers h) w (mk_wrapper None s)). apply nth_error_Some. congruence. }
    rewrite nth_error_set_same in H1 by exact Hlt. inversion H1; subst wr. discriminate.
  - rewrite nth_error_set_other in H1 by congruence. exact (Hw w' wr k H1 H2).
Qed.

Lemma linked_wrap_new (R : list nat -> list nat -> Prop) h s t : (forall s, R s s) -> linked R h -> linked R (wrap_new h s t).
Proof.
  intros HR H. unfold wrap_new. pose proof (linked_objects R h _ _ H (inside_new (hp_sizes h) s t)) as H'.
  refine (linked_wrapper R _ _ (new_object (length (hp_sizes h)) s t) H' _ s (HR s)).
  cbn [hp_objects]. rewrite nth_error_app2 by lia. rewrite Nat.sub_diag. reflexivity.
Qed.

Lemma linked_step (R : list nat -> list nat -> Prop) view h e :
  (forall s, R s s) -> keeps_the_order view -> allowed R view h e -> linked R h -> linked R (then_heap view h e).
Proof.
  intros HR Hv Ha H. assert (Hin : forall i o, nth_error (hp_objects h) i = Some o -> inside (hp_sizes h) o).
  { intros i o Ho. destruct H as [Hi _]. rewrite Forall_forall in Hi. apply Hi. eapply nth_error_In; exact Ho. }
  unfold then_heap. destruct e as [shape t|i start shape strides|i shape|i strides|i t|i|w|w|w shape|w x y|w shape|w|w]; cbn [wrapper_step].
  - apply linked_objects; [exact H|apply inside_new].
  - destruct (nth_error (hp_objects h) i) as [o|] eqn:Ho; [|exact H]. cbv zeta.
    destruct (ob_inside (hp_sizes h) _) eqn:E; [|exact H]. apply inside_check in E. cbn [fst].
    rewrite <- (app_nil_r (hp_sizes h)) in E |- *. apply linked_objects; assumption.
  - destruct (nth_error (hp_objects h) i) as [o|] eqn:Ho; [|exact H]. unfold with_object.
    destruct (change_shape view o shape) as [o'|] eqn:E; [|exact H]. cbn [fst].
    apply (linked_set R h i o); [exact H|exact Ho|exact (proj1 (inside_shape _ _ _ _ _ Hv (Hin _ _ Ho) E))|].
    intros s. exact (Ha o o' s Ho E).
  - destruct (nth_error (hp_objects h) i) as [o|] eqn:Ho; [|exact H]. unfold with_object, change_strides.
    destruct (ob_inside (hp_sizes h) _) eqn:E; [|exact H]. apply inside_check in E. cbn [fst].
    apply (linked_set R h i o); [exact H|exact Ho|exact E|]. intros s Hs. exact Hs.
  - destruct (nth_error (hp_objects h) i) as [o|] eqn:Ho; [|exact H]. unfold with_object.
    destruct (change_type o t) as [o'|] eqn:E; [|exact H]. cbn [fst].
    apply (linked_set R h i o); [exact H|exact Ho|exact (proj1 (inside_type _ _ _ _ (Hin _ _ Ho) E))|].
    intros s. exact (Ha o o' s Ho E).
  - destruct (nth_error (hp_objects h) i) as [o|] eqn:Ho; [|exact H]. cbn [fst]. apply (linked_wrapper R h i o); auto.
  - exact H.
  - exact H.
  - destruct (wrapped h w) as [[wr o]|] eqn:E; [|exact H]. apply wrapped_is in E as (_ & i & _ & Ho).
    destruct (Nat.eqb_spec (prod shape) (prod (ob_shape o))) as [Hp|]; [|exact H].
    destruct (change_shape view o shape) as [o'|] eqn:E; cbn [fst].
    + destruct (inside_shape _ _ _ _ _ Hv (Hin _ _ Ho) E) as (H1 & _ & H2 & _). apply linked_replace; [exact H|exact H1|]. rewrite H2. apply HR.
    + apply linked_replace; [|apply inside_new|apply HR]. destruct H as [Hi Hw]. split; [|exact Hw].
      eapply Forall_impl; [|exact Hi]. intros a. apply inside_more.
  - destruct (wrapped h w) as [[wr o]|] eqn:E; [|exact H]. apply wrapped_is in E as (_ & i & _ & Ho).
    destruct ((x <? length (ob_shape o)) && (y <? length (ob_shape o))) eqn:E; [|exact H]. apply andb_prop in E as [E1 E2].
    apply Nat.ltb_lt in E1, E2. cbn [fst]. apply linked_replace; [exact H| |apply HR]. apply inside_swap; auto. exact (Hin _ _ Ho).
  - destruct (wrapped h w) as [[wr o]|] eqn:E; [|exact H]. apply linked_wrap_new; assumption.
  - destruct (wrapped h w) as [[wr o]|] eqn:E; [|exact H]. apply linked_wrap_new; assumption.
  - destruct (nth_error (hp_wrappers h) w) as [wr|] eqn:E; [|exact H]. apply linked_destroy, H.
Qed.

Lemma linked_run (R : list nat -> list nat -> Prop) view events :
  (forall s, R s s) -> keeps_the_order view ->
  (forall before e after, events = before ++ e :: after -> allowed R view (wrapper_run view before) e) ->
  linked R (wrapper_run view events).
Proof.
  intros HR Hv. induction events as [|e events IH] using rev_ind; intros Ha.
  - split; [constructor|]. intros [|w] wr i H; discriminate.
  - rewrite run_snoc. apply linked_step; [exact HR|exact Hv| |].
    + apply (Ha events e []). reflexivity.
    + apply IH. intros before e' after E. apply (Ha before e' (after ++ [e])). rewrite E, <- app_assoc. reflexivity.
Qed.

Lemma linked_any view events : keeps_the_order view -> linked (fun _ _ => True) (wrapper_run view events).
Proof.
  intros Hv. apply linked_run; [auto|exact Hv|]. intros before e after _. destruct e; cbn [allowed]; auto.
Qed.

Lemma type_same o t o' : change_type o t = Some o' -> item_bytes t = item_bytes (ob_type o) -> ob_shape o' = ob_shape o.
Proof. unfold change_type. intros H E. rewrite E, Nat.eqb_refl in H. inversion H. reflexivity. Qed.

Lemma linked_same view events : keeps_the_order view -> never_sets_shapes events -> keeps_item_sizes view events ->
  linked eq (wrapper_run view events).
Proof.
  intros Hv Hn Hk. apply linked_run; [reflexivity|exact Hv|]. intros before e after E. destruct e; cbn [allowed]; auto.
  - exfalso. apply (Hn o shape). rewrite E. apply in_app_iff. right. left. reflexivity.
  - intros x x' s Hx Hc ->. symmetry. apply (type_same _ _ _ Hc). exact (Hk before o t after x E Hx).
Qed.

Lemma linked_count view events : keeps_the_order view -> keeps_item_sizes view events ->
  linked (fun s s' => prod s = prod s') (wrapper_run view events).
Proof.
  intros Hv Hk. apply linked_run; [reflexivity|exact Hv|]. intros before e after E. destruct e; cbn [allowed]; auto.
  - intros x x' s Hx Hc ->. unfold change_shape in Hc. destruct (Nat.eqb_spec (prod shape) (prod (ob_shape x))) as [Hp|]; [|discriminate].
    destruct (view _ _ _); [|discriminate]. inversion Hc; subst. cbn. congruence.
  - intros x x' s Hx Hc ->. f_equal. symmetry. apply (type_same _ _ _ Hc). exact (Hk before o t after x E Hx).
Qed.

(** * Shapes *)

Lemma shape_known view h w wr : nth_error (hp_wrappers h) w = Some wr -> asked view h (AskShape w) = ShapeIs (wr_shape wr).
Proof. intros H. unfold asked. cbn [wrapper_step snd]. rewrite H. reflexivity. Qed.

Lemma same_shape view events w o :
  keeps_the_order view -> never_sets_shapes events -> keeps_item_sizes view events ->
  array_is (wrapper_run view events) w o ->
  asked view (wrapper_run view events) (AskShape w) = ShapeIs (ob_shape o).
Proof.
  intros Hv Hn Hk (wr & i & H1 & H2 & H3). rewrite (shape_known _ _ _ _ H1). f_equal.
  destruct (proj2 (linked_same view events Hv Hn Hk) w wr i H1 H2) as (o' & H4 & H5). congruence.
Qed.

Lemma shape_stays view h e w shape :
  asked view h (AskShape w) = ShapeIs shape -> ~ gives_another_array e w ->
  asked view (then_heap view h e) (AskShape w) = ShapeIs shape.
Proof.
  unfold asked at 1. cbn [wrapper_step snd]. destruct (nth_error (hp_wrappers h) w) as [wr|] eqn:E; [|discriminate].
  intros H Hg. inversion H; subst shape; clear H.
  assert (G : forall h', nth_error (hp_wrappers h') w = Some wr -> asked view h' (AskShape w) = ShapeIs (wr_shape wr)) by (intros h'; apply shape_known).
  assert (Hlt : w < length (hp_wrappers h)) by (apply nth_error_Some; congruence).
  unfold then_heap. destruct e as [shape t|i start shape strides|i shape|i strides|i t|i|w'|w'|w' shape|w' x y|w' shape|w'|w']; cbn [wrapper_step gives_another_array] in *.
  - apply G, E.
  - destruct (nth_error (hp_objects h) i); [|apply G, E]. cbv zeta. destruct (ob_inside _ _); apply G, E.
  - destruct (nth_error (hp_objects h) i) as [o|]; [|apply G, E]. unfold with_object. destruct (change_shape _ _ _); apply G, E.
  - destruct (nth_error (hp_objects h) i) as [o|]; [|apply G, E]. unfold with_object. destruct (change_strides _ _ _); apply G, E.
  - destruct (nth_error (hp_objects h) i) as [o|]; [|apply G, E]. unfold with_object. destruct (change_type _ _); apply G, E.
  - destruct (nth_error (hp_objects h) i) as [o|]; apply G; [|exact E]. cbn [fst hp_wrappers]. rewrite nth_error_app1 by exact Hlt. exact E.
  - apply G, E.
  - apply G, E.
  - destruct (wrapped h w') as [[wr' o]|]; [|apply G, E]. destruct (_ =? _); [|apply G, E].
    destruct (change_shape _ _ _); apply G; cbn [fst replace_array hp_wrappers]; rewrite nth_error_set_other by congruence; exact E.
  - destruct (wrapped h w') as [[wr' o]|]; [|apply G, E]. destruct (_ && _); [|apply G, E].
    apply G; cbn [fst replace_array hp_wrappers]; rewrite nth_error_set_other by congruence; exact E.
  - destruct (wrapped h w') as [[wr' o]|]; [|apply G, E]. apply G. cbn [fst wrap_new hp_wrappers]. rewrite nth_error_app1 by exact Hlt. exact E.
  - destruct (wrapped h w') as [[wr' o]|]; [|apply G, E]. apply G. cbn [fst wrap_new hp_wrappers]. rewrite nth_error_app1 by exact Hlt. exact E.
  - destruct (nth_error (hp_wrappers h) w') as [wr'|] eqn:E'; [|apply G, E]. cbn [fst]. destruct (Nat.eq_dec w' w) as [->|Hne].
    + rewrite E in E'. inversion E'; subst wr'. unfold asked. cbn [wrapper_step snd hp_wrappers]. rewrite nth_error_set_same by exact Hlt. reflexivity.
    + apply G. cbn [hp_wrappers]. rewrite nth_error_set_other by congruence. exact E.
Qed.

Lemma reshape_shape view h w shape :
  asked view h (DoReshape w shape) = Finished ->
  asked view (then_heap view h (DoReshape w shape)) (AskShape w) = ShapeIs shape.
Proof.
  unfold asked at 1, then_heap. cbn [wrapper_step]. destruct (wrapped h w) as [[wr o]|] eqn:E; [|discriminate].
  apply wrapped_is in E as (H1 & i & _ & Ho). assert (Hlt : w < length (hp_wrappers h)) by (apply nth_error_Some; congruence).
  destruct (_ =? _); [|discriminate]. intros _. destruct (change_shape _ _ _); unfold asked; cbn [wrapper_step fst snd replace_array hp_wrappers];
    rewrite nth_error_set_same by exact Hlt; reflexivity.
Qed.

Lemma swap_exchanged x y l : x < length l -> y < length l -> exchanged x y l (swap_nth x y l).
Proof.
  intros Hx Hy k. unfold swap_nth. destruct (nth_error l x) as [a|] eqn:Ex; [|apply nth_error_None in Ex; lia].
  destruct (nth_error l y) as [b|] eqn:Ey; [|apply nth_error_None in Ey; lia]. rewrite !nth_error_set_nth, !set_nth_length.
  rewrite (proj2 (Nat.ltb_lt _ _) Hx), (proj2 (Nat.ltb_lt _ _) Hy), !andb_true_r.
  destruct (Nat.eqb_spec k y); destruct (Nat.eqb_spec k x); congruence.
Qed.

Lemma swap_shape view events w x y shape :
  keeps_the_order view -> never_sets_shapes events -> keeps_item_sizes view events ->
  asked view (wrapper_run view events) (AskShape w) = ShapeIs shape ->
  asked view (wrapper_run view events) (DoSwapAxes w x y) = Finished ->
  exists shape', asked view (then_heap view (wrapper_run view events) (DoSwapAxes w x y)) (AskShape w) = ShapeIs shape'
      /\ exchanged x y shape shape'.
Proof.
  intros Hv Hn Hk Hs. set (h := wrapper_run view events) in *. unfold asked at 1, then_heap. cbn [wrapper_step].
  destruct (wrapped h w) as [[wr o]|] eqn:E; [|discriminate]. apply wrapped_is in E as (H1 & i & H2 & Ho).
  assert (Ha : array_is h w o) by (exists wr, i; auto). assert (Hlt : w < length (hp_wrappers h)) by (apply nth_error_Some; congruence).
  pose proof (same_shape view events w o Hv Hn Hk Ha) as Hs'. fold h in Hs'. rewrite Hs in Hs'. inversion Hs'; subst shape.
  destruct (_ && _) eqn:Eb; [|discriminate]. intros _. unfold asked; cbn [wrapper_step fst snd replace_array hp_wrappers].
  rewrite nth_error_set_same by exact Hlt. eexists. split; [reflexivity|]. apply andb_prop in Eb as [E1 E2]. apply Nat.ltb_lt in E1, E2.
  apply swap_exchanged; assumption.
Qed.

(** * New wrappers *)

Lemma last_one {A} (l : list A) x : nth_error (l ++ [x]) (length l) = Some x.
Proof. rewrite nth_error_app2 by lia. rewrite Nat.sub_diag. reflexivity. Qed.

Lemma wrap_shape view h i o : nth_error (hp_objects h) i = Some o ->
  asked view (then_heap view h (Wrap i)) (AskShape (length (hp_wrappers h))) = ShapeIs (ob_shape o).
Proof.
  intros H. unfold then_heap, asked. cbn [wrapper_step]. rewrite H. cbn [fst snd hp_wrappers]. rewrite last_one. reflexivity.
Qed.

Lemma wrap_new_array h shape t :
  array_is (wrap_new h shape t) (length (hp_wrappers h)) (new_object (length (hp_sizes h)) shape t).
Proof.
  exists (mk_wrapper (Some (length (hp_objects h))) shape), (length (hp_objects h)). unfold wrap_new. cbn [hp_wrappers hp_objects].
  rewrite !last_one. repeat split.
Qed.

Lemma create_shape view h w shape : asked view h (DoCreate w shape) = Finished ->
  asked view (then_heap view h (DoCreate w shape)) (AskShape (length (hp_wrappers h))) = ShapeIs shape
  /\ exists o, array_is (then_heap view h (DoCreate w shape)) (length (hp_wrappers h)) o /\ ob_shape o = shape.
Proof.
  unfold asked at 1, then_heap. cbn [wrapper_step]. destruct (wrapped h w) as [[wr o]|]; [|discriminate]. intros _. cbn [fst]. split.
  - unfold asked. cbn [wrapper_step snd wrap_new hp_wrappers]. rewrite last_one. reflexivity.
  - eexists. split; [apply wrap_new_array|reflexivity].
Qed.

Lemma copy_shape view h w o : array_is h w o ->
  asked view (then_heap view h (DoCopy w)) (AskShape (length (hp_wrappers h))) = ShapeIs (ob_shape o)
  /\ exists o', array_is (then_heap view h (DoCopy w)) (length (hp_wrappers h)) o'
     /\ ob_shape o' = ob_shape o /\ ob_type o' = ob_type o /\ ob_buffer o' = length (hp_sizes h).
Proof.
  intros Ha. destruct (array_is_wrapped _ _ _ Ha) as (wr & E). unfold then_heap. cbn [wrapper_step]. rewrite E. cbn [fst]. split.
  - unfold asked. cbn [wrapper_step snd wrap_new hp_wrappers]. rewrite last_one. reflexivity.
  - eexists. split; [apply wrap_new_array|repeat split].
Qed.

(** * Data *)

Lemma contiguous_items shape e : forall strides, length strides = length shape -> existsb (Nat.eqb 0) shape = false ->
  np_contiguous_loop (rev (combine shape strides)) e = true ->
  forall idx, in_bounds shape idx -> np_distance strides idx = (e * Z.of_nat (ravel shape idx))%Z.
Proof.
  induction shape as [|n shape IH]; intros [|s strides] Hl Hz H idx Hb; cbn [length] in Hl; try discriminate.
  - inversion Hb; subst. cbn. lia.
  - cbn [existsb] in Hz. apply orb_false_elim in Hz as [Hn Hz]. cbn [combine rev] in H.
    rewrite contiguous_snoc, map_rev, prod_rev in H. apply andb_prop in H as [H1 H2].
    assert (E : map fst (combine shape strides) = shape).
    { assert (Hl' : length strides = length shape) by lia. clear -Hl'. revert strides Hl'.
      induction shape as [|x shape IH]; intros [|y strides] Hl; cbn in *; try discriminate; [reflexivity|]. rewrite IH; congruence. }
    rewrite E in H2. inversion Hb as [|? i ? idx' Hi Hb']; subst. cbn [np_distance ravel].
    rewrite (IH strides ltac:(lia) Hz H1 idx' Hb'). apply orb_prop in H2 as [H2|H2].
    + apply Nat.eqb_eq in H2. subst n. assert (i = 0) by lia. subst i. lia.
    + apply Z.eqb_eq in H2. subst s. lia.
Qed.

Lemma data_read view events w buffer start :
  keeps_the_order view -> asked view (wrapper_run view events) (AskData w) = PointerTo buffer start ->
  exists o, array_is (wrapper_run view events) w o
    /\ forall idx, in_bounds (ob_shape o) idx ->
       let place := (start + 8 * Z.of_nat (offset (ob_shape o) idx))%Z in
       ob_buffer o = buffer /\ ob_address o idx = place /\ bytes_exist (wrapper_run view events) buffer place 8.
Proof.
  intros Hv. set (h := wrapper_run view events). unfold asked. cbn [wrapper_step snd]. destruct (wrapped h w) as [[wr o]|] eqn:E; [|discriminate].
  apply wrapped_is in E as (H1 & i & H2 & Ho). destruct (ob_c_contiguous o) eqn:Ec; [|discriminate].
  destruct (ob_type o) eqn:Et; [|discriminate]. intros H; inversion H; subst buffer start; clear H.
  exists o. split; [exists wr, i; auto|]. intros idx Hb. set (place := (ob_start o + 8 * Z.of_nat (offset (ob_shape o) idx))%Z). split; [reflexivity|].
  pose proof (linked_any view events Hv) as [Hi _]. fold h in Hi. rewrite Forall_forall in Hi.
  destruct (Hi o (nth_error_In _ _ Ho)) as (Hl & size & Hs & Hin). specialize (Hin idx Hb).
  assert (Ep : ob_address o idx = place).
  { unfold place, ob_address, ob_c_contiguous in *. rewrite Et in Ec. cbn [item_bytes] in Ec. rewrite offset_ravel by exact Hb.
    destruct (existsb (Nat.eqb 0) (ob_shape o)) eqn:Hz; [exfalso; exact (zero_shape _ _ Hz Hb)|]. cbn [orb] in Ec.
    rewrite (contiguous_items _ _ _ Hl Hz Ec _ Hb). reflexivity. }
  split; [exact Ep|]. exists size. split; [exact Hs|]. rewrite Et in Hin. cbn [item_bytes] in Hin. rewrite Ep in Hin. split; [apply Hin|].
  replace (Z.of_nat 8) with 8%Z by reflexivity. change (Z.of_nat 8) with 8%Z in Hin. apply Hin.
Qed.

Lemma data_count view events w o shape :
  keeps_the_order view -> keeps_item_sizes view events -> array_is (wrapper_run view events) w o ->
  asked view (wrapper_run view events) (AskShape w) = ShapeIs shape -> prod shape = prod (ob_shape o).
Proof.
  intros Hv Hk (wr & i & H1 & H2 & H3) Hs. rewrite (shape_known _ _ _ _ H1) in Hs. inversion Hs; subst.
  destruct (proj2 (linked_count view events Hv Hk) w wr i H1 H2) as (o' & H4 & H5). congruence.
Qed.

Lemma data_inside view events w buffer start shape :
  keeps_the_order view -> keeps_item_sizes view events ->
  asked view (wrapper_run view events) (AskData w) = PointerTo buffer start ->
  asked view (wrapper_run view events) (AskShape w) = ShapeIs shape ->
  exists o, array_is (wrapper_run view events) w o /\ ob_buffer o = buffer
    /\ forall k, k < prod shape ->
       bytes_exist (wrapper_run view events) buffer (start + 8 * Z.of_nat k) 8
       /\ exists idx, in_bounds (ob_shape o) idx /\ offset (ob_shape o) idx = k /\ ob_address o idx = (start + 8 * Z.of_nat k)%Z.
Proof.
  intros Hv Hk Hd Hs. pose proof (data_read view events w buffer start Hv Hd) as (o & Ha & H).
  exists o. split; [exact Ha|]. split.
  { unfold asked in Hd. cbn [wrapper_step snd] in Hd. destruct (array_is_wrapped _ _ _ Ha) as (wr & E). rewrite E in Hd.
    destruct (ob_c_contiguous o); [|discriminate]. destruct (ob_type o); [|discriminate]. inversion Hd. reflexivity. }
  intros k Hlt. rewrite (data_count view events w o shape Hv Hk Ha Hs) in Hlt. destruct (index_at _ _ Hlt) as (idx & Hb & <-).
  destruct (H idx Hb) as (_ & H1 & H2). rewrite (offset_ravel _ _ Hb) in H1, H2. split; [exact H2|]. exists idx. split; [exact Hb|].
  split; [exact (offset_ravel _ _ Hb)|exact H1].
Qed.
