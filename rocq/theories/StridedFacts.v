(* The arrays of Array.v and the ones of Strided.v answer alike *)
From Coq Require Import Permutation.
From Verif Require Import Base BaseFacts LayoutFacts Labels Array Block Tensor Spec SpecTensor ArrayFacts ComponentsFacts Strided.
Local Open Scope list_scope.
Local Open Scope nat_scope.

(** * Positions *)

Lemma NoDup_map_inj {A B} (f : A -> B) l x y : NoDup (map f l) -> In x l -> In y l -> f x = f y -> x = y.
Proof.
  induction l as [|z l IH]; cbn [map In]; intros Hn Hx Hy E; [destruct Hx|]. inversion Hn as [|? ? Hz Hn']; subst.
  destruct Hx as [->|Hx], Hy as [->|Hy]; try reflexivity.
  - exfalso. apply Hz. rewrite E. apply in_map. assumption.
  - exfalso. apply Hz. rewrite <- E. apply in_map. assumption.
  - apply IH; assumption.
Qed.

Lemma NoDup_map_inj_in {A B} (f : A -> B) l : (forall x y, In x l -> In y l -> f x = f y -> x = y) -> NoDup l -> NoDup (map f l).
Proof.
  intros Hf H. induction H as [|x l Hx H IH]; cbn [map]; constructor.
  - intros Hin. apply in_map_iff in Hin as (y & E & Hy). apply Hx. rewrite (Hf x y); auto with datatypes.
  - apply IH. intros y z Hy Hz. apply Hf; right; assumption.
Qed.

Lemma positions_offsets shape : forall strides, length strides = length shape ->
  map (position strides) (all_indices shape) = offsets (combine shape strides).
Proof.
  induction shape as [|n shape IH]; intros [|s strides] H; cbn [length] in H; try lia; [reflexivity|].
  cbn [all_indices combine offsets]. rewrite map_flat_map. apply flat_map_ext. intros i.
  rewrite map_map, <- IH by lia. rewrite map_map. apply map_ext. intros idx. reflexivity.
Qed.

Lemma all_indices_NoDup shape : NoDup (all_indices shape).
Proof.
  apply (NoDup_map_inv (position (row_major_strides shape))).
  rewrite positions_offsets by apply row_major_length. rewrite row_major_offsets. apply seq_NoDup.
Qed.

Lemma elements_offsets shape strides buffer : length strides = length shape ->
  st_elements (mk_strided shape strides buffer) = map (fun o => nth o buffer 0%Z) (offsets (combine shape strides)).
Proof. intros H. rewrite <- positions_offsets by assumption. unfold st_elements, st_get. rewrite map_map. reflexivity. Qed.

Lemma no_gap_length a : no_gap a -> length (st_buffer a) = prod (st_shape a).
Proof.
  intros [_ H]. apply Permutation_length in H. rewrite map_length, seq_length, all_indices_length in H. lia.
Qed.

Lemma no_gap_position a idx : no_gap a -> in_bounds (st_shape a) idx -> position (st_strides a) idx < length (st_buffer a).
Proof.
  intros [_ H] Hb. assert (Hin : In (position (st_strides a) idx) (seq 0 (length (st_buffer a)))).
  { eapply Permutation_in; [exact H|]. apply in_map, all_indices_In. assumption. }
  apply in_seq in Hin. lia.
Qed.

Lemma no_gap_inj a idx idx' : no_gap a -> in_bounds (st_shape a) idx -> in_bounds (st_shape a) idx' ->
  position (st_strides a) idx = position (st_strides a) idx' -> idx = idx'.
Proof.
  intros [_ H] Hb Hb' E. assert (Hn : NoDup (map (position (st_strides a)) (all_indices (st_shape a)))).
  { eapply Permutation_NoDup; [symmetry; exact H|apply seq_NoDup]. }
  eapply NoDup_map_inj; [exact Hn|apply all_indices_In; assumption|apply all_indices_In; assumption|exact E].
Qed.

Lemma no_gap_offsets shape strides buffer : length strides = length shape ->
  (no_gap (mk_strided shape strides buffer) <-> Permutation (offsets (combine shape strides)) (seq 0 (length buffer))).
Proof.
  intros Hl. unfold no_gap. cbn [st_shape st_strides st_buffer]. rewrite positions_offsets by assumption. tauto.
Qed.

Lemma elements_tabulate a : mk_nd (st_shape a) (st_elements a) = nd_tabulate (st_shape a) (st_get a).
Proof. reflexivity. Qed.

Lemma nd_get_elements a idx : in_bounds (st_shape a) idx -> nd_get (mk_nd (st_shape a) (st_elements a)) idx = st_get a idx.
Proof. intros H. rewrite elements_tabulate. apply nd_get_tabulate. assumption. Qed.

Lemma st_elements_length a : length (st_elements a) = prod (st_shape a).
Proof. unfold st_elements. rewrite map_length. apply all_indices_length. Qed.

(* a buffer in row-major order *)
Lemma standard_elements shape strides buffer : length strides = length shape -> length buffer = prod shape ->
  offsets (combine shape strides) = seq 0 (prod shape) -> st_elements (mk_strided shape strides buffer) = buffer.
Proof.
  intros Hl Hb E. rewrite elements_offsets, E, <- Hb by assumption. clear. induction buffer as [|x b IH] using rev_ind; [reflexivity|].
  rewrite app_length. cbn [length]. rewrite Nat.add_1_r, seq_S, map_app. cbn [map Nat.add].
  rewrite app_nth2, Nat.sub_diag by lia. cbn [nth]. f_equal. rewrite <- IH at 2. apply map_ext_in. intros i Hi. apply in_seq in Hi.
  apply app_nth1. lia.
Qed.

Lemma default_no_gap shape buffer : length buffer = prod shape -> no_gap (mk_strided shape (default_strides shape) buffer).
Proof.
  intros H. apply no_gap_offsets; [apply default_strides_length|]. rewrite default_offsets, H. reflexivity.
Qed.

Lemma default_elements shape buffer : length buffer = prod shape ->
  st_elements (mk_strided shape (default_strides shape) buffer) = buffer.
Proof. intros H. apply standard_elements; [apply default_strides_length|assumption|apply default_offsets]. Qed.

(** * Create, data *)

Lemma create_as_array a shape : array_create (as_array a) shape = Ok (as_array (st_create shape)).
Proof.
  unfold array_create, as_array, st_create, call, with_layout. cbn [a_kind a_callbacks st_shape st_strides].
  rewrite default_elements by apply repeat_length. reflexivity.
Qed.

Lemma create_no_gap shape : no_gap (st_create shape).
Proof. apply default_no_gap, repeat_length. Qed.

Lemma created_as_array shape : no_gap (st_create shape) /\ as_array (st_create shape) = rust_ndarray (nd_zeros shape).
Proof.
  split; [apply create_no_gap|]. unfold as_array, st_create. cbn [st_shape st_strides].
  rewrite default_elements by apply repeat_length. reflexivity.
Qed.

Lemma data_as_array a : no_gap a ->
  match array_data (as_array a) with Ok data => Data data | _ => Failed end
  = match st_data a with Some data => Data data | None => Failed end.
Proof.
  intros H. unfold array_data, as_array, st_data, call. cbn [array_shape call a_kind a_nd a_strides nd_shape bind].
  destruct (is_standard_layout (st_shape a) (st_strides a)) eqn:E; [|reflexivity].
  rewrite <- (no_gap_length a H), firstn_all. f_equal. cbn [nd_data]. destruct a as [shape strides buffer].
  pose proof H as [Hl _]. cbn [st_shape st_strides] in *. apply standard_elements; try assumption.
  - apply (no_gap_length _ H).
  - apply standard_offsets; assumption.
Qed.

(** * Reshape *)

Lemma to_shape_elements shape a view : no_gap a -> st_to_shape shape a = Some view ->
  no_gap view /\ st_shape view = shape /\ st_elements view = st_elements a.
Proof.
  intros Hg H. pose proof Hg as [Hl Hp]. pose proof (no_gap_length a Hg) as Hb. unfold st_to_shape in H.
  destruct (prod shape =? prod (st_shape a)) eqn:E; [|discriminate]. apply Nat.eqb_eq in E.
  destruct (prod (st_shape a) =? 0) eqn:E0.
  - apply Nat.eqb_eq in E0. inversion H; subst view. split; [apply default_no_gap; congruence|]. split; [reflexivity|].
    assert (E1 : st_elements a = []) by (apply length_zero_iff_nil; rewrite st_elements_length; assumption).
    rewrite E1. apply length_zero_iff_nil. rewrite st_elements_length. cbn [st_shape]. congruence.
  - apply Nat.eqb_neq in E0. destruct (reshape_dim (st_shape a) (st_strides a) shape) as [strides|[|]] eqn:Er; [|discriminate|].
    + inversion H; subst view. unfold reshape_dim in Er. apply reshape_dim_c_sound in Er.
      * destruct Er as [L Eo]. split; [|split; [reflexivity|]].
        -- apply no_gap_offsets; [assumption|]. rewrite Eo, <- positions_offsets by assumption. exact Hp.
        -- rewrite elements_offsets, Eo by assumption. destruct a as [sh st b]. cbn [st_shape st_strides st_buffer] in *.
           rewrite elements_offsets by assumption. reflexivity.
      * rewrite combine_fst by assumption. apply prod_nonzero. assumption.
      * apply prod_nonzero. congruence.
    + inversion H; subst view.
      assert (L : length (st_elements a) = prod shape) by (rewrite st_elements_length; congruence).
      split; [apply default_no_gap; assumption|]. split; [reflexivity|]. apply default_elements. assumption.
Qed.

Lemma to_owned_elements view : no_gap view ->
  no_gap (st_to_owned view) /\ st_shape (st_to_owned view) = st_shape view /\ st_elements (st_to_owned view) = st_elements view.
Proof.
  intros H. unfold st_to_owned. destruct (is_contiguous _ _).
  - rewrite <- (no_gap_length view H), firstn_all. destruct view as [sh st b]. auto.
  - split; [apply default_no_gap, st_elements_length|]. split; [reflexivity|]. apply default_elements, st_elements_length.
Qed.

Lemma to_shape_owned_strides shape a view : no_gap a -> st_to_shape shape a = Some view ->
  to_shape_strides (st_shape a) (st_strides a) shape = Some (st_strides (st_to_owned view)).
Proof.
  intros Hg H. unfold st_to_shape in H. unfold to_shape_strides.
  destruct (prod shape =? prod (st_shape a)); [|discriminate].
  assert (Hd : forall b, st_strides (st_to_owned (mk_strided shape (default_strides shape) b)) = default_strides shape).
  { intros b. unfold st_to_owned. cbn [st_shape st_strides]. destruct (is_contiguous _ _); reflexivity. }
  destruct (prod (st_shape a) =? 0); [inversion H; subst view; rewrite Hd; reflexivity|].
  destruct (reshape_dim (st_shape a) (st_strides a) shape) as [strides|[|]]; [|discriminate|].
  - inversion H; subst view. unfold st_to_owned. cbn [st_shape st_strides]. destruct (is_contiguous _ _); reflexivity.
  - inversion H; subst view. rewrite Hd. reflexivity.
Qed.

Lemma to_shape_succeeds shape a : no_gap a -> prod shape = prod (st_shape a) -> exists view, st_to_shape shape a = Some view.
Proof.
  intros [Hl _] E. destruct (to_shape_defined (st_shape a) (st_strides a) shape Hl E) as [s Hs].
  unfold to_shape_strides in Hs. unfold st_to_shape. destruct (_ =? _); [|discriminate].
  destruct (_ =? _); [eauto|]. destruct (reshape_dim _ _ _) as [v|[|]]; [eauto|discriminate|eauto].
Qed.

Lemma reshape_as_array shape a : no_gap a ->
  no_gap (fst (st_reshape shape a))
  /\ array_reshape (as_array a) shape
     = (as_array (fst (st_reshape shape a)),
        if snd (st_reshape shape a) then Ok tt else callback_error OpReshape internal_error_status).
Proof.
  intros H. unfold array_reshape, st_reshape. cbn [a_kind as_array a_nd]. unfold nd_to_shape. cbn [nd_data].
  rewrite st_elements_length. destruct (prod shape =? prod (st_shape a)) eqn:E.
  - apply Nat.eqb_eq in E. destruct (to_shape_succeeds shape a H E) as [view Hv]. rewrite Hv. cbn [fst snd].
    destruct (to_shape_elements shape a view H Hv) as (G1 & G2 & G3).
    destruct (to_owned_elements view G1) as (O1 & O2 & O3). split; [exact O1|]. f_equal.
    unfold as_array, with_layout, reshaped_strides. cbn [a_kind a_nd nd_shape a_strides a_callbacks].
    rewrite (to_shape_owned_strides shape a view H Hv), O2, O3, G2, G3. reflexivity.
  - assert (Ev : st_to_shape shape a = None) by (unfold st_to_shape; rewrite E; reflexivity). rewrite Ev. cbn [fst snd].
    split; [apply create_no_gap|reflexivity].
Qed.

(** * Swap axes *)

Lemma nth_error_swap {A} i j (l : list A) k : i < length l -> j < length l ->
  nth_error (swap_nth i j l) k = nth_error l (if k =? j then i else if k =? i then j else k).
Proof.
  intros Hi Hj. unfold swap_nth. destruct (nth_error l i) as [x|] eqn:Ei; [|apply nth_error_None in Ei; lia].
  destruct (nth_error l j) as [y|] eqn:Ej; [|apply nth_error_None in Ej; lia].
  rewrite !nth_error_set_nth, set_nth_length, (proj2 (Nat.ltb_lt i _) Hi), (proj2 (Nat.ltb_lt j _) Hj), !andb_true_r.
  destruct (Nat.eqb_spec k j) as [->|]; [congruence|]. destruct (Nat.eqb_spec k i) as [->|]; congruence.
Qed.

Lemma swap_swap {A} i j (l : list A) : i < length l -> j < length l -> swap_nth i j (swap_nth i j l) = l.
Proof.
  intros Hi Hj. apply nth_error_ext. intros k. rewrite nth_error_swap by (rewrite swap_nth_length; assumption).
  rewrite nth_error_swap by assumption. f_equal.
  destruct (Nat.eqb_spec k j), (Nat.eqb_spec k i), (Nat.eqb_spec i j), (Nat.eqb_spec i i), (Nat.eqb_spec j j), (Nat.eqb_spec j i);
    try congruence; destruct (Nat.eqb_spec k j), (Nat.eqb_spec k i); congruence.
Qed.

Lemma nth_error_combine {A B} (l : list A) (l' : list B) k :
  nth_error (combine l l') k = match nth_error l k, nth_error l' k with Some x, Some y => Some (x, y) | _, _ => None end.
Proof.
  revert l' k. induction l as [|x l IH]; intros [|y l'] [|k]; cbn; try reflexivity; [|apply IH].
  destruct (nth_error l k); reflexivity.
Qed.

Lemma combine_swap {A B} i j (l : list A) (l' : list B) : i < length l -> j < length l -> length l' = length l ->
  combine (swap_nth i j l) (swap_nth i j l') = swap_nth i j (combine l l').
Proof.
  intros Hi Hj E. apply nth_error_ext. intros k. rewrite nth_error_combine.
  rewrite !nth_error_swap by (rewrite ?combine_length; lia). rewrite nth_error_combine. reflexivity.
Qed.

Lemma position_sum strides : forall idx, length idx = length strides ->
  position strides idx = fold_right (fun si acc => snd si * fst si + acc) 0 (combine strides idx).
Proof. induction strides as [|s strides IH]; intros [|i idx] H; cbn in *; try lia. rewrite IH by lia. reflexivity. Qed.

Lemma sum_Permutation (l l' : list (nat * nat)) : Permutation l l' ->
  fold_right (fun si acc => snd si * fst si + acc) 0 l = fold_right (fun si acc => snd si * fst si + acc) 0 l'.
Proof. induction 1; cbn in *; lia. Qed.

Lemma position_swap i j strides idx : i < length strides -> j < length strides -> length idx = length strides ->
  position (swap_nth i j strides) (swap_nth i j idx) = position strides idx.
Proof.
  intros Hi Hj E. rewrite !position_sum by (rewrite ?swap_nth_length; assumption).
  rewrite combine_swap by assumption. apply sum_Permutation, swap_nth_Permutation.
Qed.

Lemma in_bounds_combine shape idx : in_bounds shape idx <-> length idx = length shape /\ Forall (fun ni => snd ni < fst ni) (combine shape idx).
Proof.
  unfold in_bounds. revert idx. induction shape as [|n shape IH]; intros [|i idx]; cbn [combine length].
  - split; [auto|constructor].
  - split; [intros H; inversion H|intros [H _]; discriminate].
  - split; [intros H; inversion H|intros [H _]; discriminate].
  - split.
    + intros H. inversion H; subst. apply IH in H5 as [L F]. split; [lia|]. constructor; assumption.
    + intros [L F]. inversion F; subst. constructor; [assumption|]. apply IH. split; [lia|assumption].
Qed.

Lemma in_bounds_swap i j shape idx : i < length shape -> j < length shape ->
  in_bounds shape idx -> in_bounds (swap_nth i j shape) (swap_nth i j idx).
Proof.
  intros Hi Hj H. apply in_bounds_combine in H as [L F]. apply in_bounds_combine. rewrite !swap_nth_length.
  split; [assumption|]. rewrite combine_swap by assumption. eapply Permutation_Forall; [|exact F].
  symmetry. apply swap_nth_Permutation.
Qed.

Lemma in_bounds_unswap i j shape idx : i < length shape -> j < length shape ->
  in_bounds (swap_nth i j shape) idx -> in_bounds shape (swap_nth i j idx).
Proof.
  intros Hi Hj H. rewrite <- (swap_swap i j shape Hi Hj). apply in_bounds_swap; rewrite ?swap_nth_length; assumption.
Qed.

Lemma all_indices_swap i j shape : i < length shape -> j < length shape ->
  Permutation (map (swap_nth i j) (all_indices shape)) (all_indices (swap_nth i j shape)).
Proof.
  intros Hi Hj. apply NoDup_Permutation; [|apply all_indices_NoDup|].
  - apply (NoDup_map_inv (swap_nth i j)). rewrite map_map.
    rewrite (map_ext_in _ (fun x => x)); [rewrite map_id; apply all_indices_NoDup|].
    intros idx Hin. apply all_indices_In, in_bounds_length in Hin. apply swap_swap; lia.
  - intros idx. rewrite in_map_iff, all_indices_In. split.
    + intros (idx' & <- & Hin). apply all_indices_In in Hin. apply in_bounds_swap; assumption.
    + intros Hb. exists (swap_nth i j idx). apply in_bounds_length in Hb as L. rewrite swap_nth_length in L.
      split; [apply swap_swap; lia|]. apply all_indices_In, in_bounds_unswap; assumption.
Qed.

Lemma swap_as_array i j a : no_gap a ->
  match st_swap_axes i j a with
  | Some a' => no_gap a' /\ array_swap_axes (as_array a) i j = (as_array a', Ok tt)
  | None => array_swap_axes (as_array a) i j = (as_array a, callback_error OpSwapAxes internal_error_status)
  end.
Proof.
  intros Hg. pose proof Hg as [Hl Hp]. unfold st_swap_axes, array_swap_axes, nd_swap_axes. cbn [a_kind as_array a_nd nd_shape].
  destruct ((i <? length (st_shape a)) && (j <? length (st_shape a))) eqn:E; [|reflexivity].
  rewrite andb_true_iff, !Nat.ltb_lt in E. destruct E as [Hi Hj]. split.
  - split; cbn [st_shape st_strides st_buffer]; [rewrite !swap_nth_length; assumption|].
    rewrite <- Hp. rewrite <- (Permutation_map _ (all_indices_swap i j (st_shape a) Hi Hj)). rewrite map_map.
    rewrite (map_ext_in _ (position (st_strides a))); [reflexivity|].
    intros idx Hin. apply all_indices_In, in_bounds_length in Hin. apply position_swap; lia.
  - unfold as_array, with_layout, nd_tabulate. cbn [a_kind a_callbacks st_shape st_strides a_strides]. do 3 f_equal.
    unfold st_elements. cbn [st_shape]. apply map_ext_in. intros idx Hin. apply all_indices_In in Hin as Hb.
    change (map (st_get a) (all_indices (st_shape a))) with (st_elements a).
    rewrite nd_get_elements by (apply in_bounds_unswap; assumption). unfold st_get. cbn [st_strides st_buffer]. f_equal.
    apply in_bounds_length in Hb as L. rewrite swap_nth_length in L.
    rewrite <- (position_swap i j) by (rewrite ?swap_nth_length; lia). rewrite swap_swap by lia. reflexivity.
Qed.

(** * Move samples *)

Section Writes.
  Context {X : Type} (pos : X -> nat) (val : X -> Z).
  Let write (b : list Z) (x : X) : list Z := set_nth b (pos x) (val x).

  Lemma writes_length l : forall b, length (fold_left write l b) = length b.
  Proof. induction l as [|x l IH]; intros b; [reflexivity|]. cbn [fold_left]. rewrite IH. apply set_nth_length. Qed.

  Lemma nth_set_nth (b : list Z) i j v : i < length b -> nth j (set_nth b i v) 0%Z = if j =? i then v else nth j b 0%Z.
  Proof.
    intros Hi. pose proof (nth_error_set_nth b i j v) as E. rewrite (proj2 (Nat.ltb_lt i _) Hi), andb_true_r in E.
    destruct (j =? i) eqn:Ej; [apply nth_error_nth; assumption|].
    destruct (nth_error b j) as [w|] eqn:Eb.
    - rewrite (nth_error_nth _ _ _ E). symmetry. apply nth_error_nth. assumption.
    - apply nth_error_None in E, Eb. rewrite !nth_overflow by assumption. reflexivity.
  Qed.

  Lemma writes_miss l : forall b q, (forall x, In x l -> pos x < length b) -> ~ In q (map pos l) ->
    nth q (fold_left write l b) 0%Z = nth q b 0%Z.
  Proof.
    induction l as [|x l IH]; intros b q Hl Hq; [reflexivity|]. cbn [fold_left map] in *. rewrite IH.
    - unfold write. rewrite nth_set_nth by (apply Hl; left; reflexivity).
      destruct (Nat.eqb_spec q (pos x)) as [->|]; [|reflexivity]. exfalso. apply Hq. left. reflexivity.
    - intros y Hy. unfold write. rewrite set_nth_length. apply Hl. right. assumption.
    - intros Hin. apply Hq. right. assumption.
  Qed.

  Lemma writes_hit l : forall b x, (forall x, In x l -> pos x < length b) -> NoDup (map pos l) -> In x l ->
    nth (pos x) (fold_left write l b) 0%Z = val x.
  Proof.
    induction l as [|y l IH]; intros b x Hl Hn Hx; [destruct Hx|]. cbn [fold_left map] in *. inversion Hn as [|? ? Hy Hn']; subst.
    assert (Hl' : forall z, In z l -> pos z < length (write b y)).
    { intros z Hz. unfold write. rewrite set_nth_length. apply Hl. right. assumption. }
    destruct Hx as [->|Hx]; [|apply IH; assumption].
    rewrite writes_miss by assumption. unfold write. rewrite nth_set_nth by (apply Hl; left; reflexivity).
    rewrite Nat.eqb_refl. reflexivity.
  Qed.
End Writes.

Lemma broadcast_bounds s : forall d idx, broadcastable s d = true -> in_bounds d idx -> in_bounds s (broadcast_index s d idx).
Proof.
  induction s as [|n s IH]; intros d idx H Hb; [constructor|]. destruct d as [|m d]; [discriminate|].
  inversion Hb as [|? i ? idx' Hi Hb']; subst. cbn [broadcastable broadcast_index] in *.
  apply andb_prop in H as [H H']. constructor; [|apply IH; assumption].
  destruct (Nat.eqb_spec n m) as [->|]; [assumption|]. cbn in H. apply Nat.eqb_eq in H. lia.
Qed.

Lemma in_bounds_rev shape idx : in_bounds shape idx -> in_bounds (rev shape) (rev idx).
Proof.
  induction 1 as [|n i shape idx Hi H IH]; [constructor|]. cbn [rev]. apply in_bounds_snoc. auto.
Qed.

Lemma move_one_as_array start stop input output m : no_gap input -> no_gap output -> 2 <= length (st_shape output) ->
  match st_move_one start stop input output m with
  | Some output' =>
      no_gap output' /\ st_shape output' = st_shape output /\ st_strides output' = st_strides output
      /\ nd_move_one start stop (mk_nd (st_shape input) (st_elements input)) (mk_nd (st_shape output) (st_elements output)) m
         = Some (mk_nd (st_shape output') (st_elements output'))
  | None =>
      nd_move_one start stop (mk_nd (st_shape input) (st_elements input)) (mk_nd (st_shape output) (st_elements output)) m = None
  end.
Proof.
  intros Hi Ho Hlen. unfold st_move_one, nd_move_one. cbn [nd_shape].
  destruct (st_shape input) as [|n_in in_shape] eqn:Ei; [reflexivity|].
  destruct (st_shape output) as [|n_out out_shape] eqn:Eo; [reflexivity|].
  destruct (_ && _) eqn:E; [|reflexivity]. rewrite !andb_true_iff, !Nat.ltb_lt, !Nat.leb_le in E.
  destruct E as ((((Hmi & Hmo) & Hstart) & Hstop) & Hbr).
  cbn [length] in Hlen. destruct (exists_last (l := out_shape)) as (cs & P & EP); [intros ->; cbn in Hlen; lia|]. subst out_shape.
  rewrite last_last in Hstart, Hstop. rewrite set_last_app in *.
  set (pos := fun local => position (st_strides output) (sm_output m :: set_last local (last local 0 + start))).
  set (val := fun local => st_get input (sm_input m :: rev (broadcast_index (rev in_shape) (rev (cs ++ [stop - start])) (rev local)))).
  change (fold_left _ (all_indices (cs ++ [stop - start])) (st_buffer output))
    with (fold_left (fun b x => set_nth b (pos x) (val x)) (all_indices (cs ++ [stop - start])) (st_buffer output)).
  set (buffer := fold_left _ _ _).
  assert (Hbounds : forall local, in_bounds (cs ++ [stop - start]) local ->
            in_bounds (st_shape output) (sm_output m :: set_last local (last local 0 + start))).
  { intros local Hb. apply in_bounds_snoc_inv in Hb as (js & k & -> & Hjs & Hk). rewrite Eo, last_last, set_last_app.
    constructor; [assumption|]. apply in_bounds_snoc. split; [assumption|lia]. }
  assert (Hpos : forall local, In local (all_indices (cs ++ [stop - start])) -> pos local < length (st_buffer output)).
  { intros local Hin. apply all_indices_In in Hin. apply no_gap_position; [assumption|]. apply Hbounds. assumption. }
  assert (Hnd : NoDup (map pos (all_indices (cs ++ [stop - start])))).
  { apply NoDup_map_inj_in; [|apply all_indices_NoDup]. intros x y Hx Hy Exy. apply all_indices_In in Hx, Hy.
    apply (no_gap_inj output _ _ Ho (Hbounds x Hx) (Hbounds y Hy)) in Exy.
    apply in_bounds_snoc_inv in Hx as (js & k & -> & _). apply in_bounds_snoc_inv in Hy as (js' & k' & -> & _).
    rewrite !last_last, !set_last_app in Exy. inversion Exy as [E']. apply app_inj_tail in E' as [-> E'].
    f_equal. f_equal. lia. }
  assert (Hlb : length buffer = length (st_buffer output)) by apply writes_length.
  split; [split; cbn [st_shape st_strides st_buffer]; [rewrite <- Eo; apply (proj1 Ho)|rewrite Hlb, <- Eo; apply (proj2 Ho)]|].
  split; [reflexivity|]. split; [reflexivity|]. f_equal. unfold nd_tabulate. cbn [nd_shape st_shape]. f_equal.
  unfold st_elements at 3. cbn [st_shape]. apply map_ext_in. intros idx Hin. apply all_indices_In in Hin as Hb.
  inversion Hb as [|? i ? rest Hiout Hrest]; subst. apply in_bounds_snoc_inv in Hrest as (js & k & -> & Hjs & Hk).
  cbn [hd tl]. rewrite last_last, set_last_app. match goal with |- _ = st_get ?a ?i => change (st_get a i) with (nth (position (st_strides output) i) buffer 0%Z) end.
  destruct ((i =? sm_output m) && (start <=? k) && (k <? stop)) eqn:Ec.
  - rewrite !andb_true_iff, Nat.eqb_eq, Nat.leb_le, Nat.ltb_lt in Ec. destruct Ec as ((-> & Hk1) & Hk2).
    assert (Hloc : in_bounds (cs ++ [stop - start]) (js ++ [k - start])) by (apply in_bounds_snoc; split; [assumption|lia]).
    assert (Ep : position (st_strides output) (sm_output m :: js ++ [k]) = pos (js ++ [k - start])).
    { unfold pos. rewrite last_last, set_last_app. do 4 f_equal. lia. }
    rewrite Ep. unfold buffer. rewrite (writes_hit pos val) by (try assumption; apply all_indices_In; assumption).
    unfold val. rewrite <- Ei. apply nd_get_elements. rewrite Ei. constructor; [assumption|].
    rewrite <- (rev_involutive in_shape) at 1. apply in_bounds_rev. apply broadcast_bounds; [assumption|].
    apply in_bounds_rev. assumption.
  - rewrite <- Eo. rewrite nd_get_elements by (rewrite Eo; assumption). unfold buffer. rewrite (writes_miss pos val); [reflexivity|assumption|].
    intros Hin'. apply in_map_iff in Hin' as (local & Epos & Hlocal). apply all_indices_In in Hlocal.
    apply (no_gap_inj output _ _ Ho (Hbounds local Hlocal)) in Epos; [|rewrite Eo; assumption].
    apply in_bounds_snoc_inv in Hlocal as (js' & k' & -> & Hjs' & Hk'). rewrite last_last, set_last_app in Epos.
    inversion Epos as [[E1 E2]]. rewrite <- E1 in Ec. apply app_inj_tail in E2 as [-> <-].
    rewrite Nat.eqb_refl, (proj2 (Nat.leb_le start (k' + start))), (proj2 (Nat.ltb_lt (k' + start) stop)) in Ec by lia.
    discriminate.
Qed.

Lemma move_loop_as_array start stop input : no_gap input -> forall samples output, no_gap output -> 2 <= length (st_shape output) ->
  match st_move_loop start stop input output samples with
  | Some output' =>
      no_gap output' /\ st_strides output' = st_strides output
      /\ nd_move_loop start stop (mk_nd (st_shape input) (st_elements input)) (mk_nd (st_shape output) (st_elements output)) samples
         = Some (mk_nd (st_shape output') (st_elements output'))
  | None =>
      nd_move_loop start stop (mk_nd (st_shape input) (st_elements input)) (mk_nd (st_shape output) (st_elements output)) samples = None
  end.
Proof.
  intros Hi. induction samples as [|m samples IH]; intros output Ho Hl; cbn [st_move_loop nd_move_loop]; [auto|].
  pose proof (move_one_as_array start stop input output m Hi Ho Hl) as H.
  destruct (st_move_one start stop input output m) as [o1|]; [|rewrite H; reflexivity].
  destruct H as (H1 & H2 & H3 & ->). specialize (IH o1 H1 ltac:(rewrite H2; assumption)).
  destruct (st_move_loop start stop input o1 samples); [|exact IH]. rewrite <- H3. exact IH.
Qed.

Lemma move_as_array input output samples start stop : no_gap input -> no_gap output ->
  match st_move_samples input output samples start stop with
  | Some output' => no_gap output' /\ array_move_samples_from (as_array output) (as_array input) samples start stop = Ok (as_array output')
  | None => array_move_samples_from (as_array output) (as_array input) samples start stop = callback_error OpMoveSamples internal_error_status
  end.
Proof.
  intros Hi Ho. unfold st_move_samples, array_move_samples_from, nd_move_samples. cbn [a_kind as_array a_nd nd_shape].
  destruct (length (st_shape output) <? 2) eqn:E; [reflexivity|]. apply Nat.ltb_ge in E.
  pose proof (move_loop_as_array start stop input Hi samples output Ho E) as H.
  destruct (st_move_loop start stop input output samples) as [o|]; [|rewrite H; reflexivity].
  destruct H as (H1 & H2 & ->). split; [assumption|]. unfold with_nd, as_array. cbn [a_kind a_strides a_callbacks].
  rewrite H2. reflexivity.
Qed.

(** * Programs *)

Definition same_array (a : option strided) (b : option eqs_array) : Prop :=
  match a, b with
  | Some a, Some b => no_gap a /\ b = as_array a
  | None, None => True
  | _, _ => False
  end.

Lemma same_live arrays arrays' i : Forall2 same_array arrays arrays' ->
  match live arrays i with
  | Some a => no_gap a /\ live arrays' i = Some (as_array a)
  | None => live arrays' i = None
  end.
Proof.
  intros H. revert i. unfold live. induction H as [|a b l l' Hab H IH]; intros [|i]; cbn [nth_error]; try reflexivity; [|apply IH].
  destruct a as [a|], b as [b|]; cbn in Hab; try contradiction; [|reflexivity]. destruct Hab as [Hg ->]. auto.
Qed.

Lemma same_set arrays arrays' i a b : Forall2 same_array arrays arrays' -> same_array a b ->
  Forall2 same_array (set_nth arrays i a) (set_nth arrays' i b).
Proof.
  intros H Hab. revert i. induction H as [|x y l l' Hxy H IH]; intros [|i]; cbn [set_nth]; try constructor; auto.
Qed.

Lemma same_snoc arrays arrays' a : Forall2 same_array arrays arrays' -> no_gap a ->
  Forall2 same_array (arrays ++ [Some a]) (arrays' ++ [Some (as_array a)]).
Proof. intros H Hg. apply Forall2_app; [assumption|]. constructor; [|constructor]. split; [assumption|reflexivity]. Qed.

Lemma set_nth_same arrays i (a : eqs_array) : live arrays i = Some a -> set_nth arrays i (Some a) = arrays.
Proof.
  unfold live. revert i. induction arrays as [|x l IH]; intros [|i]; cbn; try discriminate.
  - destruct x; [|discriminate]. intros H; inversion H; reflexivity.
  - intros H. rewrite IH by assumption. reflexivity.
Qed.

Lemma steps_alike arrays arrays' c : Forall2 same_array arrays arrays' ->
  snd (memory_step arrays c) = snd (array_step arrays' c)
  /\ Forall2 same_array (fst (memory_step arrays c)) (fst (array_step arrays' c)).
Proof.
  intros H. destruct c as [i|i|i shape|i|i|i shape|i a1 a2|o i samples start stop]; cbn [memory_step array_step].
  all: try (destruct (o =? i); [cbn [fst snd]; auto|]; pose proof (same_live arrays arrays' o H) as Lo;
            destruct (live arrays o) as [output|]; [destruct Lo as [Hgo ->]|rewrite Lo; cbn [fst snd]; auto; fail]).
  all: pose proof (same_live arrays arrays' i H) as L; destruct (live arrays i) as [a|];
            [destruct L as [Hg L]; rewrite L|rewrite L; cbn [fst snd]; auto; fail]; cbn [fst snd].
  - auto.
  - split; [symmetry; apply data_as_array; assumption|assumption].
  - rewrite create_as_array. cbn [fst snd]. split; [reflexivity|]. apply same_snoc; [assumption|apply create_no_gap].
  - unfold array_clone. cbn [a_kind as_array fst snd]. split; [reflexivity|]. apply same_snoc; assumption.
  - split; [reflexivity|]. apply same_set; [assumption|exact I].
  - destruct (reshape_as_array shape a Hg) as [G E]. rewrite E. destruct (st_reshape shape a) as [a' done]. cbn [fst snd] in *.
    destruct done; cbn [fst snd]; (split; [reflexivity|]; apply same_set; [assumption|split; [assumption|reflexivity]]).
  - pose proof (swap_as_array a1 a2 a Hg) as G. destruct (st_swap_axes a1 a2 a) as [a'|].
    + destruct G as [G ->]. cbn [fst snd]. split; [reflexivity|]. apply same_set; [assumption|split; [assumption|reflexivity]].
    + rewrite G. cbn [fst snd]. split; [reflexivity|]. rewrite (set_nth_same _ _ _ L). assumption.
  - pose proof (move_as_array a output samples start stop Hg Hgo) as G. destruct (st_move_samples a output samples start stop) as [o'|].
    + destruct G as [G ->]. cbn [fst snd]. split; [reflexivity|]. apply same_set; [assumption|split; [assumption|reflexivity]].
    + rewrite G. cbn [fst snd]. split; [reflexivity|]. apply same_set; [assumption|exact I].
Qed.

Lemma runs_alike p : forall arrays arrays', Forall2 same_array arrays arrays' ->
  run memory_step p arrays = run array_step p arrays'.
Proof.
  induction p as [|c next IH]; intros arrays arrays' H; cbn [run]; [reflexivity|].
  destruct (steps_alike arrays arrays' c H) as [E H'].
  destruct (memory_step arrays c) as [s r], (array_step arrays' c) as [s' r']. cbn [fst snd] in *. subst r'. f_equal.
  apply IH. assumption.
Qed.

(* no program can tell the two models apart *)
Lemma same_programs p arrays : Forall no_gap arrays ->
  run memory_step p (map Some arrays) = run array_step p (map (fun a => Some (as_array a)) arrays).
Proof.
  intros H. apply runs_alike. induction H as [|a l Ha H IH]; cbn [map]; constructor; [|assumption]. split; [assumption|reflexivity].
Qed.
