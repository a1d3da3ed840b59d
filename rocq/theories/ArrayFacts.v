(* Lemmas about Array.v *)
From Verif Require Import Base BaseFacts LayoutFacts Labels Array Block Tensor Spec SpecTensor.
Local Open Scope list_scope.
Local Open Scope nat_scope.

(** * Row-major positions *)

Lemma prod_volume shape : prod shape = volume shape.
Proof. induction shape as [|n shape IH]; simpl; [reflexivity|]. rewrite IH. reflexivity. Qed.

Lemma offset_acc shape : forall idx acc, length idx = length shape ->
  fold_left (fun acc ni => acc * fst ni + snd ni) (combine shape idx) acc
  = acc * prod shape + ravel shape idx.
Proof.
  induction shape as [|n shape IH]; intros [|i idx] acc H; simpl in *; try discriminate; [lia|].
  rewrite IH by lia. lia.
Qed.

Lemma in_bounds_length shape idx : in_bounds shape idx -> length idx = length shape.
Proof. intros H. symmetry. eapply Forall2_len; eauto. Qed.

Lemma offset_ravel shape idx : in_bounds shape idx -> offset shape idx = ravel shape idx.
Proof.
  intros H. unfold offset. rewrite offset_acc by (apply in_bounds_length; assumption). lia.
Qed.

Lemma ravel_lt shape idx : in_bounds shape idx -> ravel shape idx < prod shape.
Proof.
  induction 1 as [|n i shape idx Hi H IH]; simpl; [lia|].
  assert ((i + 1) * prod shape <= n * prod shape) by (apply Nat.mul_le_mono_r; lia). lia.
Qed.

Lemma all_indices_length shape : length (all_indices shape) = prod shape.
Proof.
  induction shape as [|n shape IH]; simpl; [reflexivity|].
  assert (forall s m, length (flat_map (fun i => map (cons i) (all_indices shape)) (seq s m)) = m * prod shape) as H.
  { intros s m; revert s; induction m as [|m IHm]; intros s; simpl; [reflexivity|].
    rewrite app_length, map_length, IH, IHm. reflexivity. }
  apply H.
Qed.

Lemma all_indices_In shape idx : In idx (all_indices shape) <-> in_bounds shape idx.
Proof.
  revert idx; induction shape as [|n shape IH]; intros idx; simpl.
  - split; [intros [<-|[]]; constructor|]. intros H; inversion H; auto.
  - rewrite in_flat_map. split.
    + intros (i & Hi & H). apply in_seq in Hi. apply in_map_iff in H as (idx' & <- & H).
      constructor; [lia|]. apply IH; assumption.
    + intros H. inversion H as [|? i ? idx' Hi H']; subst. exists i. split; [apply in_seq; lia|].
      apply in_map. apply IH; assumption.
Qed.

Lemma nth_error_all_indices shape idx :
  in_bounds shape idx -> nth_error (all_indices shape) (ravel shape idx) = Some idx.
Proof.
  induction 1 as [|n i shape idx Hi H IH]; simpl; [reflexivity|].
  assert (G : forall m s i, i < m ->
     nth_error (flat_map (fun i => map (cons i) (all_indices shape)) (seq s m)) (i * prod shape + ravel shape idx)
     = Some ((s + i) :: idx)).
  { clear i Hi. induction m as [|m IHm]; intros s i Hi; [lia|]. simpl.
    destruct i as [|i].
    - simpl. rewrite nth_error_app1 by (rewrite map_length, all_indices_length; apply ravel_lt; assumption).
      rewrite nth_error_map, IH. simpl. rewrite Nat.add_0_r. reflexivity.
    - rewrite nth_error_app2 by (rewrite map_length, all_indices_length; simpl; lia).
      rewrite map_length, all_indices_length.
      replace (S i * prod shape + ravel shape idx - prod shape) with (i * prod shape + ravel shape idx) by (simpl; lia).
      rewrite IHm by lia. do 2 f_equal. lia. }
  rewrite (G n 0 i Hi). reflexivity.
Qed.

(** * Elements *)

Definition wf_nd (a : ndarray) : Prop := length (nd_data a) = prod (nd_shape a).

Lemma nd_tabulate_wf shape f : wf_nd (nd_tabulate shape f).
Proof. unfold wf_nd; simpl. rewrite map_length, all_indices_length. reflexivity. Qed.

Lemma nd_get_tabulate shape f idx : in_bounds shape idx -> nd_get (nd_tabulate shape f) idx = f idx.
Proof.
  intros H. unfold nd_get; simpl.
  apply nth_error_nth. rewrite nth_error_map, nth_error_all_indices by assumption. reflexivity.
Qed.

Lemma nd_zeros_wf shape : wf_nd (nd_zeros shape).
Proof. unfold wf_nd; simpl. apply repeat_length. Qed.

Lemma nd_get_zeros shape idx : nd_get (nd_zeros shape) idx = 0%Z.
Proof.
  unfold nd_get; simpl. generalize (ravel shape idx) (prod shape). intros n m; revert n.
  induction m as [|m IH]; intros [|n]; simpl; auto.
Qed.

Lemma nd_nth_error a idx :
  wf_nd a -> in_bounds (nd_shape a) idx ->
  nth_error (nd_data a) (ravel (nd_shape a) idx) = Some (nd_get a idx).
Proof.
  intros Hwf H. unfold nd_get. apply nth_error_nth'. rewrite Hwf. apply ravel_lt. assumption.
Qed.

Lemma element_get (a : eqs_array) idx v :
  wf_nd (a_nd a) -> (element a idx v <-> in_bounds (shape_of a) idx /\ nd_get (a_nd a) idx = v).
Proof.
  intros Hwf. unfold element, shape_of. split.
  - intros [H1 H2]. split; [assumption|]. rewrite offset_ravel in H2 by assumption.
    rewrite nd_nth_error in H2 by assumption. congruence.
  - intros [H1 H2]. split; [assumption|]. rewrite offset_ravel by assumption.
    rewrite nd_nth_error by assumption. congruence.
Qed.

Lemma wf_array_nd a : wf_array a -> a_kind a <> RustEmptyArray -> wf_nd (a_nd a).
Proof. intros H Hk. unfold wf_nd. rewrite prod_volume. apply H. assumption. Qed.

Lemma wf_nd_array a : wf_nd (a_nd a) -> (a_kind a = RustNdarray -> length (a_strides a) = length (shape_of a)) -> wf_array a.
Proof. intros H Hs. split; [|exact Hs]. intros _. unfold shape_of. rewrite <- prod_volume. exact H. Qed.

Lemma rust_ndarray_wf nd : wf_nd nd -> wf_array (rust_ndarray nd).
Proof. intros H. apply wf_nd_array; [exact H|]. intros _. apply default_strides_length. Qed.

Lemma element_fun a idx v w : element a idx v -> element a idx w -> v = w.
Proof. intros [_ H1] [_ H2]. congruence. Qed.

Lemma element_total a idx :
  wf_array a -> a_kind a <> RustEmptyArray -> in_bounds (shape_of a) idx -> exists v, element a idx v.
Proof.
  intros Hwf Hk Hb. exists (nd_get (a_nd a) idx). apply element_get; [apply wf_array_nd; assumption|]. auto.
Qed.

(** * Moving samples *)

Lemma set_last_app (l : list nat) x y : set_last (l ++ [x]) y = l ++ [y].
Proof. unfold set_last. rewrite removelast_last. reflexivity. Qed.

Lemma broadcastable_refl s : broadcastable s s = true.
Proof. induction s as [|n s IH]; simpl; [reflexivity|]. rewrite Nat.eqb_refl, IH. reflexivity. Qed.

Lemma broadcast_index_refl s idx : length idx = length s -> broadcast_index s s idx = idx.
Proof.
  revert idx; induction s as [|n s IH]; intros [|i idx] H; simpl in *; try discriminate; [reflexivity|].
  rewrite Nat.eqb_refl, IH by lia. reflexivity.
Qed.

Lemma in_bounds_cons n shape i idx : in_bounds (n :: shape) (i :: idx) <-> i < n /\ in_bounds shape idx.
Proof. split; [intros H; inversion H; auto|]. intros [H1 H2]; constructor; assumption. Qed.

Lemma in_bounds_snoc shape n idx i :
  in_bounds (shape ++ [n]) (idx ++ [i]) <-> in_bounds shape idx /\ i < n.
Proof.
  split.
  - intros H. apply Forall2_app_inv_l in H as (l1 & l2 & H1 & H2 & E).
    inversion H2 as [|? y ? l' Hy Hl]; subst. inversion Hl; subst.
    apply app_inj_tail in E as [-> ->]. auto.
  - intros [H1 H2]. apply Forall2_app; [assumption|]. repeat constructor. assumption.
Qed.

Lemma in_bounds_snoc_inv shape n idx :
  in_bounds (shape ++ [n]) idx -> exists js k, idx = js ++ [k] /\ in_bounds shape js /\ k < n.
Proof.
  intros H. apply Forall2_app_inv_l in H as (l1 & l2 & H1 & H2 & ->).
  inversion H2 as [|? y ? l' Hy Hl]; subst. inversion Hl; subst. eauto.
Qed.

(* what one assignment does to the element (i, js, k) of the output *)
Definition moved (input : ndarray) (start stop : nat) (m : sample_mapping) (i : nat) (js : list nat) (k : nat)
  : option Z :=
  if (i =? sm_output m) && (start <=? k) && (k <? stop)
  then Some (nd_get input (sm_input m :: js ++ [k - start]))
  else None.

Lemma nd_move_one_spec start stop input output m n_in n_out cs np P :
  nd_shape input = n_in :: cs ++ [np] ->
  nd_shape output = n_out :: cs ++ [P] ->
  stop = start + np -> stop <= P ->
  sm_input m < n_in -> sm_output m < n_out ->
  exists output', nd_move_one start stop input output m = Some output'
    /\ nd_shape output' = nd_shape output
    /\ wf_nd output'
    /\ forall i js k, in_bounds (nd_shape output) (i :: js ++ [k]) ->
         nd_get output' (i :: js ++ [k]) =
         match moved input start stop m i js k with
         | Some v => v
         | None => nd_get output (i :: js ++ [k])
         end.
Proof.
  intros Hin Hout Hstop HP Hmi Hmo. unfold nd_move_one. rewrite Hin, Hout.
  rewrite last_last, set_last_app.
  replace (stop - start) with np by lia.
  rewrite broadcastable_refl.
  rewrite (proj2 (Nat.ltb_lt (sm_input m) n_in)), (proj2 (Nat.ltb_lt (sm_output m) n_out)) by assumption.
  rewrite (proj2 (Nat.leb_le start P)), (proj2 (Nat.leb_le stop P)) by lia.
  cbn [andb]. eexists. split; [reflexivity|]. split; [reflexivity|]. split; [apply nd_tabulate_wf|].
  intros i js k Hb. rewrite nd_get_tabulate by assumption. cbn [hd tl].
  rewrite last_last, set_last_app. unfold moved.
  destruct ((i =? sm_output m) && (start <=? k) && (k <? stop)); [|reflexivity].
  rewrite broadcast_index_refl.
  - rewrite rev_involutive. reflexivity.
  - rewrite !rev_length, !app_length. apply in_bounds_length in Hb. simpl in Hb.
    rewrite !app_length in Hb. simpl in *. lia.
Qed.

(* the value given to (i, js, k) by the last assignment of the list writing there *)
Fixpoint moved_list (input : ndarray) (start stop : nat) (ms : list sample_mapping) (i : nat) (js : list nat) (k : nat)
  : option Z :=
  match ms with
  | [] => None
  | m :: rest =>
      match moved_list input start stop rest i js k with
      | Some v => Some v
      | None => moved input start stop m i js k
      end
  end.

Lemma nd_move_loop_spec start stop input n_in n_out cs np P ms :
  nd_shape input = n_in :: cs ++ [np] ->
  stop = start + np -> stop <= P ->
  Forall (fun m => sm_input m < n_in /\ sm_output m < n_out) ms ->
  forall output, nd_shape output = n_out :: cs ++ [P] -> wf_nd output ->
  exists output', nd_move_loop start stop input output ms = Some output'
    /\ nd_shape output' = nd_shape output
    /\ wf_nd output'
    /\ forall i js k, in_bounds (nd_shape output) (i :: js ++ [k]) ->
         nd_get output' (i :: js ++ [k]) =
         match moved_list input start stop ms i js k with
         | Some v => v
         | None => nd_get output (i :: js ++ [k])
         end.
Proof.
  intros Hin Hstop HP Hms. induction Hms as [|m ms [Hm1 Hm2] Hms IH]; intros output Hout Hwf; simpl.
  - exists output. auto.
  - destruct (nd_move_one_spec start stop input output m n_in n_out cs np P) as (o1 & E1 & Hs1 & Hw1 & Hg1); auto.
    rewrite E1. destruct (IH o1) as (o2 & E2 & Hs2 & Hw2 & Hg2); [congruence|assumption|].
    exists o2. split; [assumption|]. split; [congruence|]. split; [assumption|].
    intros i js k Hb. rewrite Hg2 by congruence.
    destruct (moved_list input start stop ms i js k); [reflexivity|]. apply Hg1; assumption.
Qed.

Lemma moved_list_some input start stop ms i js k v :
  moved_list input start stop ms i js k = Some v ->
  exists m, In m ms /\ moved input start stop m i js k = Some v.
Proof.
  induction ms as [|m ms IH]; simpl; [discriminate|].
  destruct (moved_list input start stop ms i js k) eqn:E.
  - intros H; inversion H; subst. destruct IH as (m' & H1 & H2); [reflexivity|]. eauto.
  - intros H. eauto.
Qed.

Lemma moved_list_none input start stop ms i js k :
  moved_list input start stop ms i js k = None <->
  forall m, In m ms -> moved input start stop m i js k = None.
Proof.
  induction ms as [|m ms IH]; simpl.
  - split; [intros _ m []|reflexivity].
  - destruct (moved_list input start stop ms i js k) eqn:E.
    + split; [discriminate|]. intros H. exfalso.
      assert (G : Some z = None) by (apply IH; intros m' Hm'; apply H; auto). discriminate.
    + split.
      * intros H m' [->|Hm']; [assumption|]. apply IH; auto.
      * intros H. apply H; auto.
Qed.

Lemma moved_some input start stop m i js k v :
  moved input start stop m i js k = Some v <->
  i = sm_output m /\ start <= k < stop /\ v = nd_get input (sm_input m :: js ++ [k - start]).
Proof.
  unfold moved. destruct (_ && _) eqn:E.
  - rewrite !andb_true_iff, Nat.eqb_eq, Nat.leb_le, Nat.ltb_lt in E. split.
    + intros H; inversion H; subst. tauto.
    + intros (_ & _ & ->). reflexivity.
  - split; [discriminate|]. intros (-> & Hk & _).
    rewrite Nat.eqb_refl, (proj2 (Nat.leb_le _ _)), (proj2 (Nat.ltb_lt _ _)) in E by lia. discriminate.
Qed.

Lemma moved_none input start stop m i js k :
  moved input start stop m i js k = None <-> ~ (i = sm_output m /\ start <= k < stop).
Proof.
  unfold moved. destruct (_ && _) eqn:E.
  - rewrite !andb_true_iff, Nat.eqb_eq, Nat.leb_le, Nat.ltb_lt in E. split; [discriminate|]. tauto.
  - split; [|reflexivity]. intros _ (-> & Hk).
    rewrite Nat.eqb_refl, (proj2 (Nat.leb_le _ _)), (proj2 (Nat.ltb_lt _ _)) in E by lia. discriminate.
Qed.

(** * move_samples_from *)

(* kinds of arrays between which samples can be moved *)
Definition movable (k1 k2 : array_kind) : Prop :=
  k1 = k2 /\ k1 <> RustEmptyArray.

Lemma array_move_ok output input ms start stop output' :
  array_move_samples_from output input ms start stop = Ok output' ->
  movable (a_kind output) (a_kind input)
  /\ exists nd, nd_move_samples (a_nd input) (a_nd output) ms start stop = Some nd
                /\ output' = with_nd output nd.
Proof.
  unfold array_move_samples_from, movable.
  destruct (a_kind output) as [| |o1] eqn:E1, (a_kind input) as [| |o2] eqn:E2; try discriminate.
  - destruct (nd_move_samples _ _ _ _ _) as [nd|]; [|discriminate]. intros H; inversion H; subst.
    split; [split; [reflexivity|discriminate]|]. eauto.
  - destruct (o1 =? o2) eqn:Eo; [|discriminate]. apply Nat.eqb_eq in Eo; subst.
    unfold call. rewrite E1.
    destruct (nd_move_samples _ _ _ _ _) as [nd|].
    + destruct (a_callbacks output OpMoveSamples); try discriminate.
      * intros H; inversion H; subst. split; [split; [reflexivity|discriminate]|]. eauto.
      * destruct (status =? 0)%Z; [|discriminate].
        intros H; inversion H; subst. split; [split; [reflexivity|discriminate]|]. eauto.
    + destruct (a_callbacks output OpMoveSamples); try discriminate.
      destruct (status =? 0)%Z; discriminate.
Qed.

(* the indices of the mappings are checked even when nothing is moved *)
Lemma nd_move_one_bounds start stop input output m output' :
  nd_move_one start stop input output m = Some output' ->
  exists n_in in_shape n_out out_shape,
    nd_shape input = n_in :: in_shape /\ nd_shape output = n_out :: out_shape
    /\ sm_input m < n_in /\ sm_output m < n_out.
Proof.
  unfold nd_move_one. destruct (nd_shape input) as [|n_in in_shape]; [discriminate|].
  destruct (nd_shape output) as [|n_out out_shape]; [discriminate|].
  destruct (_ && _) eqn:E; [|discriminate]. intros _.
  rewrite !andb_true_iff, !Nat.ltb_lt in E. exists n_in, in_shape, n_out, out_shape. tauto.
Qed.

Lemma nd_move_one_shape start stop input output m output' :
  nd_move_one start stop input output m = Some output' -> nd_shape output' = nd_shape output.
Proof.
  unfold nd_move_one. destruct (nd_shape input) as [|n_in in_shape]; [discriminate|].
  destruct (nd_shape output) as [|n_out out_shape] eqn:Eo; [discriminate|].
  destruct (_ && _) eqn:E; [|discriminate]. intros H; inversion H; subst. reflexivity.
Qed.

Lemma nd_move_loop_shape start stop input ms : forall output output',
  nd_move_loop start stop input output ms = Some output' -> nd_shape output' = nd_shape output.
Proof.
  induction ms as [|m ms IH]; intros output output'; simpl.
  - intros H; inversion H; reflexivity.
  - destruct (nd_move_one _ _ _ _ _) as [o1|] eqn:E; [|discriminate]. intros H.
    rewrite (IH _ _ H). eapply nd_move_one_shape; eauto.
Qed.

Lemma nd_move_loop_bounds start stop input n_in in_shape n_out out_shape ms :
  nd_shape input = n_in :: in_shape -> forall output output',
  nd_shape output = n_out :: out_shape ->
  nd_move_loop start stop input output ms = Some output' ->
  Forall (fun m => sm_input m < n_in /\ sm_output m < n_out) ms.
Proof.
  intros Hin. induction ms as [|m ms IH]; intros output output' Hout; simpl; [constructor|].
  destruct (nd_move_one _ _ _ _ _) as [o1|] eqn:E; [|discriminate]. intros H.
  pose proof (nd_move_one_shape _ _ _ _ _ _ E) as Hs.
  apply nd_move_one_bounds in E as (a & b & c & d & E1 & E2 & H1 & H2).
  rewrite Hin in E1; inversion E1; subst. rewrite Hout in E2; inversion E2; subst.
  constructor; [auto|]. eapply IH; [|exact H]. congruence.
Qed.

Lemma array_move_spec output input ms start stop output' n_in n_out cs np P :
  array_move_samples_from output input ms start stop = Ok output' ->
  shape_of input = n_in :: cs ++ [np] ->
  shape_of output = n_out :: cs ++ [P] ->
  stop = start + np -> stop <= P ->
  wf_nd (a_nd output) ->
  a_kind output' = a_kind output
  /\ a_callbacks output' = a_callbacks output
  /\ movable (a_kind output) (a_kind input)
  /\ shape_of output' = shape_of output
  /\ wf_nd (a_nd output')
  /\ forall i js k, in_bounds (shape_of output) (i :: js ++ [k]) ->
       nd_get (a_nd output') (i :: js ++ [k]) =
       match moved_list (a_nd input) start stop ms i js k with
       | Some v => v
       | None => nd_get (a_nd output) (i :: js ++ [k])
       end.
Proof.
  intros H Hin Hout Hstop HP Hwf. apply array_move_ok in H as (Hmov & nd & Hnd & ->).
  unfold nd_move_samples in Hnd. destruct (_ <? 2); [discriminate|].
  assert (Hb : Forall (fun m => sm_input m < n_in /\ sm_output m < n_out) ms)
    by (eapply nd_move_loop_bounds; eauto).
  destruct (nd_move_loop_spec start stop (a_nd input) n_in n_out cs np P ms Hin Hstop HP Hb (a_nd output) Hout Hwf)
    as (o & Eo & Hs & Hw & Hg).
  rewrite Hnd in Eo; inversion Eo; subst o.
  unfold with_nd, shape_of in *; simpl. repeat (split; [auto; fail|]). exact Hg.
Qed.

(* conversely, a well-shaped move between working arrays succeeds *)
Definition working (a : eqs_array) : Prop :=
  a_kind a <> RustEmptyArray
  /\ forall o, a_kind a = ForeignArray o -> forall op, a_callbacks a op = Works \/ a_callbacks a op = Fails 0.

Lemma call_working {A} a op (body : outcome A) : working a -> call a op body = body.
Proof.
  intros [_ H]. unfold call. destruct (a_kind a) as [| |o] eqn:E; try reflexivity.
  destruct (H _ eq_refl op) as [->| ->]; reflexivity.
Qed.

Lemma array_move_succeeds output input ms start stop n_in n_out cs np P :
  working output -> a_kind output = a_kind input ->
  shape_of input = n_in :: cs ++ [np] ->
  shape_of output = n_out :: cs ++ [P] ->
  stop = start + np -> stop <= P ->
  wf_nd (a_nd output) ->
  Forall (fun m => sm_input m < n_in /\ sm_output m < n_out) ms ->
  exists output', array_move_samples_from output input ms start stop = Ok output'.
Proof.
  intros Hwork Hk Hin Hout Hstop HP Hwf Hms.
  destruct (nd_move_loop_spec start stop (a_nd input) n_in n_out cs np P ms Hin Hstop HP Hms (a_nd output) Hout Hwf)
    as (o & Eo & _).
  assert (E : nd_move_samples (a_nd input) (a_nd output) ms start stop = Some o).
  { unfold nd_move_samples. unfold shape_of in Hout. rewrite Hout. simpl length.
    rewrite app_length. simpl. rewrite (proj2 (Nat.ltb_ge _ _)) by lia. assumption. }
  unfold array_move_samples_from. rewrite <- Hk. rewrite call_working by assumption. rewrite E.
  destruct (a_kind output) eqn:Ek.
  - eauto.
  - exfalso. apply (proj1 Hwork). assumption.
  - rewrite Nat.eqb_refl. eauto.
Qed.

(** * Sequences of overwriting steps *)

Lemma foldM_overwrite {A S} (f : S -> A -> outcome S) (P : S -> Prop)
    {I V} (valid : I -> Prop) (get : S -> I -> V) (c : A -> I -> option V) l s s' :
  (forall s x s', In x l -> P s -> f s x = Ok s' ->
     P s' /\ forall i, valid i -> get s' i = match c x i with Some v => v | None => get s i end) ->
  P s -> foldM f l s = Ok s' ->
  P s' /\ (forall i, valid i ->
     ((forall x, In x l -> c x i = None) -> get s' i = get s i)
     /\ (forall x v, In x l -> c x i = Some v ->
           (forall y w, In y l -> c y i = Some w -> w = v) -> get s' i = v)).
Proof.
  revert s; induction l as [|x l IH]; intros s Hstep Hs H; simpl in H.
  - inversion H; subst. split; [assumption|]. intros i Hi. split; [auto|]. intros x v [].
  - apply bind_ok in H as (s1 & H1 & H).
    destruct (Hstep s x s1 (or_introl eq_refl) Hs H1) as [Hs1 Hg1].
    destruct (IH s1) as [Hs' Hg']; [|assumption|assumption|].
    { intros. eapply Hstep; eauto. right; assumption. }
    split; [assumption|]. intros i Hi. destruct (Hg' i Hi) as [Hn Hsome]. split.
    + intros Hnone. rewrite Hn by (intros; apply Hnone; right; assumption).
      rewrite Hg1 by assumption. rewrite (Hnone x) by (left; reflexivity). reflexivity.
    + intros y v Hy Hc Huniq.
      destruct (existsb (fun z => match c z i with Some _ => true | None => false end) l) eqn:Ex.
      * apply existsb_exists in Ex as (z & Hz & Hcz). destruct (c z i) as [w|] eqn:Ez; [|discriminate].
        rewrite (Hsome z w Hz Ez).
        -- apply (Huniq z w); [right; assumption|assumption].
        -- intros z' w' Hz' Ez'. rewrite (Huniq z' w') by (auto; right; auto).
           symmetry. apply (Huniq z w); [right; assumption|assumption].
      * assert (Hall : forall z, In z l -> c z i = None).
        { intros z Hz. destruct (c z i) eqn:Ez; [|reflexivity]. exfalso.
          assert (existsb (fun z => match c z i with Some _ => true | None => false end) l = true); [|congruence].
          apply existsb_exists. exists z. rewrite Ez. auto. }
        rewrite Hn by assumption. rewrite Hg1 by assumption.
        destruct Hy as [->|Hy]; [rewrite Hc; reflexivity|]. rewrite (Hall y Hy) in Hc. discriminate.
Qed.
