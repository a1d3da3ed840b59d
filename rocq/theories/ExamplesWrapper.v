(* Concrete programs which change arrays in place *)
From Verif Require Import Base BaseFacts Array Strided Spec SpecTensor Numpy SpecNumpy NumpyFacts ExamplesNumpy Wrapper SpecWrapper WrapperFacts.
Local Open Scope list_scope.
Local Open Scope nat_scope.

Lemma ex_view_order : keeps_the_order ex_view.
Proof. exact (proj2 ex_follows). Qed.

(* an array, a transposed view, and wrappers of both; the library moves axes of the
   first one and copies it. The types are changed in place, for one with as many
   bytes, and the strides of the view are set. *)
Definition ex_wrapping : list wrapper_event :=
  [NewArray [2; 3; 4] Double; ViewOf 0 0 [4; 3] [8; 32]%Z; Wrap 0; Wrap 1; SetType 0 (OtherItem 8 3); SetType 0 Double;
   SetStrides 1 [24; 8]%Z; DoSwapAxes 0 1 2; DoCopy 0; DoReshape 2 [2; 12]].

Lemma ex_wrapping_never : never_sets_shapes ex_wrapping.
Proof. intros o shape H. cbn in H. intuition discriminate. Qed.

(* a decidable form of keeps_item_sizes *)
Fixpoint sizes_kept (view : view_rule) (h : py_heap) (events : list wrapper_event) : bool :=
  match events with
  | [] => true
  | e :: events' =>
      match e with
      | SetType i t =>
          match nth_error (hp_objects h) i with
          | Some o => item_bytes t =? item_bytes (ob_type o)
          | None => true
          end
      | _ => true
      end && sizes_kept view (fst (wrapper_step view h e)) events'
  end.

Lemma sizes_kept_app view : forall before h after,
  sizes_kept view h (before ++ after) = true ->
  sizes_kept view (fold_left (fun h e => fst (wrapper_step view h e)) before h) after = true.
Proof.
  induction before as [|e before IH]; intros h after H; [exact H|]. cbn [app sizes_kept fold_left] in *. apply andb_prop in H as [_ H].
  exact (IH _ _ H).
Qed.

Lemma sizes_kept_ok view events : sizes_kept view (mk_heap [] [] []) events = true -> keeps_item_sizes view events.
Proof.
  intros H before i t after o E Ho. rewrite E in H. apply sizes_kept_app in H. fold (wrapper_run view before) in H.
  cbn [sizes_kept] in H. rewrite Ho in H. apply andb_prop in H as [H _]. apply Nat.eqb_eq, H.
Qed.

Lemma ex_wrapping_sizes : keeps_item_sizes ex_view ex_wrapping.
Proof. apply sizes_kept_ok. vm_compute. reflexivity. Qed.

Lemma ex_wrapping_arrays :
  array_is (wrapper_run ex_view ex_wrapping) 0 (mk_object 0 0 [2; 4; 3] [96; 8; 32]%Z Double)
  /\ array_is (wrapper_run ex_view ex_wrapping) 1 (mk_object 0 0 [4; 3] [24; 8]%Z Double)
  /\ array_is (wrapper_run ex_view ex_wrapping) 2 (mk_object 1 0 [2; 12] [96; 8]%Z Double).
Proof.
  split; [|split].
  - exists (mk_wrapper (Some 2) [2; 4; 3]), 2. repeat split; vm_compute; reflexivity.
  - exists (mk_wrapper (Some 1) [4; 3]), 1. repeat split; vm_compute; reflexivity.
  - exists (mk_wrapper (Some 4) [2; 12]), 4. repeat split; vm_compute; reflexivity.
Qed.

Lemma ex_wrapping_answers :
  map (fun w => asked ex_view (wrapper_run ex_view ex_wrapping) (AskData w)) [0; 1; 2] = [Raised; PointerTo 0 0; PointerTo 1 0]
  /\ map (fun w => asked ex_view (wrapper_run ex_view ex_wrapping) (AskShape w)) [0; 1; 2]
     = [ShapeIs [2; 4; 3]; ShapeIs [4; 3]; ShapeIs [2; 12]].
Proof. split; vm_compute; reflexivity. Qed.

(* values.shape = (4, 3, 2) *)
Definition ex_reshaped : list wrapper_event := [NewArray [2; 3; 4] Double; Wrap 0; SetShape 0 [4; 3; 2]].

Lemma shape_not_followed :
  exists view events w o,
    keeps_the_order view /\ keeps_item_sizes view events /\ array_is (wrapper_run view events) w o
    /\ asked view (wrapper_run view events) (AskShape w) <> ShapeIs (ob_shape o).
Proof.
  exists ex_view, ex_reshaped, 0, (mk_object 0 0 [4; 3; 2] [48; 16; 8]%Z Double). split; [exact ex_view_order|].
  split; [apply sizes_kept_ok; vm_compute; reflexivity|]. split.
  - exists (mk_wrapper (Some 0) [2; 3; 4]), 0. repeat split; vm_compute; reflexivity.
  - vm_compute. discriminate.
Qed.

Lemma swap_not_known :
  exists view events w x y shape,
    keeps_the_order view /\ keeps_item_sizes view events
    /\ asked view (wrapper_run view events) (AskShape w) = ShapeIs shape
    /\ asked view (wrapper_run view events) (DoSwapAxes w x y) = Finished
    /\ exists shape', asked view (then_heap view (wrapper_run view events) (DoSwapAxes w x y)) (AskShape w) = ShapeIs shape'
       /\ ~ exchanged x y shape shape'.
Proof.
  exists ex_view, ex_reshaped, 0, 1, 2, [2; 3; 4]. split; [exact ex_view_order|].
  split; [apply sizes_kept_ok; vm_compute; reflexivity|]. split; [vm_compute; reflexivity|]. split; [vm_compute; reflexivity|].
  exists [4; 2; 3]. split; [vm_compute; reflexivity|]. intros H. specialize (H 0). discriminate.
Qed.

(* an array of numpy.float32, then values.dtype = numpy.float64 *)
Definition ex_retyped : list wrapper_event := [NewArray [2; 4] (OtherItem 4 0); Wrap 0; SetType 0 Double].

Lemma data_outside :
  exists view events w buffer start shape k,
    keeps_the_order view /\ never_sets_shapes events
    /\ asked view (wrapper_run view events) (AskData w) = PointerTo buffer start
    /\ asked view (wrapper_run view events) (AskShape w) = ShapeIs shape
    /\ k < prod shape /\ ~ bytes_exist (wrapper_run view events) buffer (start + 8 * Z.of_nat k) 8.
Proof.
  exists ex_view, ex_retyped, 0, 0, 0%Z, [2; 4], 4. split; [exact ex_view_order|].
  split; [intros o shape H; cbn in H; intuition discriminate|]. split; [vm_compute; reflexivity|]. split; [vm_compute; reflexivity|].
  split; [cbn; lia|]. intros (size & Hs & _ & H). vm_compute in Hs. inversion Hs; subst size. vm_compute in H. exact (H eq_refl).
Qed.
