(* Concrete numpy arrays *)
From Verif Require Import Base BaseFacts LayoutFacts Labels Array Block Tensor Strided Spec SpecTensor ArrayFacts BlockFacts
  TensorFacts StridedFacts Numpy SpecNumpy NumpyFacts MoveWith MoveWithFacts Examples.
Local Open Scope string_scope.
Local Open Scope list_scope.
Local Open Scope nat_scope.

(* The rules of numpy: reshape gives a view when there are strides for which it is
   possible. The conversions are not the ones of numpy: converting between different
   types loses the lowest bit. *)
Definition ex_view (shape : list nat) (strides : list Z) (shape' : list nat) : option (list Z) :=
  let distances := map (np_distance strides) (all_indices shape) in
  let strides' := map (fun k => nth k distances 0%Z) (row_major_strides shape') in
  if list_eq_dec Z.eq_dec (map (np_distance strides') (all_indices shape')) distances then Some strides' else None.

Definition ex_rules : np_rules :=
  mk_rules (fun t1 t2 z => if np_type_eqb t1 t2 then z else (z / 2 * 2)%Z) ex_view.

Lemma ex_follows : follows_numpy ex_rules.
Proof.
  split.
  - intros t z. cbn. destruct t; cbn; [reflexivity|]. rewrite Nat.eqb_refl. reflexivity.
  - intros shape strides shape' strides' Hl Hp. cbn. unfold ex_view. destruct (list_eq_dec _ _ _) as [E|]; [|discriminate].
    intros H; inversion H; subst. split; [rewrite map_length; apply row_major_length|exact E].
Qed.

(* the first 8 elements of a buffer, and the last 8 ones in another order: both
   arrays have 4 elements in common *)
Definition ex_buffer : list Z := [10; 11; 12; 13; 14; 15; 16; 17; 18; 19; 20; 21]%Z.
Definition ex_first (t : np_type) : np_array := mk_np 0 0 [2; 2; 2] [4; 2; 1]%Z t.
Definition ex_second (t : np_type) : np_array := mk_np 0 11 [2; 2; 2] [-4; -1; -2]%Z t.

Definition as_array (origin : nat) (m : memory) (a : np_array) : eqs_array :=
  mk_array (ForeignArray origin) (mk_nd (np_shape a) (np_elements m a)) [] (fun _ => Works).

Lemma as_array_shown origin m a : shown origin m a (as_array origin m a).
Proof. split; [reflexivity|]. split; reflexivity. Qed.

Definition all_positions (a : np_array) (n : nat) : bool :=
  forallb (fun idx => (0 <=? np_position a idx)%Z && (np_position a idx <? Z.of_nat n)%Z) (all_indices (np_shape a)).

Lemma in_memory_check m a buffer : nth_error m (np_buffer a) = Some buffer -> length (np_strides a) = length (np_shape a) ->
  all_positions a (length buffer) = true -> in_memory m a.
Proof.
  intros H1 H2 H3. split; [exact H2|]. exists buffer. split; [exact H1|]. intros idx Hb. unfold all_positions in H3.
  rewrite forallb_forall in H3. specialize (H3 idx (proj2 (all_indices_In _ _) Hb)). apply andb_prop in H3 as [H3 H4].
  apply Z.leb_le in H3. apply Z.ltb_lt in H4. lia.
Qed.

Lemma ex_in_memory t : Forall (in_memory [ex_buffer]) [ex_first t; ex_second t].
Proof. apply Forall_cons; [|apply Forall_cons; [|constructor]]; eapply in_memory_check; reflexivity. Qed.

Fixpoint all_of (commands : list command) : client :=
  match commands with
  | [] => Stop
  | c :: commands' => Call c (fun _ => all_of commands')
  end.

(* merge both arrays, then move the component to the properties *)
Definition ex_commands : list command :=
  [Create 0 [3; 2; 4]; MoveSamples 2 0 [mk_mapping 0 0; mk_mapping 1 2] 0 2;
   MoveSamples 2 1 [mk_mapping 0 1; mk_mapping 1 2] 2 4; GetData 2;
   SwapAxes 1 0 2; GetData 1; Reshape 1 [4; 2]; GetData 1; SwapAxes 2 1 2; Reshape 2 [3; 8]; GetData 2; Copy 1; GetData 3].

Definition ex_arrays (t : np_type) : list eqs_array :=
  map (as_array 4 [ex_buffer]) [ex_first t; ex_second t].

(* the same commands can be used *)
Definition check_components (input output : list nat) (start stop : nat) : bool :=
  match input, output with
  | _ :: (_ :: _) as i, _ :: (_ :: _) as o =>
      (if list_eq_dec Nat.eq_dec (removelast i) (removelast o) then true else false)
      && (stop =? start + last i 0) && (stop <=? last o 0)
  | _, _ => false
  end.

Lemma check_components_ok input output start stop : check_components input output start stop = true -> same_components input output start stop.
Proof.
  unfold check_components. destruct input as [|n_in [|x i]], output as [|n_out [|y o]]; try discriminate.
  intros H. apply andb_prop in H as [H H3]. apply andb_prop in H as [H1 H2]. destruct (list_eq_dec _ _ _) as [E|]; [|discriminate].
  apply Nat.eqb_eq in H2. apply Nat.leb_le in H3. exists n_in, n_out, (removelast (x :: i)), (last (x :: i) 0), (last (y :: o) 0).
  split; [f_equal; apply app_removelast_last; discriminate|]. split; [|split; [exact H2|exact H3]].
  f_equal. rewrite E. apply app_removelast_last. discriminate.
Qed.

Definition check_command (n : nat) (arrays : list (option eqs_array)) (c : command) : bool :=
  match c with
  | MoveSamples o i _ start stop =>
      (n <=? o) && match live arrays o, live arrays i with
                   | Some output, Some input => check_components (shape_of input) (shape_of output) start stop
                   | _, _ => true
                   end
  | _ => true
  end.

Fixpoint check_commands (n : nat) (commands : list command) (arrays : list (option eqs_array)) : bool :=
  match commands with
  | [] => true
  | c :: commands' => check_command n arrays c && check_commands n commands' (fst (array_step arrays c))
  end.

Lemma check_commands_ok n commands : forall arrays, check_commands n commands arrays = true -> regular n (all_of commands) arrays.
Proof.
  induction commands as [|c commands IH]; intros arrays H; [exact I|]. cbn [check_commands] in H. apply andb_prop in H as [H1 H2].
  split; [|apply IH; exact H2]. destruct c; try exact I. cbn [check_command] in H1. apply andb_prop in H1 as [H0 H1].
  split; [apply Nat.leb_le; exact H0|]. intros o i Eo Ei. rewrite Eo, Ei in H1. apply check_components_ok. exact H1.
Qed.

Lemma ex_regular t : regular 2 (all_of ex_commands) (map Some (ex_arrays t)).
Proof. apply check_commands_ok. vm_compute. reflexivity. Qed.

Lemma ex_same_type t : Forall (fun a => in_memory [ex_buffer] a /\ np_dtype a = t) [ex_first t; ex_second t].
Proof. pose proof (ex_in_memory t) as H. inversion H as [|? ? H1 H2]; subst. inversion H2; subst.
  apply Forall_cons; [split; [assumption|reflexivity]|]. apply Forall_cons; [split; [assumption|reflexivity]|constructor].
Qed.

Lemma ex_shown t : Forall2 (shown 4 [ex_buffer]) [ex_first t; ex_second t] (ex_arrays t).
Proof. apply Forall2_cons; [apply as_array_shown|]. apply Forall2_cons; [apply as_array_shown|constructor]. Qed.

Definition ex_start (t1 t2 : np_type) : np_state := mk_np_state [ex_buffer] (map Some [ex_first t1; ex_second t2]).

Lemma ex_answers : run (numpy_step ex_rules) (all_of ex_commands) (ex_start Float64 Float64)
  = [Done; Done; Done;
     Data [10; 11; 0; 0; 12; 13; 0; 0; 0; 0; 21; 19; 0; 0; 20; 18; 14; 15; 17; 15; 16; 17; 16; 14];
     Done; Data [21; 17; 20; 16; 19; 15; 18; 14]; Done; Data [21; 17; 20; 16; 19; 15; 18; 14]; Done; Done;
     Data [10; 12; 11; 13; 0; 0; 0; 0; 0; 0; 0; 0; 21; 20; 19; 18; 14; 16; 15; 17; 17; 16; 15; 14]; Done;
     Data [21; 17; 20; 16; 19; 15; 18; 14]]%Z.
Proof. vm_compute. reflexivity. Qed.

(** * Differences *)

(* arrays of different types: the values of the second one are converted to the
   type of the first one *)
Lemma types_differ :
  let p := all_of ex_commands in
  Forall (in_memory [ex_buffer]) [ex_first (OtherType 0); ex_second Float64]
  /\ Forall2 (shown 4 [ex_buffer]) [ex_first (OtherType 0); ex_second Float64] (ex_arrays Float64)
  /\ regular 2 p (map Some (ex_arrays Float64))
  /\ nth_error (run (numpy_step ex_rules) p (ex_start (OtherType 0) Float64)) 3
     = Some (Data [10; 11; 0; 0; 12; 13; 0; 0; 0; 0; 20; 18; 0; 0; 20; 18; 14; 15; 16; 14; 16; 17; 16; 14]%Z)
  /\ nth_error (run array_step p (map Some (ex_arrays Float64))) 3
     = Some (Data [10; 11; 0; 0; 12; 13; 0; 0; 0; 0; 21; 19; 0; 0; 20; 18; 14; 15; 17; 15; 16; 17; 16; 14]%Z).
Proof.
  split; [apply Forall_cons; [|apply Forall_cons; [|constructor]]; eapply in_memory_check; reflexivity|].
  split; [apply Forall2_cons; [split; [reflexivity|split; reflexivity]|]; apply Forall2_cons; [split; [reflexivity|split; reflexivity]|constructor]|]. split; [apply (ex_regular Float64)|].
  split; vm_compute; reflexivity.
Qed.

(* arrays with different axes: the samples of the input are used as components *)
Definition ex_flat : np_array := mk_np 0 0 [2; 2] [2; 1]%Z Float64.

Lemma axes_differ :
  let commands := [Create 1 [2; 2; 2]; MoveSamples 2 0 [mk_mapping 0 0; mk_mapping 1 1] 0 2; GetData 2] in
  in_memory [ex_buffer] ex_flat
  /\ run (numpy_step ex_rules) (all_of commands) (mk_np_state [ex_buffer] [Some ex_flat; Some (ex_second Float64)])
     = [Done; Done; Data [10; 11; 12; 13; 10; 11; 12; 13]%Z]
  /\ run array_step (all_of commands) (map (fun a => Some (as_array 4 [ex_buffer] a)) [ex_flat; ex_second Float64])
     = [Done; Done; Data [10; 11; 10; 11; 12; 13; 12; 13]%Z].
Proof. split; [eapply in_memory_check; reflexivity|]. split; vm_compute; reflexivity. Qed.

(* the output shares its memory with the input: the input changes *)
Lemma shared_differ :
  let commands := [MoveSamples 0 1 [mk_mapping 0 1] 0 2; GetData 1] in
  run (numpy_step ex_rules) (all_of commands) (ex_start Float64 Float64) = [Done; Data [21; 19; 20; 18; 18; 19; 20; 21]%Z]
  /\ run array_step (all_of commands) (map Some (ex_arrays Float64)) = [Done; Data [21; 19; 20; 18; 17; 15; 16; 14]%Z].
Proof. split; vm_compute; reflexivity. Qed.

(** * What the library reads *)

(* components_to_properties with two components and one property: the elements are
   not one after the other anymore, and reshape does not copy them *)
Lemma components_not_readable :
  let commands := [Create 0 [1; 2; 2; 1]; SwapAxes 2 1 2; Reshape 2 [1; 2; 2]] in
  exists a, live (np_arrays (numpy_run ex_rules (ex_start Float64 Float64) commands)) 2 = Some a
    /\ np_shape a = [1; 2; 2] /\ np_dtype a = Float64
    /\ np_data (np_memory (numpy_run ex_rules (ex_start Float64 Float64) commands)) a = None.
Proof. eexists. split; [vm_compute; reflexivity|]. split; [reflexivity|]. split; vm_compute; reflexivity. Qed.

(* with two properties they are copied *)
Lemma components_readable :
  let commands := [Create 0 [1; 2; 2; 2]; SwapAxes 2 1 2; Reshape 2 [1; 2; 4]] in
  exists a, live (np_arrays (numpy_run ex_rules (ex_start Float64 Float64) commands)) 2 = Some a
    /\ np_data (np_memory (numpy_run ex_rules (ex_start Float64 Float64) commands)) a = Some (repeat 0%Z 8).
Proof. eexists. split; vm_compute; reflexivity. Qed.

(** * A tensor map *)

Definition ex_np (shape : list nat) (first : Z) : eqs_array :=
  mk_array (ForeignArray 4) (mk_nd shape (map (fun i => (first + Z.of_nat i)%Z) (seq 0 (prod shape)))) [] (fun _ => Works).

Lemma ex_np_wf shape first : wf_array (ex_np shape first).
Proof.
  split; [|discriminate]. intros _. cbn [ex_np a_nd nd_data shape_of nd_shape]. rewrite map_length, seq_length. reflexivity.
Qed.

Definition ex_np_block (values : eqs_array) (samples : Labels) (gradient : eqs_array) (gradient_samples : Labels) : TensorBlock :=
  fst (tensor_block_add_gradient (ex_block values samples [ex_xyz] ex_properties) "positions" gradient gradient_samples [ex_cell; ex_xyz]).

Definition ex_np_1 := ex_np_block (ex_np [2; 2; 3] 100) ex_samples_1 (ex_np [3; 2; 2; 3] 200) ex_gradient_samples_1.
Definition ex_np_2 := ex_np_block (ex_np [3; 2; 3] 300) ex_samples_2 (ex_np [1; 2; 2; 3] 400) ex_gradient_samples_2.
Definition ex_np_keys := ex_labels ["center"; "spin"] [[1; 0]; [1; 1]]%Z.
Definition ex_np_tensor : TensorMap := mk_tensor ex_np_keys [ex_np_1; ex_np_2].

Lemma ex_np_block_reachable values samples gradient gradient_samples :
  wf_array values -> wf_array gradient -> wf_labels samples -> wf_labels gradient_samples ->
  tensor_block_new values samples [ex_xyz] ex_properties = Ok (ex_block values samples [ex_xyz] ex_properties) ->
  tensor_block_add_gradient (ex_block values samples [ex_xyz] ex_properties) "positions" gradient gradient_samples [ex_cell; ex_xyz]
    = (ex_np_block values samples gradient gradient_samples, Ok tt) ->
  reachable_block (ex_np_block values samples gradient gradient_samples).
Proof.
  intros H1 H2 H3 H4 E1 E2.
  apply reachable_add with (b := ex_block values samples [ex_xyz] ex_properties) (parameter := "positions") (data := gradient)
    (samples := gradient_samples) (components := [ex_cell; ex_xyz]) (result := Ok tt);
    [|exact H2|exact H4|repeat constructor; apply ex_labels_wf|exact E2|discriminate].
  apply reachable_new with (data := values) (samples := samples) (components := [ex_xyz]) (properties := ex_properties);
    [exact H1|exact H3|repeat constructor; apply ex_labels_wf|apply ex_labels_wf|exact E1].
Qed.

Lemma ex_np_1_reachable : reachable_block ex_np_1.
Proof. apply ex_np_block_reachable; try apply ex_np_wf; try apply ex_labels_wf; vm_compute; reflexivity. Qed.

Lemma ex_np_2_reachable : reachable_block ex_np_2.
Proof. apply ex_np_block_reachable; try apply ex_np_wf; try apply ex_labels_wf; vm_compute; reflexivity. Qed.

Lemma ex_np_tensor_wf : wf_tensor ex_np_tensor.
Proof.
  assert (Hk : axis_labels ex_np_keys) by (split; [apply ex_labels_wf|vm_compute; discriminate]).
  assert (Hb : Forall wf_block [ex_np_1; ex_np_2]).
  { constructor; [apply (reachable_wf _ ex_np_1_reachable)|]. constructor; [apply (reachable_wf _ ex_np_2_reachable)|constructor]. }
  assert (E : tensor_map_new ex_np_keys [ex_np_1; ex_np_2] = Ok ex_np_tensor) by (vm_compute; reflexivity).
  destruct (proj1 (tensor_map_new_ok _ _ _ Hk Hb) E) as [Hhom _].
  split; [exact Hk|]. split; [exact Hb|exact Hhom].
Qed.

Lemma ex_np_tensor_numpy : numpy_tensor 4 ex_np_tensor.
Proof.
  intros b [<-|[<-|[]]]; (split; [split; reflexivity|]); vm_compute; intros q g [H|[]]; inversion H; split; reflexivity.
Qed.

Lemma ex_np_agreeing variables : agreeing_groups ex_np_tensor variables.
Proof.
  intros key1 b1 key2 b2 H1 H2 _ q g1 g2 Hg1 Hg2.
  assert (G : forall key b g, block_of ex_np_tensor key b -> In (q, g) (tb_gradients b) -> bb_components g = [ex_cell; ex_xyz]).
  { intros key b g (i & _ & Hb) Hg. apply nth_error_In in Hb. destruct Hb as [<-|[<-|[]]];
      vm_compute in Hg; destruct Hg as [Hg|[]]; inversion Hg; reflexivity. }
  rewrite (G key1 b1 g1 H1 Hg1), (G key2 b2 g2 H2 Hg2).
  repeat (constructor; [split; reflexivity|]). constructor.
Qed.

Definition ex_moved_keys := ex_labels ["spin"] [].

Lemma ex_np_moved : exists t, keys_to_samples Release ex_np_tensor ex_moved_keys true = (t, Ok tt)
  /\ map (fun b => nd_data (a_nd (bb_data (tb_values b)))) (tm_blocks t)
     = [[106; 107; 108; 109; 110; 111; 300; 301; 302; 303; 304; 305; 100; 101; 102; 103; 104; 105;
         306; 307; 308; 309; 310; 311; 312; 313; 314; 315; 316; 317]%Z].
Proof. eexists. split; vm_compute; reflexivity. Qed.

(* a move which fails for all the moves the library does not make *)
Definition ex_move (output input : eqs_array) (samples : list sample_mapping) (start stop : nat) : outcome eqs_array :=
  if check_components (shape_of input) (shape_of output) start stop then array_move_samples_from output input samples start stop
  else Panic "not used".

Lemma check_components_complete input output start stop : same_components input output start stop -> check_components input output start stop = true.
Proof.
  intros (n1 & n2 & components & np & P & -> & -> & -> & H). unfold check_components.
  assert (E : exists x l, components ++ [np] = x :: l) by (destruct components; eexists _, _; reflexivity).
  assert (E' : exists x l, components ++ [P] = x :: l) by (destruct components; eexists _, _; reflexivity).
  destruct E as (x & l & E), E' as (y & l' & E'). rewrite E, E'. rewrite <- E, <- E', !removelast_last, !last_last.
  destruct (list_eq_dec _ _ _) as [_|N]; [|congruence]. rewrite Nat.eqb_refl. apply Nat.leb_le in H. rewrite H. reflexivity.
Qed.

Lemma ex_move_acts : acts_as_numpy ex_rules 4 ex_move.
Proof.
  intros m a b input output samples start stop H1 H2 H3 H4 H5 H6 H7 H8. unfold ex_move.
  assert (E : check_components (shape_of input) (shape_of output) start stop = true).
  { apply check_components_complete. destruct H6 as (_ & Ei & _), H7 as (_ & Eo & _). unfold shape_of. rewrite Ei, Eo. exact H8. }
  rewrite E. apply (array_move_acts ex_rules 4 ex_follows m a b); assumption.
Qed.

Lemma ex_move_differs : exists o i s, ex_move o i s 0 1 <> array_move_samples_from o i s 0 1.
Proof. exists (ex_np [1; 2] 0), (ex_np [1; 2] 0), []. vm_compute. discriminate. Qed.

Lemma ex_mixed_in_memory : Forall (in_memory [ex_buffer]) [ex_first (OtherType 0); ex_second Float64].
Proof. apply Forall_cons; [|apply Forall_cons; [|constructor]]; eapply in_memory_check; reflexivity. Qed.

Lemma ex_not_moved_to : Forall (not_moved_to 2) ex_commands.
Proof. repeat (apply Forall_cons; [first [exact I|cbn [not_moved_to]; lia]|]). constructor. Qed.

Lemma ex_only_moved : Forall (only_moved 2) (firstn 8 ex_commands).
Proof. cbn [firstn ex_commands]. repeat (apply Forall_cons; [first [exact I|cbn [only_moved]; lia]|]). constructor. Qed.

Lemma types_not_same : exists f origin m arrays arrays' p,
  follows_numpy f /\ Forall (in_memory m) arrays /\ Forall2 (shown origin m) arrays arrays'
  /\ regular (length arrays) p (map Some arrays')
  /\ run (numpy_step f) p (mk_np_state m (map Some arrays)) <> run array_step p (map Some arrays').
Proof.
  exists ex_rules, 4, [ex_buffer], [ex_first (OtherType 0); ex_second Float64], (ex_arrays Float64), (all_of ex_commands).
  destruct types_differ as (H1 & H2 & H3 & H4 & H5). split; [exact ex_follows|]. split; [exact H1|]. split; [exact H2|].
  split; [exact H3|]. intros E. unfold ex_start in H4. rewrite E, H5 in H4. discriminate.
Qed.

Lemma axes_not_same : exists f origin t m arrays arrays' commands,
  follows_numpy f /\ Forall (fun a => in_memory m a /\ np_dtype a = t) arrays
  /\ Forall2 (shown origin m) arrays arrays' /\ Forall (not_moved_to (length arrays)) commands
  /\ run (numpy_step f) (all_of commands) (mk_np_state m (map Some arrays)) <> run array_step (all_of commands) (map Some arrays').
Proof.
  exists ex_rules, 4, Float64, [ex_buffer], [ex_flat; ex_second Float64], (map (as_array 4 [ex_buffer]) [ex_flat; ex_second Float64]),
    [Create 1 [2; 2; 2]; MoveSamples 2 0 [mk_mapping 0 0; mk_mapping 1 1] 0 2; GetData 2].
  destruct axes_differ as (H1 & H2 & H3). split; [exact ex_follows|].
  split; [apply Forall_cons; [split; [exact H1|reflexivity]|]; apply Forall_cons; [split; [|reflexivity]|constructor]; eapply in_memory_check; reflexivity|].
  split; [apply Forall2_cons; [apply as_array_shown|]; apply Forall2_cons; [apply as_array_shown|constructor]|].
  split; [repeat (apply Forall_cons; [first [exact I|cbn [not_moved_to length]; lia]|]); constructor|].
  intros E. cbn [map] in E. rewrite H2 in E. cbn [map] in H3. rewrite H3 in E. discriminate.
Qed.

Lemma shared_not_same : exists f origin t m arrays arrays' p,
  follows_numpy f /\ Forall (fun a => in_memory m a /\ np_dtype a = t) arrays
  /\ Forall2 (shown origin m) arrays arrays' /\ regular 0 p (map Some arrays')
  /\ run (numpy_step f) p (mk_np_state m (map Some arrays)) <> run array_step p (map Some arrays').
Proof.
  exists ex_rules, 4, Float64, [ex_buffer], [ex_first Float64; ex_second Float64], (ex_arrays Float64),
    (all_of [MoveSamples 0 1 [mk_mapping 0 1] 0 2; GetData 1]).
  destruct shared_differ as (H1 & H2). split; [exact ex_follows|]. split; [apply ex_same_type|]. split; [apply ex_shown|].
  split; [apply check_commands_ok; vm_compute; reflexivity|]. intros E. unfold ex_start in H1. rewrite E, H2 in H1. discriminate.
Qed.

Lemma output_changes : exists f m arrays commands,
  follows_numpy f /\ Forall (in_memory m) arrays
  /\ firstn (length m) (np_memory (numpy_run f (mk_np_state m (map Some arrays)) commands)) <> m.
Proof.
  exists ex_rules, [ex_buffer], [ex_first Float64; ex_second Float64], [MoveSamples 0 1 [mk_mapping 0 1] 0 2].
  split; [exact ex_follows|]. split; [apply ex_in_memory|]. vm_compute. discriminate.
Qed.

Lemma components_unreadable : exists f m arrays commands i a,
  follows_numpy f /\ Forall (in_memory m) arrays /\ Forall (not_moved_to (length arrays)) commands
  /\ length arrays <= i /\ live (np_arrays (numpy_run f (mk_np_state m (map Some arrays)) commands)) i = Some a
  /\ np_dtype a = Float64 /\ np_data (np_memory (numpy_run f (mk_np_state m (map Some arrays)) commands)) a = None.
Proof.
  destruct components_not_readable as (a & H1 & _ & H2 & H3).
  exists ex_rules, [ex_buffer], [ex_first Float64; ex_second Float64], [Create 0 [1; 2; 2; 1]; SwapAxes 2 1 2; Reshape 2 [1; 2; 2]], 2, a.
  split; [exact ex_follows|]. split; [apply ex_in_memory|]. split; [repeat (apply Forall_cons; [exact I|]); constructor|].
  split; [cbn; lia|]. split; [exact H1|]. split; [exact H2|exact H3].
Qed.

(** * Gradients with other components *)

(* two components in a block, and three in the other one without gradient samples *)
Definition ex_pq := ex_labels ["p"] [[0]; [1]]%Z.
Definition ex_other_1 : TensorBlock :=
  fst (tensor_block_add_gradient (ex_block (ex_np [1; 2] 0) (ex_labels ["s"] [[0]]%Z) [] ex_pq) "g" (ex_np [1; 2; 2] 100)
    (ex_labels ["sample"; "atom"] [[0; 0]]%Z) [ex_labels ["c"] [[0]; [1]]%Z]).
Definition ex_other_2 : TensorBlock :=
  fst (tensor_block_add_gradient (ex_block (ex_np [1; 2] 0) (ex_labels ["s"] [[1]]%Z) [] ex_pq) "g" (ex_np [0; 3; 2] 200)
    (ex_labels ["sample"; "atom"] []) [ex_labels ["c"] [[0]; [1]; [2]]%Z]).
Definition ex_other : TensorMap := mk_tensor ex_np_keys [ex_other_1; ex_other_2].

Lemma ex_other_reachable n gradient samples gradient_samples components :
  wf_array gradient -> wf_labels samples -> wf_labels gradient_samples -> Forall wf_labels components ->
  tensor_block_new (ex_np [1; 2] n) samples [] ex_pq = Ok (ex_block (ex_np [1; 2] n) samples [] ex_pq) ->
  snd (tensor_block_add_gradient (ex_block (ex_np [1; 2] n) samples [] ex_pq) "g" gradient gradient_samples components) = Ok tt ->
  wf_block (fst (tensor_block_add_gradient (ex_block (ex_np [1; 2] n) samples [] ex_pq) "g" gradient gradient_samples components)).
Proof.
  intros H1 H2 H3 H4 E1 E2. apply reachable_wf.
  apply reachable_add with (b := ex_block (ex_np [1; 2] n) samples [] ex_pq) (parameter := "g") (data := gradient)
    (samples := gradient_samples) (components := components) (result := Ok tt);
    [|exact H1|exact H3|exact H4|rewrite <- E2; apply surjective_pairing|discriminate].
  apply reachable_new with (data := ex_np [1; 2] n) (samples := samples) (components := []) (properties := ex_pq);
    [apply ex_np_wf|exact H2|constructor|apply ex_labels_wf|exact E1].
Qed.

Lemma ex_other_wf : wf_tensor ex_other.
Proof.
  assert (Hk : axis_labels ex_np_keys) by (split; [apply ex_labels_wf|vm_compute; discriminate]).
  assert (Hb : Forall wf_block [ex_other_1; ex_other_2]).
  { constructor; [|constructor; [|constructor]]; (apply ex_other_reachable; [apply ex_np_wf|apply ex_labels_wf|apply ex_labels_wf| | |]);
      try (vm_compute; reflexivity); (constructor; [apply ex_labels_wf|constructor]). }
  assert (E : tensor_map_new ex_np_keys [ex_other_1; ex_other_2] = Ok ex_other) by (vm_compute; reflexivity).
  destruct (proj1 (tensor_map_new_ok _ _ _ Hk Hb) E) as [Hhom _]. split; [exact Hk|]. split; [exact Hb|exact Hhom].
Qed.

Lemma ex_other_numpy : numpy_tensor 4 ex_other.
Proof.
  intros b [<-|[<-|[]]]; (split; [split; reflexivity|]); vm_compute; intros q g [H|[]]; inversion H; split; reflexivity.
Qed.

Lemma numpy_move_acts f origin : follows_numpy f -> acts_as_numpy f origin (numpy_move f).
Proof.
  intros Hf m a b input output samples start stop H1 H2 H3 H4 H5 H6 H7 H8.
  rewrite <- (array_move_acts f origin Hf m a b input output samples start stop) by assumption. clear H1 H2 H3 H4 H5.
  destruct H6 as (Hki & Hni & Hci), H7 as (Hko & Hno & Hco). unfold numpy_move.
  assert (Hwi : wf_nd (a_nd input)) by (rewrite Hni; unfold wf_nd; cbn; apply elements_length).
  assert (Hwo : wf_nd (a_nd output)) by (rewrite Hno; unfold wf_nd; cbn; apply elements_length).
  assert (Hsame : same_components (shape_of input) (shape_of output) start stop) by (unfold shape_of; rewrite Hni, Hno; exact H8).
  set (ni := np_new [] (nd_shape (a_nd input)) Float64 (nd_data (a_nd input))).
  set (no := np_new (fst ni) (nd_shape (a_nd output)) Float64 (nd_data (a_nd output))).
  assert (Mi : in_memory (fst ni) (snd ni)) by (apply new_in_memory; exact Hwi).
  assert (Mi' : in_memory (fst no) (snd ni)) by (apply in_memory_app; exact Mi).
  assert (Mo : in_memory (fst no) (snd no)) by (apply new_in_memory; exact Hwo).
  rewrite (array_move_acts f origin Hf (fst no) (snd ni) (snd no) input output samples start stop); try assumption.
  - reflexivity.
  - apply new_apart. exact Hwo.
  - cbn. lia.
  - reflexivity.
  - split; [exact Hki|]. split; [|exact Hci].
    transitivity (mk_nd (nd_shape (a_nd input)) (nd_data (a_nd input))); [destruct (a_nd input); reflexivity|].
    f_equal. unfold no. cbn [np_new fst]. rewrite elements_app by exact Mi. symmetry. apply new_elements. exact Hwi.
  - split; [exact Hko|]. split; [|exact Hco].
    transitivity (mk_nd (nd_shape (a_nd output)) (nd_data (a_nd output))); [destruct (a_nd output); reflexivity|].
    f_equal. symmetry. apply new_elements. exact Hwo.
Qed.

Lemma components_not_same : exists f origin p t keys sort t' e,
  follows_numpy f /\ acts_as_numpy f origin (numpy_move f) /\ wf_tensor t /\ numpy_tensor origin t /\ wf_labels keys
  /\ keys_to_samples p t keys sort = (t', Ok tt) /\ snd (keys_to_samples_with (numpy_move f) p t keys sort) = Err e.
Proof.
  exists ex_rules, 4, Release, ex_other, ex_moved_keys, true. do 2 eexists. split; [exact ex_follows|].
  split; [apply numpy_move_acts; exact ex_follows|]. split; [exact ex_other_wf|]. split; [exact ex_other_numpy|]. split; [apply ex_labels_wf|].
  split; vm_compute; reflexivity.
Qed.
