(* Concrete programs which use the C API *)
From Coq Require Import Lia Permutation.
From Verif Require Import Base BaseFacts Labels Array Block Tensor Npy Io Origin CApi Spec SpecTensor SpecIo SpecApi
  LabelsFacts ArrayFacts BlockFacts TensorFacts IoFacts ApiFacts OwnerFacts SafeFacts Examples ExamplesIo.
Local Open Scope string_scope.
Local Open Scope list_scope.
Local Open Scope nat_scope.

(** * Checking a program *)

(* [ok] for all the calls of a program *)
Fixpoint check_run (ok : world -> c_call -> c_result -> bool) (p : profile) (w : world) (calls : list (nat * c_call)) : bool :=
  match calls with
  | [] => true
  | (thread, c) :: rest =>
      let '(w1, _, result) := run_call p thread w c in
      ok w c result && match result with Returned _ => check_run ok p w1 rest | _ => true end
  end.

Lemma check_run_sound ok p calls : forall w, check_run ok p w calls = true ->
  forall i thread c v result, called p w calls i thread c v result -> ok (state_at p w calls i) c result = true.
Proof.
  induction calls as [|[thread c] calls IH]; intros w H i thread' c' v result [Hc Hr]; [destruct i; discriminate Hc|].
  cbn [check_run] in H. destruct (run_call p thread w c) as [[w1 v1] r1] eqn:E. apply andb_true_iff in H as [H1 H2].
  rewrite run_cons, E in Hr. destruct i as [|i].
  - cbn [nth_error] in Hc. injection Hc as <- <-. rewrite state_at_0. destruct r1.
    + destruct (run p w1 calls) as [w2 rs]. cbn [snd nth_error] in Hr. injection Hr as <- <-. exact H1.
    + cbn [snd nth_error] in Hr. injection Hr as <- <-. exact H1.
    + cbn [snd nth_error] in Hr. injection Hr as <- <-. exact H1.
  - destruct r1; [|destruct i; discriminate Hr..]. destruct (run p w1 calls) as [w2 rs] eqn:Er. cbn [snd nth_error] in Hc, Hr.
    rewrite (state_at_S _ _ _ _ _ _ _ _ _ E). apply (IH w1 H2 i thread' c' v). split; [exact Hc|]. rewrite Er. exact Hr.
Qed.

Definition check_readable (c : c_labels) : bool :=
  match cl_names c with Some memory => cl_size c <=? length memory | None => true end
  && match cl_values c with Some memory => cl_count c * cl_size c <=? length memory | None => true end.

Lemma check_readable_sound c : check_readable c = true -> readable c.
Proof.
  unfold check_readable. rewrite andb_true_iff. intros [H1 H2].
  split; intros memory E; rewrite E in *; apply Nat.leb_le; assumption.
Qed.

Lemma check_all_readable_sound cs : forallb check_readable cs = true -> Forall readable cs.
Proof. rewrite forallb_forall. intros H. apply Forall_forall. intros c Hc. apply check_readable_sound. auto. Qed.

Definition check_own (w : world) (block : block_ptr) : bool :=
  match block with
  | BlockAt h => match hm_get Nat.eqb (w_blocks w) h with Some _ => true | None => false end
  | _ => false
  end.

Lemma check_own_sound w block : check_own w block = true -> own_block w block.
Proof.
  unfold check_own. destruct block as [|h|]; try discriminate. destruct (hm_get Nat.eqb (w_blocks w) h) as [b|] eqn:E; [|discriminate].
  intros _. exists h, b. split; [reflexivity|]. apply hm_get_at. exact E.
Qed.

Definition check_live (w : world) (block : block_ptr) : bool :=
  match block with
  | BlockIn t i =>
      match hm_get Nat.eqb (w_tensors w) t with
      | Some t => match nth_error (tm_blocks (ot_tensor t)) i, nth_error (ot_arrays t) i with Some _, Some _ => true | _, _ => false end
      | None => false
      end
  | _ => check_own w block
  end.

Lemma check_live_sound w block : check_live w block = true -> live_block w block.
Proof.
  unfold check_live. intros H. destruct block as [|h|t i].
  - discriminate H.
  - apply check_own_sound in H as (h' & b & E & Hb). exists b. left. exists h'. auto.
  - destruct (hm_get Nat.eqb (w_tensors w) t) as [ot|] eqn:E; [|discriminate]. apply hm_get_at in E.
    destruct (nth_error (tm_blocks (ot_tensor ot)) i) as [b|] eqn:Eb; [|discriminate].
    destruct (nth_error (ot_arrays ot) i) as [arrays|] eqn:Ea; [|discriminate].
    exists (mk_owned_block b arrays). right. exists t, i, ot. auto.
Qed.

Definition check_tensor_handle (w : world) (tensor : option nat) : bool :=
  match tensor with
  | Some h => match hm_get Nat.eqb (w_tensors w) h with Some _ => true | None => false end
  | None => true
  end.

Lemma check_tensor_handle_sound w tensor : check_tensor_handle w tensor = true -> live_tensor w tensor.
Proof.
  unfold check_tensor_handle. intros H h ->. destruct (hm_get Nat.eqb (w_tensors w) h) as [t|] eqn:E; [|discriminate].
  exists t. apply hm_get_at. exact E.
Qed.

Definition is_rust (a : eqs_array) : bool := match a_kind a with RustNdarray => true | _ => false end.

Definition check_mergeable (w : world) : bool :=
  forallb (fun ht => forallb (fun b => forallb is_rust (block_arrays b)) (tm_blocks (ot_tensor (snd ht)))) (w_tensors w).

Lemma is_rust_kind a : is_rust a = true -> a_kind a = RustNdarray.
Proof. unfold is_rust. destruct (a_kind a); try discriminate. reflexivity. Qed.

Lemma check_mergeable_sound w tensor : check_mergeable w = true -> mergeable w tensor.
Proof.
  unfold check_mergeable. rewrite forallb_forall. intros H h t _ Ht. specialize (H _ Ht). cbn [snd] in H. rewrite forallb_forall in H.
  exists RustNdarray. intros b Hb. specialize (H b Hb). unfold block_arrays in H. cbn [forallb] in H. apply andb_true_iff in H as [H1 H2].
  split; [apply is_rust_kind; exact H1|]. intros name part Hp. rewrite forallb_forall in H2. apply is_rust_kind, H2.
  apply in_map_iff. exists (name, part). auto.
Qed.

Definition is_null (block : block_ptr) : bool := match block with BlockNull => true | _ => false end.
Lemma is_null_eq block : is_null block = true -> block = BlockNull.
Proof. destruct block; [reflexivity|discriminate..]. Qed.

Definition check_respects (w : world) (c : c_call) (_ : c_result) : bool :=
  match c with
  | RegisterDataOrigin _ _ => true
  | GetDataOrigin _ buffer => match buffer with Some memory => 0 <? length memory | None => true end
  | LabelsPosition _ values count => match values with Some memory => count <=? length memory | None => count =? 0 end
  | BlockCreate _ samples components properties =>
      check_readable samples && forallb check_readable components && check_readable properties
  | BlockFree block => is_null block || check_own w block
  | BlockCopy block | BlockLabels block _ _ _ | BlockData block _ _ | BlockGradientsList block _ _ =>
      is_null block || check_live w block
  | BlockAddGradient block _ _ samples components =>
      (is_null block || check_own w block) && check_readable samples && forallb check_readable components
  | TensorCreate keys blocks => check_readable keys && forallb (check_own w) blocks
  | TensorFree tensor | TensorKeys tensor _ | TensorBlockById tensor _ _
  | TensorComponentsToProperties tensor _ | TensorSave _ tensor _ _ => check_tensor_handle w tensor
  | TensorBlocksMatching tensor _ _ selection => check_tensor_handle w tensor && check_readable selection
  | TensorKeysToProperties tensor keys _ _ | TensorKeysToSamples tensor keys _ _ =>
      check_tensor_handle w tensor && check_readable keys && check_mergeable w
  | TensorLoad _ _ _ | LastError => true
  end.

Lemma check_respects_sound w c r : check_respects w c r = true -> respects w c.
Proof.
  destruct c; cbn [check_respects respects]; rewrite ?andb_true_iff, ?orb_true_iff; intros H; try exact I;
    try (apply check_tensor_handle_sound; exact H);
    try (destruct H as [H|H]; [left; apply is_null_eq; exact H|right; apply check_live_sound || apply check_own_sound; exact H]; fail).
  - intros memory ->. apply Nat.ltb_lt. exact H.
  - destruct values; cbn [holds_values]; [apply Nat.leb_le|apply Nat.eqb_eq]; exact H.
  - destruct H as [[H1 H2] H3]. split; [|split]; auto using check_readable_sound, check_all_readable_sound.
  - destruct H as [[H1 H2] H3]. split; [|split]; auto using check_readable_sound, check_all_readable_sound.
    destruct H1 as [H1|H1]; [left; apply is_null_eq; exact H1|right; apply check_own_sound; exact H1].
  - destruct H as [H1 H2]. split; [apply check_readable_sound; exact H1|]. rewrite forallb_forall in H2. intros b Hb.
    apply check_own_sound. auto.
  - destruct H as [H1 H2]. split; [apply check_tensor_handle_sound; exact H1|apply check_readable_sound; exact H2].
  - destruct H as [[H1 H2] H3]. split; [apply check_tensor_handle_sound; exact H1|].
    split; [apply check_readable_sound; exact H2|apply check_mergeable_sound; exact H3].
  - destruct H as [[H1 H2] H3]. split; [apply check_tensor_handle_sound; exact H1|].
    split; [apply check_readable_sound; exact H2|apply check_mergeable_sound; exact H3].
Qed.

Lemma check_respectful p w calls : check_run check_respects p w calls = true -> respectful p w calls.
Proof.
  intros H i thread c v r Hc. eapply check_respects_sound. eapply check_run_sound; [exact H|exact Hc].
Qed.

Definition check_ordinary (_ : world) (c : c_call) (r : c_result) : bool :=
  match c with
  | TensorComponentsToProperties _ _ => match r with Returned 0 => true | _ => false end
  | _ => true
  end.

Definition check_array (a : eqs_array) : bool :=
  is_rust a && (length (nd_data (a_nd a)) =? volume (shape_of a)) && (length (a_strides a) =? length (shape_of a)).

Definition check_arrays (c : c_call) : bool :=
  match c with
  | BlockCreate data _ _ _ | BlockAddGradient _ _ data _ _ => check_array data
  | _ => true
  end.

Lemma check_array_sound a : check_array a = true -> ordinary_array a.
Proof.
  unfold check_array. rewrite !andb_true_iff. intros [[H1 H2] H3]. apply is_rust_kind in H1. apply Nat.eqb_eq in H2, H3.
  split; [split; intros _; assumption|]. rewrite H1. discriminate.
Qed.

Lemma check_ordinary_program p w calls : forallb (fun tc => check_arrays (snd tc)) calls = true ->
  check_run check_ordinary p w calls = true -> ordinary p w calls.
Proof.
  intros H1 H2. split.
  - intros thread c Hc. rewrite forallb_forall in H1. specialize (H1 _ Hc). cbn [snd] in H1.
    destruct c; cbn [check_arrays ordinary_call] in *; try exact I; apply check_array_sound; exact H1.
  - intros i thread tensor variables v r Hc. pose proof (check_run_sound _ _ _ _ H2 _ _ _ _ _ Hc) as H. cbn [check_ordinary] in H.
    destruct r as [[| |]| |]; try discriminate H. reflexivity.
Qed.

(** * A program *)

(* labels in the memory of the caller *)
Definition ex_c (names : list string) (rs : list (list Z)) : c_labels :=
  mk_c_labels None (Some names) (match rs with [] => None | _ => Some (concat rs) end) (length names) (length rs).

Definition ex_c_xyz := ex_c ["xyz"] [[0]; [1]]%Z.
Definition ex_c_cell := ex_c ["cell"] [[1]; [2]]%Z.
Definition ex_c_properties := ex_c ["n"; "l"] [[0; 0]; [0; 1]; [3; 1]]%Z.
Definition ex_c_keys := ex_c ["center"; "spin"; "kind"] [[1; 0; 4]; [1; 1; 4]; [8; 0; 4]]%Z.

Definition ex_text (n : nat) : list ascii := repeat space n.

(* two threads register origins, make blocks with gradients and a tensor map from
   them, use it, save it, and free everything *)
Definition ex_calls : list (nat * c_call) :=
  [ (0, RegisterDataOrigin (Some "numpy") out);
    (1, RegisterDataOrigin (Some "torch") out);
    (0, BlockCreate (ex_array [2; 2; 3] 100) (ex_c ["structure"] [[4]; [2]]%Z) [ex_c_xyz] ex_c_properties);
    (0, BlockAddGradient (BlockAt 0) (Some "positions") ex_gradient_array_1 (ex_c ["sample"; "atom"] [[1; 5]; [0; 5]; [1; 6]]%Z)
          [ex_c_cell; ex_c_xyz]);
    (1, BlockCreate (ex_array [3; 2; 3] 300) (ex_c ["structure"] [[2]; [7]; [9]]%Z) [ex_c_xyz] ex_c_properties);
    (1, BlockAddGradient (BlockAt 1) (Some "positions") ex_gradient_array_2 (ex_c ["sample"; "atom"] [[2; 5]]%Z)
          [ex_c_cell; ex_c_xyz]);
    (0, BlockCreate (ex_array [1; 2; 3] 500) (ex_c ["structure"] [[1]]%Z) [ex_c_xyz] ex_c_properties);
    (0, BlockAddGradient (BlockAt 2) (Some "positions") ex_gradient_array_3 (ex_c ["sample"; "atom"] [])
          [ex_c_cell; ex_c_xyz]);
    (* 8: these calls fail *)
    (1, BlockCreate (ex_array [2; 2; 2] 0) (ex_c ["structure"] [[4]; [2]]%Z) [ex_c_xyz] ex_c_properties);
    (0, BlockAddGradient (BlockAt 2) (Some "positions") ex_gradient_array_3 (ex_c ["sample"; "atom"] [])
          [ex_c_cell; ex_c_xyz]);
    (1, TensorCreate ex_c_keys [BlockAt 0; BlockAt 1; BlockAt 0]);
    (0, RegisterDataOrigin (Some "numpy") out);
    (0, LastError);
    (1, LastError);
    (* 14 *)
    (1, BlockCopy (BlockAt 1));
    (0, TensorCreate ex_c_keys [BlockAt 0; BlockAt 1; BlockAt 2]);
    (0, TensorBlockById (Some 4) out 1);
    (1, BlockLabels (BlockIn 4 1) (Some "positions") 2 out);
    (0, BlockData (BlockIn 4 1) (Some "positions") out);
    (0, TensorBlocksMatching (Some 4) (Some [0; 0; 0; 0]) out (ex_c ["spin"] [[0]]%Z));
    (1, GetDataOrigin 2 (Some (ex_text 10)));
    (* 21 *)
    (0, TensorSave (Some "tensor.npz") (Some 4) None None);
    (0, TensorKeysToSamples (Some 4) (ex_c ["spin"] []) true 0);
    (1, TensorLoad (Some "tensor.npz") (rev (map fst ex_archive)) 0);
    (0, TensorComponentsToProperties (Some 5) (Some [Some "xyz"]));
    (0, TensorFree (Some 4));
    (1, TensorFree (Some 5));
    (0, BlockFree (BlockAt 3)) ].

Definition ex_start : world := world_start [].
Definition ex_state (i : nat) : world := state_at Debug ex_start ex_calls i.

Lemma ex_results : map snd (snd (run Debug ex_start ex_calls)) =
  [Returned 0; Returned 0; Returned 0; Returned 0; Returned 0; Returned 0; Returned 0; Returned 0;
   Returned 1; Returned 1; Returned 1; Returned 0; Returned 0; Returned 0;
   Returned 0; Returned 0; Returned 0; Returned 0; Returned 0; Returned 0; Returned 0;
   Returned 0; Returned 0; Returned 0; Returned 0; Returned 0; Returned 0; Returned 0].
Proof. vm_compute. reflexivity. Qed.

Lemma ex_respectful : respectful Debug ex_start ex_calls.
Proof. apply check_respectful. vm_compute. reflexivity. Qed.

Lemma ex_never_crashed : never_crashed Debug ex_start ex_calls.
Proof. apply respectful_safe. exact ex_respectful. Qed.

Lemma ex_ordinary : ordinary Debug ex_start ex_calls.
Proof. apply check_ordinary_program; vm_compute; reflexivity. Qed.

(* the tensor map, before it is saved *)
Definition ex_arrays : list (list nat) := [[0; 1]; [2; 3]; [4; 5]].
Definition ex_owned : owned_tensor := mk_owned_tensor ex_tensor ex_arrays.

Lemma ex_state_tensors i : In i [16; 17; 18; 19; 20; 21] -> w_tensors (ex_state i) = [(4, ex_owned)].
Proof.
  intros H. cbn [In] in H. repeat destruct H as [<-|H]; [vm_compute; reflexivity..|destruct H].
Qed.

Lemma ex_tensor_at i : In i [16; 17; 18; 19; 20; 21] -> tensor_at (ex_state i) 4 ex_owned.
Proof. intros H. unfold tensor_at. rewrite (ex_state_tensors i H). left. reflexivity. Qed.

Lemma ex_points_to : points_to (ex_state 17) (BlockIn 4 1) (mk_owned_block ex_block_2 [2; 3]).
Proof.
  right. exists 4, 1, ex_owned. split; [reflexivity|]. split; [apply ex_tensor_at; cbn; auto|]. split; [vm_compute; reflexivity|reflexivity].
Qed.

(** * Programs which go wrong *)

(* a name which is too long for the buffer, then no buffer at all *)
Definition ex_buffers : list (nat * c_call) :=
  [ (0, RegisterDataOrigin (Some "numpy") out);
    (0, GetDataOrigin 1 (Some (ex_text 5)));
    (0, GetDataOrigin 1 (Some [])) ].

(* keys where the name of a variable contains NUL *)
Definition ex_nul_archive : archive :=
  [("keys.npy", ex_file (PyList [ex_i4 (String "a" (String nul "b"))]) [1%Z] (ex_numbers [1%Z]))].

Definition ex_nul_files : list (string * file) := [("nul.npz", Some ex_nul_archive)].

Lemma ex_buffer_size : exists p calls i thread id buffer v name,
  registered p (world_start []) calls 0 name id /\ 0 < i /\ length buffer <= String.length name
  /\ called p (world_start []) calls i thread (GetDataOrigin id (Some buffer)) v (Returned 1).
Proof.
  exists Release, ex_buffers, 1, 0, 1, (ex_text 5), (VText (ex_text 5)), "numpy".
  split; [exists 0, "numpy"; vm_compute; repeat split|]. split; [repeat constructor|]. split; [repeat constructor|].
  vm_compute. split; reflexivity.
Qed.

Lemma ex_empty_buffer : exists calls i thread id v reason,
  called Release (world_start []) calls i thread (GetDataOrigin id (Some [])) v (Crashed reason)
  /\ called Debug (world_start []) calls i thread (GetDataOrigin id (Some [])) v (Returned 255).
Proof.
  exists ex_buffers, 2, 0, 1, (VText []), "copy_str_to_c writes out of the buffer". vm_compute. repeat split.
Qed.

Lemma ex_load_unwinds : forall p, exists files calls i thread c v m, called p (world_start files) calls i thread c v (Unwound m).
Proof.
  intros p. exists ex_nul_files, [(0, TensorLoad (Some "nul.npz") ["keys.npy"] 0)], 0, 0.
  exists (TensorLoad (Some "nul.npz") ["keys.npy"] 0), (VTensor None []), "error message contains a null byte".
  split; [reflexivity|]. destruct p; vm_compute; reflexivity.
Qed.

Lemma ex_small_buffer : exists p calls i thread handle buffer c indexes count,
  count <> length buffer
  /\ snd (fst (run_call p thread (state_at p (world_start []) calls i)
            (TensorBlocksMatching (Some handle) (Some buffer) out c))) = VIndexes indexes count
  /\ snd (run_call p thread (state_at p (world_start []) calls i)
            (TensorBlocksMatching (Some handle) (Some buffer) out c)) = Returned 255.
Proof.
  exists Release, ex_calls, 19, 0, 4, [7], (ex_c ["spin"] [[0]]%Z), [0], 2.
  split; [discriminate|]. split; vm_compute; reflexivity.
Qed.

Lemma ex_blocks_at :
  Forall2 (fun b ob => exists h, b = BlockAt h /\ block_at (ex_state 15) h ob) [BlockAt 0; BlockAt 1; BlockAt 2]
    [mk_owned_block ex_block_1 [0; 1]; mk_owned_block ex_block_2 [2; 3]; mk_owned_block ex_block_3 [4; 5]].
Proof.
  assert (E : w_blocks (ex_state 15) = [(3, mk_owned_block ex_block_2 [8; 9]); (2, mk_owned_block ex_block_3 [4; 5]);
    (1, mk_owned_block ex_block_2 [2; 3]); (0, mk_owned_block ex_block_1 [0; 1])]) by (vm_compute; reflexivity).
  unfold block_at. rewrite E. clear E.
  repeat (apply Forall2_cons; [eexists; split; [reflexivity|]; cbn [In]; auto 10|]). apply Forall2_nil.
Qed.

Lemma ex_not_written : forall k thread c v r, 21 < k < 23 -> called Debug ex_start ex_calls k thread c v r ->
  ~ writes_file c "tensor.npz".
Proof.
  intros k thread c v r Hk [Hc _]. assert (k = 22) as -> by lia. cbn [nth_error ex_calls] in Hc. injection Hc as <- <-.
  intros H. exact H.
Qed.

Lemma lists_rev w name content : hm_get String.eqb (w_files w) name = Some (Some content) ->
  lists_archive w name (rev (map fst content)).
Proof.
  intros E content' H. rewrite E in H. assert (content' = content) as -> by congruence.
  apply Permutation_sym, Permutation_rev.
Qed.

Lemma ex_lists_archive : lists_archive (ex_state 23) "tensor.npz" (rev (map fst ex_archive)).
Proof. apply lists_rev. vm_compute. reflexivity. Qed.
