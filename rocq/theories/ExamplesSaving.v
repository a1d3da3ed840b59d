(* Programs which save, for C110 to C113 *)
From Coq Require Import Lia Permutation.
From Verif Require Import Base Labels Array Block Tensor Npy Io Origin CApi Saving Spec SpecTensor SpecIo SpecApi SpecFormat SpecSaving
  LabelsFacts IoFacts ApiFacts OwnerFacts SafeFacts SavingFacts Examples ExamplesIo ExamplesApi.
Local Open Scope string_scope.
Local Open Scope list_scope.
Local Open Scope nat_scope.

(* the last two axes are exchanged in memory: the data can not be read *)
Definition ex_exchanged : eqs_array :=
  mk_array RustNdarray (mk_nd [1; 2; 2; 3] (map Z.of_nat (seq 0 12))) [12; 6; 1; 2] (fun _ => Works).

(* the gradient of the second block can not be read *)
Definition ex_block_exchanged : TensorBlock :=
  fst (tensor_block_add_gradient ex_values_2 "positions" ex_exchanged ex_gradient_samples_2 [ex_cell; ex_xyz]).

Definition ex_keys_two := ex_labels ["center"] [[1]; [8]]%Z.
Definition ex_not_readable : TensorMap :=
  match tensor_map_new ex_keys_two [ex_block_1; ex_block_exchanged] with
  | Ok t => t
  | _ => mk_tensor (ex_labels [] []) []
  end.

(* saved where there is another tensor map, then loaded; other calls which fail; a
   tensor map is copied to another file *)
Definition ex_saving : list (nat * c_call) :=
  [ (0, BlockCreate (ex_array [2; 2; 3] 100) (ex_c ["structure"] [[4]; [2]]%Z) [ex_c_xyz] ex_c_properties);
    (0, BlockAddGradient (BlockAt 0) (Some "positions") ex_gradient_array_1 (ex_c ["sample"; "atom"] [[1; 5]; [0; 5]; [1; 6]]%Z)
          [ex_c_cell; ex_c_xyz]);
    (0, BlockCreate (ex_array [3; 2; 3] 300) (ex_c ["structure"] [[2]; [7]; [9]]%Z) [ex_c_xyz] ex_c_properties);
    (0, BlockAddGradient (BlockAt 1) (Some "positions") ex_exchanged (ex_c ["sample"; "atom"] [[2; 5]]%Z)
          [ex_c_cell; ex_c_xyz]);
    (0, TensorCreate (ex_c ["center"] [[1]; [8]]%Z) [BlockAt 0; BlockAt 1]);
    (0, TensorLoad (Some "tensor.npz") (map fst ex_archive) 0);
    (0, TensorSave (Some "copy.npz") (Some 3) None None);
    (* 7: these calls fail *)
    (1, TensorSave (Some "missing/copy.npz") (Some 3) (Some "No such file or directory (os error 2)") None);
    (0, TensorSave (Some "tensor.npz") (Some 2) None (unfinished ex_not_readable));
    (1, TensorLoad (Some "tensor.npz") (rev (map fst (fst (put_tensor LittleEndian ex_not_readable)))) 0) ].

Definition ex_saved_files : list (string * file) := [("tensor.npz", Some ex_archive)].
Definition ex_saving_state (i : nat) : world := state_at Debug (world_start ex_saved_files) ex_saving i.

Lemma ex_saving_results : map snd (snd (run Debug (world_start ex_saved_files) ex_saving)) =
  [Returned 0; Returned 0; Returned 0; Returned 0; Returned 0; Returned 0; Returned 0;
   Returned 2; Returned 255; Returned 2].
Proof. vm_compute. reflexivity. Qed.

Lemma ex_saving_never_crashed : never_crashed Debug (world_start ex_saved_files) ex_saving.
Proof. apply respectful_safe, check_respectful. vm_compute. reflexivity. Qed.

Lemma ex_saving_ordinary : ordinary Debug (world_start ex_saved_files) ex_saving.
Proof. apply check_ordinary_program; vm_compute; reflexivity. Qed.

Lemma ex_saving_state_eq i : ex_saving_state i = state_at Debug (world_start ex_saved_files) ex_saving i.
Proof. reflexivity. Qed.

(* the tensor maps which are saved *)
Definition ex_not_readable_owned : owned_tensor := mk_owned_tensor ex_not_readable [[0; 1]; [2; 3]].
Definition ex_loaded_owned : owned_tensor :=
  match find (fun tensor => fst tensor =? 3) (w_tensors (ex_saving_state 6)) with
  | Some (_, t) => t
  | None => ex_owned
  end.

Lemma ex_saving_tensors i : In i [6; 7; 8] ->
  tensor_at (ex_saving_state i) 2 ex_not_readable_owned /\ tensor_at (ex_saving_state i) 3 ex_loaded_owned.
Proof.
  intros H. cbn [In] in H. repeat destruct H as [<-|H]; try destruct H; vm_compute; tauto.
Qed.

Lemma ex_loaded_tensor : ot_tensor ex_loaded_owned = ex_tensor.
Proof. vm_compute. reflexivity. Qed.

Lemma ex_not_readable_in_memory : tensor_in_memory ex_not_readable /\ describable ex_not_readable.
Proof. apply check_tensor_sound. vm_compute. reflexivity. Qed.

Lemma ex_not_readable_is : ~ readable_tensor ex_not_readable.
Proof.
  intros H.
  assert (Hb : nth_error (tm_blocks ex_not_readable) 1 = Some ex_block_exchanged) by (vm_compute; reflexivity).
  apply nth_error_In in Hb.
  assert (Hp : exists part, nth_error (parts_of_block ex_block_exchanged) 1 = Some part /\ bb_data part = ex_exchanged)
    by (eexists; split; vm_compute; reflexivity).
  destruct Hp as (part & Hp & E). apply nth_error_In in Hp. destruct (H _ _ Hb Hp) as [numbers Hn]. rewrite E in Hn.
  vm_compute in Hn. discriminate Hn.
Qed.

Lemma ex_saving_call i thread c v r :
  nth_error ex_saving i = Some (thread, c) -> nth_error (snd (run Debug (world_start ex_saved_files) ex_saving)) i = Some (v, r) ->
  called Debug (world_start ex_saved_files) ex_saving i thread c v r.
Proof. intros H1 H2. split; assumption. Qed.

(* what was in the file can not be loaded any more *)
Lemma ex_destroyed : exists p files calls i thread path h t v r,
  never_crashed p (world_start files) calls /\ ordinary p (world_start files) calls
  /\ tensor_at (state_at p (world_start files) calls i) h t /\ tensor_in_memory (ot_tensor t) /\ describable (ot_tensor t)
  /\ called p (world_start files) calls i thread (TensorSave (Some path) (Some h) None (unfinished (ot_tensor t))) v r
  /\ r <> Returned 0
  /\ file_at (state_at p (world_start files) calls (S i)) (c_str path) <> file_at (state_at p (world_start files) calls i) (c_str path).
Proof.
  exists Debug, ex_saved_files, ex_saving, 8, 0, "tensor.npz", 2, ex_not_readable_owned, VNone, (Returned 255).
  split; [exact ex_saving_never_crashed|]. split; [exact ex_saving_ordinary|].
  rewrite <- !ex_saving_state_eq. split; [exact (proj1 (ex_saving_tensors 8 (or_intror (or_intror (or_introl eq_refl)))))|].
  destruct ex_not_readable_in_memory as [H1 H2]. split; [exact H1|]. split; [exact H2|].
  split; [split; [reflexivity|vm_compute; reflexivity]|]. split; [discriminate|].
  intros E. apply (f_equal (fun f => match f with Some (Some a) => length a | _ => 0 end)) in E. vm_compute in E. discriminate E.
Qed.

Lemma ex_saving_lists :
  lists_archive (ex_saving_state 9) "tensor.npz" (rev (map fst (fst (put_tensor LittleEndian ex_not_readable)))).
Proof. apply lists_rev. vm_compute. reflexivity. Qed.

(** * Bytes in a file *)

Definition ex_bytes (s : string) : bytes := list_ascii_of_string s.

(* the end of the archive could not be written *)
Definition ex_ops : list file_op :=
  [WriteAll (ex_bytes "size? files"); SeekTo 0; WriteAll (ex_bytes "00005"); SeekTo 11; SeekTo 11; WriteAll (ex_bytes " directory"); SeekTo 21;
   WriteAll (ex_bytes " the"); WriteAll (ex_bytes " end")].

Lemma ex_ops_all : write_through [None; None] ex_ops = (ex_bytes "00005 files directory the end", true).
Proof. vm_compute. reflexivity. Qed.

Lemma ex_ops_lost : write_through [None; None; None; Some 4] ex_ops = (ex_bytes "00005 files directory the", true).
Proof. vm_compute. reflexivity. Qed.

Lemma ex_lost : exists answers ops content, write_through answers ops = (content, true) /\ ~ all_written ops content.
Proof.
  exists [None; None; None; Some 4], ex_ops, (ex_bytes "00005 files directory the"). split; [exact ex_ops_lost|].
  intros H. specialize (H 28 "d"%char). assert (E : nth_error (ex_bytes "00005 files directory the") 28 = Some "d"%char).
  { apply H. left. exists (removelast (byte_writes 0 ex_ops)), []. split; [vm_compute; reflexivity|intros []]. }
  vm_compute in E. discriminate E.
Qed.
