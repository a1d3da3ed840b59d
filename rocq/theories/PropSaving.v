(* Properties C110 to C113: what is in files after saving *)
From Coq Require Import Permutation.
From Verif Require Import Base Labels Array Block Tensor Npy Io Origin CApi Saving Spec SpecTensor SpecIo SpecApi SpecFormat SpecSaving
  SavingFacts Examples ExamplesIo ExamplesApi ExamplesSaving.
Local Open Scope string_scope.
Local Open Scope list_scope.
Local Open Scope nat_scope.

(* C110: only saving changes files, and only its own file *)
Theorem C110_only_saving_changes_files :
  forall p files calls i thread c v r name,
    called p (world_start files) calls i thread c v r ->
    file_at (state_at p (world_start files) calls (S i)) name <> file_at (state_at p (world_start files) calls i) name ->
    exists path tensor system remains, c = TensorSave (Some path) tensor system remains /\ c_str path = name.
Proof. exact only_saving_writes. Qed.
Print Assumptions C110_only_saving_changes_files.

(* C110: after a success, there is a complete file with the documented content *)
Theorem C110_saved_file_conforms :
  forall p files calls i thread path h system remains v t,
    never_crashed p (world_start files) calls -> ordinary p (world_start files) calls ->
    called p (world_start files) calls i thread (TensorSave (Some path) (Some h) system remains) v (Returned 0) ->
    tensor_at (state_at p (world_start files) calls i) h t -> tensor_in_memory (ot_tensor t) ->
    exists content, file_at (state_at p (world_start files) calls (S i)) (c_str path) = Some (Some content)
      /\ conforming (ot_tensor t) content.
Proof. exact saved_content. Qed.
Print Assumptions C110_saved_file_conforms.

Example C110_example :
  never_crashed Debug (world_start ex_saved_files) ex_saving /\ ordinary Debug (world_start ex_saved_files) ex_saving
  /\ called Debug (world_start ex_saved_files) ex_saving 6 0 (TensorSave (Some "copy.npz") (Some 3) None None) VNone (Returned 0)
  /\ tensor_at (ex_saving_state 6) 3 ex_loaded_owned /\ tensor_in_memory (ot_tensor ex_loaded_owned)
  /\ file_at (ex_saving_state 6) "copy.npz" = None /\ file_at (ex_saving_state 7) "copy.npz" = Some (Some ex_archive).
Proof.
  split; [exact ex_saving_never_crashed|]. split; [exact ex_saving_ordinary|].
  split; [split; [reflexivity|vm_compute; reflexivity]|]. split; [exact (proj2 (ex_saving_tensors 6 (or_introl eq_refl)))|].
  split; [rewrite ex_loaded_tensor; exact ex_tensor_in_memory|]. split; vm_compute; reflexivity.
Qed.

(* C111. The full statement: saving which fails does not change any file. This is
   proved here when the data of all the arrays can be read. *)
Theorem C111_failed_save_keeps_files_partial :
  forall p files calls i thread path tensor system remains v r name,
    never_crashed p (world_start files) calls -> ordinary p (world_start files) calls ->
    called p (world_start files) calls i thread (TensorSave path tensor system remains) v r -> r <> Returned 0 ->
    (forall h t, tensor = Some h -> tensor_at (state_at p (world_start files) calls i) h t ->
       tensor_in_memory (ot_tensor t) /\ describable (ot_tensor t) /\ readable_tensor (ot_tensor t)) ->
    file_at (state_at p (world_start files) calls (S i)) name = file_at (state_at p (world_start files) calls i) name.
Proof. exact failed_save_keeps. Qed.
Print Assumptions C111_failed_save_keeps_files_partial.

Example C111_example :
  never_crashed Debug (world_start ex_saved_files) ex_saving /\ ordinary Debug (world_start ex_saved_files) ex_saving
  /\ called Debug (world_start ex_saved_files) ex_saving 7 1
       (TensorSave (Some "missing/copy.npz") (Some 3) (Some "No such file or directory (os error 2)") None) VNone (Returned 2)
  /\ tensor_at (ex_saving_state 7) 3 ex_loaded_owned
  /\ tensor_in_memory (ot_tensor ex_loaded_owned) /\ describable (ot_tensor ex_loaded_owned) /\ readable_tensor (ot_tensor ex_loaded_owned)
  /\ file_at (ex_saving_state 8) "copy.npz" = Some (Some ex_archive).
Proof.
  split; [exact ex_saving_never_crashed|]. split; [exact ex_saving_ordinary|].
  split; [split; [reflexivity|vm_compute; reflexivity]|]. split; [exact (proj2 (ex_saving_tensors 7 (or_intror (or_introl eq_refl))))|].
  rewrite ex_loaded_tensor. split; [exact ex_tensor_in_memory|]. split; [exact ex_tensor_describable|].
  split; [exact ex_readable|vm_compute; reflexivity].
Qed.

(* C111: the previous file is lost when there is an array which can not be read *)
Theorem C111_failed_save_keeps_files_refuted :
  exists p files calls i thread path h t v r,
    never_crashed p (world_start files) calls /\ ordinary p (world_start files) calls
    /\ tensor_at (state_at p (world_start files) calls i) h t /\ tensor_in_memory (ot_tensor t) /\ describable (ot_tensor t)
    /\ called p (world_start files) calls i thread (TensorSave (Some path) (Some h) None (unfinished (ot_tensor t))) v r
    /\ r <> Returned 0
    /\ file_at (state_at p (world_start files) calls (S i)) (c_str path) <> file_at (state_at p (world_start files) calls i) (c_str path).
Proof. exact ex_destroyed. Qed.
Print Assumptions C111_failed_save_keeps_files_refuted.

(* C112: a file which could not be saved is never loaded as another tensor map *)
Theorem C112_unfinished_archive_is_not_loaded :
  forall p e t names t',
    wf_tensor t -> tensor_in_memory t -> describable t ->
    snd (put_tensor e t) <> Ok tt -> Permutation names (map fst (fst (put_tensor e t))) ->
    load p names (fst (put_tensor e t)) <> Ok t'.
Proof. exact unfinished_not_loaded. Qed.
Print Assumptions C112_unfinished_archive_is_not_loaded.

(* C112: loading it is an error, as long as nothing else is saved there *)
Theorem C112_unfinished_file_is_refused :
  forall p files calls i j t1 t2 path h t v1 r1 path' names temporary v2 r2,
    never_crashed p (world_start files) calls -> ordinary p (world_start files) calls ->
    called p (world_start files) calls i t1 (TensorSave (Some path) (Some h) None (unfinished (ot_tensor t))) v1 r1 -> r1 <> Returned 0 ->
    tensor_at (state_at p (world_start files) calls i) h t -> tensor_in_memory (ot_tensor t) -> describable (ot_tensor t) ->
    i < j ->
    (forall k thread c v r, i < k < j -> called p (world_start files) calls k thread c v r -> ~ writes_file c (c_str path)) ->
    called p (world_start files) calls j t2 (TensorLoad (Some path') names temporary) v2 r2 ->
    c_str path' = c_str path -> lists_archive (state_at p (world_start files) calls j) (c_str path) names ->
    r2 <> Returned 0 /\ v2 = VTensor None [].
Proof. exact unfinished_refused. Qed.
Print Assumptions C112_unfinished_file_is_refused.

Example C112_example :
  never_crashed Debug (world_start ex_saved_files) ex_saving /\ ordinary Debug (world_start ex_saved_files) ex_saving
  /\ called Debug (world_start ex_saved_files) ex_saving 8 0
       (TensorSave (Some "tensor.npz") (Some 2) None (unfinished (ot_tensor ex_not_readable_owned))) VNone (Returned 255)
  /\ tensor_at (ex_saving_state 8) 2 ex_not_readable_owned
  /\ tensor_in_memory (ot_tensor ex_not_readable_owned) /\ describable (ot_tensor ex_not_readable_owned)
  /\ length (fst (put_tensor LittleEndian (ot_tensor ex_not_readable_owned))) = 14
  /\ exists names, called Debug (world_start ex_saved_files) ex_saving 9 1 (TensorLoad (Some "tensor.npz") names 0) (VTensor None []) (Returned 2)
       /\ lists_archive (ex_saving_state 9) "tensor.npz" names.
Proof.
  split; [exact ex_saving_never_crashed|]. split; [exact ex_saving_ordinary|].
  split; [split; [reflexivity|vm_compute; reflexivity]|].
  split; [exact (proj1 (ex_saving_tensors 8 (or_intror (or_intror (or_introl eq_refl)))))|].
  split; [exact (proj1 ex_not_readable_in_memory)|]. split; [exact (proj2 ex_not_readable_in_memory)|].
  split; [vm_compute; reflexivity|].
  eexists. split; [split; [reflexivity|vm_compute; reflexivity]|exact ex_saving_lists].
Qed.

(* C113. The full statement: when saving succeeds, everything is in the file. This is
   proved here when there are no errors while writing, and up to what is still in the
   buffer in all cases. *)
Theorem C113_everything_written_partial :
  forall answers ops, Forall (fun answer => answer = None) answers ->
    exists content, write_through answers ops = (content, true) /\ all_written ops content.
Proof. exact written_without_errors. Qed.
Print Assumptions C113_everything_written_partial.

(* C113: everything which comes before the last seek is in the file; from what comes
   after it, at most the last 8 KiB can be missing *)
Theorem C113_all_but_the_end_written_partial :
  forall answers ops position footer content,
    write_through answers (ops ++ SeekTo position :: map WriteAll footer) = (content, true) ->
    exists n, length (concat footer) <= n + capacity
      /\ all_written (ops ++ [SeekTo position; WriteAll (firstn n (concat footer))]) content.
Proof. exact written_but_footer. Qed.
Print Assumptions C113_all_but_the_end_written_partial.

Example C113_example :
  write_through [None; None] ex_ops = (ex_bytes "00005 files directory the end", true)
  /\ Forall (fun answer => answer = None) [None (A := nat); None]
  /\ ex_ops = [WriteAll (ex_bytes "size? files"); SeekTo 0; WriteAll (ex_bytes "00005"); SeekTo 11; SeekTo 11; WriteAll (ex_bytes " directory")]
              ++ SeekTo 21 :: map WriteAll [ex_bytes " the"; ex_bytes " end"]
  /\ write_through [None; None; None; Some 4] ex_ops = (ex_bytes "00005 files directory the", true).
Proof.
  split; [exact ex_ops_all|]. split; [repeat constructor|]. split; [reflexivity|exact ex_ops_lost].
Qed.

(* C113: the end of the file can be missing without any error *)
Theorem C113_everything_written_refuted :
  exists answers ops content, write_through answers ops = (content, true) /\ ~ all_written ops content.
Proof. exact ex_lost. Qed.
Print Assumptions C113_everything_written_refuted.
