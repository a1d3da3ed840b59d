(* Properties C67 and C68: the format of the files *)
From Coq Require Import Permutation.
From Verif Require Import Base Labels Array Block Tensor Npy Io Spec SpecTensor SpecIo SpecFormat
  FormatFacts Examples ExamplesIo ExamplesFormat.
Local Open Scope string_scope.
Local Open Scope list_scope.
Local Open Scope nat_scope.

(* C67: what is saved follows the documented format: exactly the documented
   paths, each with a NPY file which holds the right labels or numbers *)
Theorem C67_saved_archive_conforms :
  forall e t a, wf_tensor t -> tensor_in_memory t -> save e t = Ok a -> conforming t a.
Proof. exact save_conforming. Qed.
Print Assumptions C67_saved_archive_conforms.

(* C67: the same for the labels and the arrays alone *)
Theorem C67_labels_file :
  forall e l f, wf_labels l -> write_labels e l = Ok f -> labels_file l f.
Proof. exact written_labels_file. Qed.
Print Assumptions C67_labels_file.

Theorem C67_data_file :
  forall e a f, Forall bits64 (nd_data (a_nd a)) -> write_data e a = Ok f -> data_file a f.
Proof. exact written_data_file. Qed.
Print Assumptions C67_data_file.

Example C67_example :
  wf_tensor ex_tensor /\ tensor_in_memory ex_tensor /\ save LittleEndian ex_tensor = Ok ex_archive
  /\ conforming ex_tensor ex_archive
  /\ wf_labels ex_big_labels /\ write_labels LittleEndian ex_big_labels = Ok ex_labels_file
  /\ Forall bits64 (nd_data ex_floats) /\ write_data BigEndian (rust_ndarray ex_floats) = Ok ex_data_file.
Proof.
  split; [exact ex_tensor_wf|]. split; [exact ex_tensor_in_memory|]. split; [exact ex_archive_ok|].
  split; [exact ex_archive_conforming|]. split; [apply ex_labels_wf|]. split; [exact ex_labels_file_ok|].
  split; [exact (proj1 ex_floats_float)|exact ex_data_file_ok].
Qed.

(* C68: every archive which follows the documented format is loaded, and gives
   the tensor map it describes, whatever program wrote it *)
Theorem C68_conforming_archives_load :
  forall p t a names,
    wf_tensor t -> tensor_in_memory t -> c_parameters t -> has_elements t ->
    conforming t a -> Permutation names (map fst a) ->
    exists t', load p names a = Ok t' /\ same_tensor t t' /\ wf_tensor t'.
Proof. exact load_conforming. Qed.
Print Assumptions C68_conforming_archives_load.

(* C68: every way to write a Python literal is understood *)
Theorem C68_literals :
  forall v text padding, spelling v text -> blank padding -> parse_literal (text ++ padding) = Some v.
Proof. exact parse_literal_spelling. Qed.
Print Assumptions C68_literals.

(* C68: every NPY header is understood *)
Theorem C68_headers :
  forall descr shape content f,
    usize_shape shape -> npy_file descr shape content f ->
    header_from_reader f = Ok (mk_header descr false shape, content).
Proof. exact npy_header. Qed.
Print Assumptions C68_headers.

Example C68_example :
  wf_tensor ex_tensor /\ tensor_in_memory ex_tensor /\ c_parameters ex_tensor /\ has_elements ex_tensor
  /\ conforming ex_tensor ex_other_archive
  /\ load Release (map fst ex_other_archive) ex_other_archive = Ok ex_tensor
  /\ (* the keys were not written by this library *)
     (forall e, write_labels e ex_keys <> Ok ex_other_keys)
  /\ spelling (PyDict ex_other_entries) ex_other_text
  /\ labels_file ex_keys ex_other_keys.
Proof.
  split; [exact ex_tensor_wf|]. split; [exact ex_tensor_in_memory|]. split; [exact ex_c_parameters|].
  split; [exact ex_stored|]. split; [exact ex_other_conforming|]. split; [vm_compute; reflexivity|].
  split; [intros [|]; vm_compute; discriminate|]. split; [exact ex_other_spelling|exact ex_other_keys_file].
Qed.
