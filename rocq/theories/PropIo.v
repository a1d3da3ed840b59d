(* Properties C41-C48 and C54: files *)
From Coq Require Import Permutation.
From Verif Require Import Base Labels Array Block Tensor Npy Io Spec SpecTensor SpecIo
  NpyFacts IoFacts LoadFacts Examples ExamplesIo.
Local Open Scope string_scope.
Local Open Scope list_scope.
Local Open Scope nat_scope.

(* C41: reading back a header gives the same header, and stops exactly after it *)
Theorem C41_header_round_trip :
  forall h f rest,
    ascii_literal (h_descriptor h) -> usize_shape (h_shape h) ->
    header_to_bytes h = Ok f ->
    header_from_reader (f ++ rest) = Ok (h, rest).
Proof. exact header_round_trip. Qed.
Print Assumptions C41_header_round_trip.

(* C41: a header can be written unless its text takes about 4 GiB *)
Theorem C41_header_can_be_written :
  forall h,
    (Z.of_nat (length (write_ascii (header_to_py_value h))) < 2 ^ 32 - 65)%Z ->
    exists f, header_to_bytes h = Ok f.
Proof. exact header_to_bytes_succeeds. Qed.
Print Assumptions C41_header_can_be_written.

Example C41_example :
  ascii_literal (h_descriptor ex_header) /\ usize_shape (h_shape ex_header)
  /\ exists f, header_to_bytes ex_header = Ok f /\ length f = 128
       /\ header_from_reader (f ++ [newline]) = Ok (ex_header, [newline]).
Proof.
  split; [|split].
  - repeat constructor.
  - repeat (apply Forall_cons; [split; [discriminate|reflexivity]|]). apply Forall_nil.
  - eexists. split; [vm_compute; reflexivity|]. split; vm_compute; reflexivity.
Qed.

(* C42: layout of the header. With a text of n characters the header takes
   10 + n + padding + 1 bytes in version 1: its length fits in two bytes exactly
   when n + 11 < 65536. *)
Theorem C42_header_layout :
  forall h f,
    header_to_bytes h = Ok f ->
    exists major length_field text padding,
      f = ascii_of_nat 147 :: bytes_of "NUMPY" ++ [ascii_of_nat major; ascii_of_nat 0] ++ length_field
          ++ (text ++ repeat space padding ++ [newline])
      /\ text = write_ascii (header_to_py_value h)
      /\ length f mod 64 = 0
      /\ little_endian length_field (Z.of_nat (length (text ++ repeat space padding ++ [newline])))
      /\ 1 <= padding <= 64
      /\ ((major = 1 /\ length length_field = 2 /\ (Z.of_nat (length text) + 11 < 65536)%Z)
          \/ (major = 2 /\ length length_field = 4 /\ (65536 <= Z.of_nat (length text) + 11)%Z)).
Proof. exact header_layout. Qed.
Print Assumptions C42_header_layout.

Example C42_example :
  exists f, header_to_bytes ex_header = Ok f /\ nth_error f 6 = Some (ascii_of_nat 1) /\ nth_error f 127 = Some newline.
Proof. eexists. split; [vm_compute; reflexivity|]. split; vm_compute; reflexivity. Qed.

(* C43: labels can be written, and reading them gives the same labels, for files
   in little and big endian *)
Theorem C43_labels_round_trip :
  forall p e l,
    wf_labels l -> labels_names l <> [] -> labels_in_memory l -> describable_labels l ->
    exists f l', write_labels e l = Ok f /\ read_labels p f = Ok l' /\ same_labels l l' /\ wf_labels l'.
Proof. exact labels_round_trip_same. Qed.
Print Assumptions C43_labels_round_trip.

Example C43_example :
  wf_labels ex_big_labels /\ labels_names ex_big_labels = ["first"; "second"]
  /\ rows ex_big_labels = [[-2147483648; 2147483647]; [-1; 0]; [0; -1]]%Z
  /\ labels_in_memory ex_big_labels /\ describable_labels ex_big_labels
  /\ read_labels Release ex_labels_file = Ok ex_big_labels.
Proof.
  split; [apply ex_labels_wf|]. split; [reflexivity|]. split; [vm_compute; reflexivity|].
  split; [exact ex_big_labels_memory|]. split; [apply check_labels_sound; vm_compute; reflexivity|].
  vm_compute. reflexivity.
Qed.

(* C44: arrays can be written, and reading them gives the same shape and bits *)
Theorem C44_data_round_trip :
  forall p e nd,
    float_array (rust_ndarray nd) -> (Z.of_nat (length (nd_shape nd)) < 2 ^ 20)%Z ->
    exists f, write_data e (rust_ndarray nd) = Ok f /\ read_data p f = Ok nd.
Proof. exact data_round_trip_rust. Qed.
Print Assumptions C44_data_round_trip.

(* C44: the same for arrays which are not implemented in Rust, when they can be
   written *)
Theorem C44_any_array :
  forall p e a f,
    float_array a -> write_data e a = Ok f ->
    read_data p f = Ok (mk_nd (nd_shape (a_nd a)) (nd_data (a_nd a))).
Proof. exact data_round_trip. Qed.
Print Assumptions C44_any_array.

Example C44_example :
  float_array (rust_ndarray ex_floats) /\ (Z.of_nat (length (nd_shape ex_floats)) < 2 ^ 20)%Z
  /\ write_data BigEndian (rust_ndarray ex_floats) = Ok ex_data_file
  /\ read_data Debug ex_data_file = Ok ex_floats.
Proof.
  split; [exact ex_floats_float|]. split; [reflexivity|]. split; [exact ex_data_file_ok|]. vm_compute. reflexivity.
Qed.

(* C45: reading fails when the end of the file is missing *)
Theorem C45_truncated_data_refused :
  forall p e a f k,
    float_array a -> write_data e a = Ok f -> k < length f ->
    exists err, read_data p (firstn k f) = Err err.
Proof. exact data_cut. Qed.
Print Assumptions C45_truncated_data_refused.

Theorem C45_truncated_labels_refused :
  forall p e l f k,
    wf_labels l -> labels_in_memory l -> write_labels e l = Ok f -> k < length f ->
    exists err, read_labels p (firstn k f) = Err err.
Proof. exact labels_cut. Qed.
Print Assumptions C45_truncated_labels_refused.

(* C45: reading fails when there is something more in the file *)
Theorem C45_extended_data_refused :
  forall p e a f extra,
    float_array a -> write_data e a = Ok f -> extra <> [] ->
    exists err, read_data p (f ++ extra) = Err err.
Proof. exact data_extended. Qed.
Print Assumptions C45_extended_data_refused.

Theorem C45_extended_labels_refused :
  forall p e l f extra,
    wf_labels l -> labels_in_memory l -> write_labels e l = Ok f -> extra <> [] ->
    exists err, read_labels p (f ++ extra) = Err err.
Proof. exact labels_extended. Qed.
Print Assumptions C45_extended_labels_refused.

Example C45_example :
  float_array (rust_ndarray ex_floats) /\ write_data BigEndian (rust_ndarray ex_floats) = Ok ex_data_file
  /\ wf_labels ex_big_labels /\ labels_in_memory ex_big_labels
  /\ write_labels LittleEndian ex_big_labels = Ok ex_labels_file
  /\ length ex_data_file = 152 /\ length ex_labels_file = 152
  /\ (exists err, read_data Debug (firstn 151 ex_data_file) = Err err)
  /\ (exists err, read_labels Debug (ex_labels_file ++ [space]) = Err err).
Proof.
  split; [exact ex_floats_float|]. split; [exact ex_data_file_ok|]. split; [apply ex_labels_wf|].
  split; [exact ex_big_labels_memory|]. split; [exact ex_labels_file_ok|].
  split; [vm_compute; reflexivity|]. split; [vm_compute; reflexivity|].
  split; eexists; vm_compute; reflexivity.
Qed.

(* C46: a tensor map can be saved, and loading the archive gives the same tensor
   map, whatever order the files are listed in *)
Theorem C46_load_after_save :
  forall e t,
    wf_tensor t -> tensor_in_memory t -> describable t -> readable_tensor t -> c_parameters t ->
    exists a, save e t = Ok a
      /\ forall p names, Permutation names (map fst a) ->
           exists t', load p names a = Ok t' /\ same_tensor t t' /\ wf_tensor t'.
Proof. exact load_save_rust. Qed.
Print Assumptions C46_load_after_save.

(* C46: the same for any kind of array, when the tensor map can be saved *)
Theorem C46_any_array :
  forall p e t a names,
    wf_tensor t -> tensor_in_memory t -> c_parameters t ->
    save e t = Ok a -> Permutation names (map fst a) ->
    exists t', load p names a = Ok t' /\ same_tensor t t' /\ wf_tensor t'.
Proof. exact load_save. Qed.
Print Assumptions C46_any_array.

(* C46: saving only fails when some data can not be read *)
Theorem C46_saved_when_readable :
  forall e t,
    wf_tensor t -> tensor_in_memory t -> describable t ->
    ((exists a, save e t = Ok a) <-> readable_tensor t).
Proof. exact save_iff_readable. Qed.
Print Assumptions C46_saved_when_readable.

Example C46_example :
  wf_tensor ex_tensor /\ tensor_in_memory ex_tensor /\ describable ex_tensor
  /\ readable_tensor ex_tensor /\ c_parameters ex_tensor
  /\ save LittleEndian ex_tensor = Ok ex_archive
  /\ Permutation (rev (map fst ex_archive)) (map fst ex_archive)
  /\ load Debug (rev (map fst ex_archive)) ex_archive = Ok ex_tensor.
Proof.
  split; [exact ex_tensor_wf|]. split; [exact ex_tensor_in_memory|]. split; [exact ex_tensor_describable|].
  split; [exact ex_readable|]. split; [exact ex_c_parameters|]. split; [exact ex_archive_ok|].
  split; [apply Permutation_sym, Permutation_rev|]. vm_compute. reflexivity.
Qed.

(* C47: no two files of a tensor map have the same path *)
Theorem C47_paths_are_different :
  forall e t a, wf_tensor t -> save e t = Ok a -> NoDup (map fst a).
Proof. exact save_paths_nodup. Qed.
Print Assumptions C47_paths_are_different.

(* C47: the gradient parameters found in the paths are the ones of every block *)
Theorem C47_parameters_recovered :
  forall e t a names b,
    wf_tensor t -> save e t = Ok a -> Permutation names (map fst a) -> In b (tm_blocks t) ->
    exists parameters, gradient_parameters names = Ok parameters
      /\ Permutation parameters (map fst (tb_gradients b)).
Proof. exact saved_parameters. Qed.
Print Assumptions C47_parameters_recovered.

Example C47_example :
  wf_tensor ex_tensor /\ save LittleEndian ex_tensor = Ok ex_archive /\ length ex_archive = 25
  /\ gradient_parameters (rev (map fst ex_archive)) = Ok ["positions"]
  /\ (* strange names *)
     gradient_parameters ["blocks/0/gradients/a/data.npy/data.npy"; "blocks/0/gradients/b/components/data.npy"; "keys.npy"]
     = Ok ["a/data.npy"; "b/components"].
Proof.
  split; [exact ex_tensor_wf|]. split; [exact ex_archive_ok|]. split; [vm_compute; reflexivity|].
  split; vm_compute; reflexivity.
Qed.

(* C48 is false: some files make load panic, in debug and in release builds *)
Theorem C48_load_never_panics_refuted :
  forall p, exists names a m, Permutation names (map fst a) /\ load p names a = Panic m.
Proof.
  exact (fun p => ex_intro _ (map fst ex_same_rows) (ex_intro _ ex_same_rows (ex_intro _
    "can not have the same label value multiple time: [1] is already present at position 0"
    (conj (Permutation_refl _) match p with Debug => eq_refl | Release => eq_refl end)))).
Qed.
Print Assumptions C48_load_never_panics_refuted.

(* C48: these are the only reasons for load to panic. Missing to the full
   statement (no hypothesis on the archive): the checks listed in [sane_file] and
   [sane_name]. *)
Theorem C48_load_returns_partial :
  forall p names a,
    (forall path f, In (path, f) a -> sane_file f) -> Forall sane_name names ->
    no_crash (load p names a).
Proof. exact load_no_crash. Qed.
Print Assumptions C48_load_returns_partial.

(* C48: reading the header of a file never panics *)
Theorem C48_header_never_panics :
  forall f, no_crash (header_from_reader f).
Proof. exact header_from_reader_no_crash. Qed.
Print Assumptions C48_header_never_panics.

Example C48_example :
  (forall path f, In (path, f) ex_archive -> sane_file f) /\ Forall sane_name (map fst ex_archive)
  /\ (* a missing file *)
     (exists e, load Debug (map fst ex_archive) (removelast ex_archive) = Err e)
  /\ (* all the conditions are needed *)
     forallb (fun a => crashes (load Release (map fst a) a))
       [ex_same_rows; ex_same_names; ex_bad_name; ex_no_names; ex_huge; ex_no_parameter] = true
  /\ crashes (load Debug (map fst ex_one_axis) ex_one_axis) = true.
Proof.
  split; [exact ex_archive_sane|]. split; [exact ex_names_sane|]. split; [eexists; vm_compute; reflexivity|].
  split; [apply ex_crashes|apply ex_crashes].
Qed.

(* C54: whatever is in the archive, what load returns is a valid tensor map *)
Theorem C54_loaded_tensor_is_valid :
  forall p names a t, load p names a = Ok t -> wf_tensor t.
Proof. exact load_wf. Qed.
Print Assumptions C54_loaded_tensor_is_valid.

(* C54: and so are labels and data in a single file *)
Theorem C54_loaded_labels_are_valid :
  forall p f l, read_labels p f = Ok l -> axis_labels l.
Proof. exact read_labels_wf. Qed.
Print Assumptions C54_loaded_labels_are_valid.

Example C54_example :
  (* an archive with more files than needed, in another order *)
  let a := ("unused", []) :: rev ex_archive in load Release (map fst a) a = Ok ex_tensor.
Proof. vm_compute. reflexivity. Qed.
