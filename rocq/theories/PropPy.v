(* Properties C72-C75: files written and read by numpy *)
From Coq Require Import Permutation.
From Verif Require Import Base Labels Array Block Tensor Npy Io Spec SpecTensor SpecIo SpecFormat PyIo SpecPy
  PyWriteFacts PyFacts Examples ExamplesIo ExamplesFormat ExamplesPy.
Local Open Scope string_scope.
Local Open Scope list_scope.
Local Open Scope nat_scope.

(* C72: equistore.save(use_numpy=True) works exactly for the arrays which can be
   used from Python *)
Theorem C72_saved_with_numpy_iff :
  forall np limit t,
    follows_format np limit -> wf_tensor t -> tensor_in_memory t -> strided_tensor t -> describable t ->
    ((exists a, py_save np t = Ok a) <-> python_tensor np t).
Proof. exact py_save_total. Qed.
Print Assumptions C72_saved_with_numpy_iff.

(* C72: and gives an archive in the documented format, unless numpy writes an array
   in Fortran order *)
Theorem C72_numpy_archive_conforms :
  forall np limit t a,
    follows_format np limit -> wf_tensor t -> tensor_in_memory t -> strided_tensor t -> ~ has_fortran_array t ->
    py_save np t = Ok a -> conforming t a.
Proof. exact py_save_conforming. Qed.
Print Assumptions C72_numpy_archive_conforms.

(* C72: the library loads the same tensor map from this archive *)
Theorem C72_numpy_archive_loads :
  forall np limit p t a names,
    follows_format np limit -> wf_tensor t -> tensor_in_memory t -> c_parameters t -> strided_tensor t ->
    py_save np t = Ok a -> Permutation names (map fst a) -> ~ has_fortran_array t ->
    exists t', load p names a = Ok t' /\ same_tensor t t' /\ wf_tensor t'.
Proof. exact py_save_loads. Qed.
Print Assumptions C72_numpy_archive_loads.

(* C72: and can not load it if there is an array in Fortran order *)
Theorem C72_numpy_archive_loads_iff :
  forall np limit p t a names,
    follows_format np limit -> wf_tensor t -> tensor_in_memory t -> c_parameters t -> strided_tensor t ->
    py_save np t = Ok a -> Permutation names (map fst a) ->
    ((exists t', load p names a = Ok t') <-> ~ has_fortran_array t).
Proof. exact py_save_loads_iff. Qed.
Print Assumptions C72_numpy_archive_loads_iff.

Example C72_example :
  follows_format (ex_numpy LittleEndian) 128
  /\ wf_tensor ex_c_tensor /\ tensor_in_memory ex_c_tensor /\ c_parameters ex_c_tensor /\ strided_tensor ex_c_tensor
  /\ describable ex_c_tensor /\ python_tensor (ex_numpy LittleEndian) ex_c_tensor
  /\ ~ has_fortran_array ex_c_tensor /\ has_fortran_array ex_f_tensor
  /\ py_save (ex_numpy LittleEndian) ex_c_tensor = Ok (ex_py_archive ex_c_tensor)
  /\ py_save (ex_numpy LittleEndian) ex_f_tensor = Ok (ex_py_archive ex_f_tensor)
  /\ map fst (ex_py_archive ex_c_tensor)
     = ["keys.npy"; "blocks/0/values/data.npy"; "blocks/0/values/samples.npy"; "blocks/0/values/components/0.npy";
        "blocks/0/values/properties.npy"; "blocks/0/gradients/positions/data.npy";
        "blocks/0/gradients/positions/samples.npy"; "blocks/0/gradients/positions/components/0.npy";
        "blocks/0/gradients/positions/components/1.npy"].
Proof.
  split; [apply ex_numpy_follows|]. split; [apply ex_numpy_wf|]. split; [apply ex_numpy_in_memory|].
  split; [apply ex_numpy_parameters|]. split; [apply ex_numpy_strided; reflexivity|]. split; [apply ex_numpy_in_memory|].
  split; [apply ex_numpy_python|]. split; [exact ex_c_not_fortran|]. split; [exact ex_f_fortran|].
  split; [apply ex_py_saved; reflexivity|]. split; [apply ex_py_saved; reflexivity|]. vm_compute. reflexivity.
Qed.

(* C73: equistore.load(use_numpy=True) gives the tensor map described by the
   archive, for all the archives in the documented format where numpy accepts the
   headers and the labels have the endianness of the machine *)
Theorem C73_numpy_loads_conforming :
  forall np limit t a,
    follows_format np limit -> wf_tensor t -> tensor_in_memory t -> c_parameters t -> has_elements t ->
    conforming t a -> short_headers limit a -> labels_stored (np_native np) a ->
    exists t', py_load np a = Ok t' /\ same_tensor t t' /\ wf_tensor t'.
Proof. exact py_load_conforming. Qed.
Print Assumptions C73_numpy_loads_conforming.

(* C73: in particular the archives saved by the library *)
Theorem C73_numpy_loads_saved :
  forall np limit t a,
    follows_format np limit -> wf_tensor t -> tensor_in_memory t -> c_parameters t ->
    save (np_native np) t = Ok a -> short_headers limit a ->
    exists t', py_load np a = Ok t' /\ same_tensor t t' /\ wf_tensor t'.
Proof. exact py_load_saved. Qed.
Print Assumptions C73_numpy_loads_saved.

Example C73_example :
  follows_format (ex_numpy LittleEndian) 192
  /\ wf_tensor ex_tensor /\ tensor_in_memory ex_tensor /\ c_parameters ex_tensor /\ has_elements ex_tensor
  /\ save LittleEndian ex_tensor = Ok ex_archive /\ conforming ex_tensor ex_archive
  /\ short_headers 192 ex_archive /\ labels_stored LittleEndian ex_archive
  /\ exists t', py_load (ex_numpy LittleEndian) ex_archive = Ok t' /\ tm_keys t' = ex_keys
       /\ map (fun b => map fst (tb_gradients b)) (tm_blocks t') = [["positions"]; ["positions"]; ["positions"]].
Proof.
  split; [apply ex_numpy_follows|]. split; [exact ex_tensor_wf|]. split; [exact ex_tensor_in_memory|].
  split; [exact ex_c_parameters|]. split; [exact ex_stored|]. split; [exact ex_archive_ok|].
  split; [exact ex_archive_conforming|]. split; [apply short_headers_check; vm_compute; reflexivity|].
  split; [exact (saved_labels_stored LittleEndian ex_tensor ex_archive ex_tensor_wf ex_tensor_in_memory ex_stored ex_archive_ok)|].
  eexists. split; [vm_compute; reflexivity|]. split; vm_compute; reflexivity.
Qed.

(* C74: saving and loading with numpy gives the same tensor map, for all layouts of
   the arrays *)
Theorem C74_numpy_round_trip :
  forall np limit t a,
    follows_format np limit -> wf_tensor t -> tensor_in_memory t -> c_parameters t -> strided_tensor t ->
    py_save np t = Ok a -> short_headers limit a ->
    exists t', py_load np a = Ok t' /\ same_tensor t t' /\ wf_tensor t'.
Proof. exact py_load_py_saved. Qed.
Print Assumptions C74_numpy_round_trip.

Example C74_example :
  follows_format (ex_numpy LittleEndian) 128
  /\ wf_tensor ex_f_tensor /\ tensor_in_memory ex_f_tensor /\ c_parameters ex_f_tensor /\ strided_tensor ex_f_tensor
  /\ py_save (ex_numpy LittleEndian) ex_f_tensor = Ok (ex_py_archive ex_f_tensor)
  /\ short_headers 128 (ex_py_archive ex_f_tensor)
  /\ exists t', py_load (ex_numpy LittleEndian) (ex_py_archive ex_f_tensor) = Ok t'
       /\ map (fun b => nd_data (a_nd (bb_data (tb_values b)))) (tm_blocks t')
          = [[100; 101; 102; 103; 104; 105; 106; 107; 108; 109; 110; 111]%Z]
       /\ (* still in Fortran order: the data can not be read by the library *)
          map (fun b => a_strides (bb_data (tb_values b))) (tm_blocks t') = [[1; 2; 4]].
Proof.
  split; [apply ex_numpy_follows|]. split; [apply ex_numpy_wf|]. split; [apply ex_numpy_in_memory|].
  split; [apply ex_numpy_parameters|]. split; [apply ex_numpy_strided; reflexivity|].
  split; [apply ex_py_saved; reflexivity|]. split; [apply short_headers_check; vm_compute; reflexivity|].
  eexists. split; [vm_compute; reflexivity|]. split; vm_compute; reflexivity.
Qed.

(* C75: an archive saved by one implementation is not always loaded by the other:
   arrays in Fortran order *)
Theorem C75_loaded_by_the_library_refuted :
  exists np limit t a e,
    follows_format np limit /\ wf_tensor t /\ tensor_in_memory t /\ c_parameters t /\ strided_tensor t
    /\ python_tensor np t /\ py_save np t = Ok a /\ short_headers limit a
    /\ load Release (map fst a) a = Err e.
Proof. exact ex_fortran_refused. Qed.
Print Assumptions C75_loaded_by_the_library_refuted.

(* C75: labels written on a machine with the other endianness: numpy loads other
   labels, without an error *)
Theorem C75_loaded_by_numpy_refuted :
  exists np limit t a t',
    follows_format np limit /\ wf_tensor t /\ tensor_in_memory t /\ c_parameters t /\ has_elements t
    /\ conforming t a /\ short_headers limit a
    /\ py_load np a = Ok t' /\ rows (tm_keys t) <> rows (tm_keys t').
Proof. exact ex_other_endianness. Qed.
Print Assumptions C75_loaded_by_numpy_refuted.

Example C75_example :
  rows (tm_keys ex_tensor) = [[1; 0; 4]; [1; 1; 4]; [8; 0; 4]]%Z
  /\ py_load (ex_numpy LittleEndian) ex_big_archive = Ok ex_swapped
  /\ rows (tm_keys ex_swapped)
     = [[16777216; 0; 67108864]; [16777216; 16777216; 67108864]; [134217728; 0; 67108864]]%Z.
Proof. repeat split; vm_compute; reflexivity. Qed.
