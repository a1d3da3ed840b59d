(* Concrete programs for the properties of Library.v *)
From Verif Require Import Base Labels Array Strided Block Tensor Npy Io Origin CApi Spec SpecTensor SpecIo SpecExact SpecPy Library SpecLibrary
  StridedFacts PyWriteFacts Examples ExamplesIo ExamplesLayout ExamplesApi.
Local Open Scope string_scope.
Local Open Scope list_scope.
Local Open Scope nat_scope.

(* what was in the files before *)
Definition ex_before : archive := [("keys.npy", ["N"; "U"; "M"]%char)].
Definition ex_files_before : list (string * file) := [("tensor.npz", Some ex_before); ("other.npz", Some ex_before)].

(* a tensor map is made and saved in an existing file, which is then loaded *)
Definition ex_disabled : list (nat * library_call) :=
  [ (0, Call (BlockCreate (ex_array [2; 2; 3] 100) (ex_c ["structure"] [[4]; [2]]%Z) [ex_c_xyz] ex_c_properties));
    (0, Call (TensorCreate (ex_c ["center"] [[1]]%Z) [BlockAt 0]));
    (1, Call (TensorLoad (Some "tensor.npz") ["keys.npy"] 0));
    (0, Call (TensorSave (Some "tensor.npz") (Some 1) None None));
    (1, Call (TensorLoad (Some "tensor.npz") [] 0));
    (1, Call (TensorLoad (Some "nothing.npz") [] 0));
    (0, Call (TensorSave (Some "other.npz") (Some 1) (Some "Permission denied (os error 13)") None)) ].

Definition ex_disabled_state (i : nat) : world := library_state NoFeature Release (world_start ex_files_before) ex_disabled i.

Lemma ex_disabled_results : map snd (snd (library_run NoFeature Release (world_start ex_files_before) ex_disabled))
  = [Returned 0; Returned 0; Returned 3; Returned 3; Returned 3; Returned 2; Returned 2]%Z.
Proof. vm_compute. reflexivity. Qed.

(* arrays of the program, with the origin given when "rust.ndarray" was registered *)
Definition ex_other (origin : nat) (c : callback) : eqs_array :=
  mk_array (ForeignArray origin) (mk_nd [2] [5; 6]%Z) [1] (fun op => match op with OpOrigin => c | _ => Works end).

(* in row-major order, with any stride for the axis with one element *)
Definition ex_row_major : strided := mk_strided [2; 1; 3] [3; 40; 1] [10; 11; 12; 20; 21; 22]%Z.

Lemma ex_row_major_no_gap : no_gap ex_row_major.
Proof. split; [reflexivity|]. vm_compute. apply Permutation.Permutation_refl. Qed.

Lemma ex_row_major_ok : row_major (st_shape ex_row_major) (st_strides ex_row_major).
Proof. apply standard_row_major; reflexivity. Qed.

Lemma ex_transposed_not_row_major : ~ row_major (st_shape ex_transposed) (st_strides ex_transposed).
Proof. intros H. apply standard_row_major in H; [discriminate H|reflexivity]. Qed.

Definition ex_seen : list (nat * library_call) :=
  [ (0, GetRustArray (Some (as_array ex_row_major)) (st_buffer ex_row_major) out out out);
    (0, GetRustArray (Some (as_array ex_transposed)) (st_buffer ex_transposed) out out out);
    (1, GetRustArray (Some (rust_empty_array [3; 2])) [] out out out);
    (1, GetRustArray (Some (ex_other 0 Works)) [] out out out);
    (1, GetRustArray (Some (ex_other 1 (Fails 7))) [] out out out);
    (1, GetRustArray (Some (ex_other 1 Missing)) [] out out out);
    (0, GetRustArray None [] out out out);
    (0, Call (GetDataOrigin 1 (Some (ex_text 16))));
    (1, Call (RegisterDataOrigin (Some "numpy") out));
    (1, ArrayOrigin (rust_ndarray (nd_zeros [2])));
    (0, Call (RegisterDataOrigin (Some "rust.ndarray") out));
    (0, GetRustArray (Some (ex_other 1 Works)) [] out out out) ].

Lemma ex_seen_results : map snd (snd (library_run OnlyNdarray Release (world_start []) ex_seen))
  = [Returned 0; Returned 255; Returned 255; Returned 255; Returned 255; Returned 255; Returned 1;
     Returned 0; Returned 0; Returned 0; Returned 0; Crashed "this is not a pointer to an array of Rust"]%Z.
Proof. vm_compute. reflexivity. Qed.
