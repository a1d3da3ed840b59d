(* Properties C119 to C121: builds without all the features, the arrays of Rust seen from
   C, and the origins registered by the library *)
From Verif Require Import Base Labels Array Strided Block Tensor Npy Io Origin CApi Spec SpecTensor SpecIo SpecExact SpecApi SpecPy
  Library SpecLibrary LibraryFacts LibraryFacts2 Examples ExamplesIo ExamplesLayout ExamplesApi ExamplesReadable ExamplesLibrary.
Local Open Scope string_scope.
Local Open Scope list_scope.
Local Open Scope nat_scope.

(* C119: without serialization nothing is ever loaded, and loading changes nothing *)
Theorem C119_load :
  forall b p w calls i thread path names temporary v result,
    b <> WithSerialization ->
    library_called b p w calls i thread (Call (TensorLoad path names temporary)) v result ->
    v = Plain (VTensor None [])
    /\ (exists status, result = Returned status /\ status <> 0%Z
        /\ ((exists name, names_file path name /\ file_at (library_state b p w calls i) name <> None) -> status = 3%Z))
    /\ same_objects (library_state b p w calls i) (library_state b p w calls (S i))
    /\ w_files (library_state b p w calls (S i)) = w_files (library_state b p w calls i)
    /\ w_origins (library_state b p w calls (S i)) = w_origins (library_state b p w calls i).
Proof. exact load_without_feature. Qed.
Print Assumptions C119_load.

(* C119 is false for eqs_tensormap_save, which reports an error after the file was emptied *)
Theorem C119_failed_save_keeps_files_refuted :
  exists b p files calls i thread path tensor system remains v status name content,
    b <> WithSerialization
    /\ library_called b p (world_start files) calls i thread (Call (TensorSave path tensor system remains)) v (Returned status)
    /\ status <> 0%Z
    /\ file_at (library_state b p (world_start files) calls i) name = Some (Some content)
    /\ file_at (library_state b p (world_start files) calls (S i)) name = Some None.
Proof.
  exists NoFeature, Release, ex_files_before, ex_disabled, 3, 0, (Some "tensor.npz"), (Some 1), None, None, (Plain VNone), 3%Z, "tensor.npz", ex_before.
  split; [discriminate|]. split; [split; vm_compute; reflexivity|]. split; [discriminate|]. split; vm_compute; reflexivity.
Qed.
Print Assumptions C119_failed_save_keeps_files_refuted.

(* C119: what happens to the files. The full statement asks for no change at all. *)
Theorem C119_save_partial :
  forall b p w calls i thread path name handle t system remains v result,
    b <> WithSerialization ->
    library_called b p w calls i thread (Call (TensorSave path (Some handle) system remains)) v result ->
    names_file path name -> hm_get Nat.eqb (w_tensors (library_state b p w calls i)) handle = Some t ->
    (system = None ->
       result = Returned 3
       /\ w_errors (library_state b p w calls (S i)) thread = "serialization format error: serialization was not enabled in equistore"
       /\ file_at (library_state b p w calls (S i)) name = Some None)
    /\ (system <> None -> file_at (library_state b p w calls (S i)) name = file_at (library_state b p w calls i) name)
    /\ (forall other, other <> name -> file_at (library_state b p w calls (S i)) other = file_at (library_state b p w calls i) other)
    /\ result <> Returned 0
    /\ same_objects (library_state b p w calls i) (library_state b p w calls (S i)).
Proof. exact save_without_feature. Qed.
Print Assumptions C119_save_partial.

Theorem C119_files_partial :
  forall b p w calls, b <> WithSerialization -> forall i name,
    file_at (library_state b p w calls i) name = file_at w name
    \/ (file_at (library_state b p w calls i) name = Some None
        /\ exists k thread path tensor system remains v result, k < i /\ names_file path name
             /\ library_called b p w calls k thread (Call (TensorSave path tensor system remains)) v result).
Proof. exact files_without_feature. Qed.
Print Assumptions C119_files_partial.

Example C119_example :
  NoFeature <> WithSerialization
  /\ (forall i c result, nth_error [(2, Call (TensorLoad (Some "tensor.npz") ["keys.npy"] 0), 3%Z);
                                    (4, Call (TensorLoad (Some "tensor.npz") [] 0), 3%Z);
                                    (5, Call (TensorLoad (Some "nothing.npz") [] 0), 2%Z)] i = Some (c, result) ->
      library_called NoFeature Release (world_start ex_files_before) ex_disabled (fst c) 1 (snd c) (Plain (VTensor None [])) (Returned result))
  /\ library_called NoFeature Release (world_start ex_files_before) ex_disabled 3 0
       (Call (TensorSave (Some "tensor.npz") (Some 1) None None)) (Plain VNone) (Returned 3)
  /\ names_file (Some "tensor.npz") "tensor.npz"
  /\ (exists t, hm_get Nat.eqb (w_tensors (ex_disabled_state 3)) 1 = Some t)
  /\ map (fun i => map (file_at (ex_disabled_state i)) ["tensor.npz"; "other.npz"]) [3; 4; 7]
     = [[Some (Some ex_before); Some (Some ex_before)]; [Some None; Some (Some ex_before)]; [Some None; Some (Some ex_before)]].
Proof.
  split; [discriminate|]. split.
  { intros i c result H. destruct i as [|[|[|i]]]; [..|destruct i; discriminate H]; injection H as <- <-; split; vm_compute; reflexivity. }
  split; [split; vm_compute; reflexivity|]. split; [exists "tensor.npz"; vm_compute; auto|].
  split; [eexists|]; vm_compute; reflexivity.
Qed.

(* C120: the numbers and the shape of an array of Rust, when they are in row-major order in
   memory, and an error otherwise *)
Theorem C120_arrays_of_rust :
  forall b p files calls i thread a v result,
    b <> NoFeature -> no_gap a ->
    library_called b p (world_start files) calls i thread (GetRustArray (Some (as_array a)) (st_buffer a) out out out) v result ->
    (row_major (st_shape a) (st_strides a) ->
       result = Returned 0 /\ exists numbers, v = RustArray numbers (st_shape a) /\ row_major_numbers a numbers
         /\ length numbers = prod (st_shape a))
    /\ (~ row_major (st_shape a) (st_strides a) -> result = Returned 255 /\ v = Plain VNone)
    /\ same_objects (library_state b p (world_start files) calls i) (library_state b p (world_start files) calls (S i))
    /\ w_files (library_state b p (world_start files) calls (S i)) = w_files (library_state b p (world_start files) calls i).
Proof. exact get_rust_array. Qed.
Print Assumptions C120_arrays_of_rust.

(* C120: after moving a component, the arrays are seen exactly when no axes are exchanged
   in memory (C71) *)
Theorem C120_after_moving_a_component :
  forall b p files calls i thread t name t',
    b <> NoFeature -> wf_tensor t -> in_ndarrays t -> readable_tensor t -> components_to_properties t [name] = (t', Ok tt) ->
    ((forall block part memory, In block (tm_blocks t') -> In part (parts_of_block block) ->
        snd (library_run_call b p thread (library_state b p (world_start files) calls i)
               (GetRustArray (Some (bb_data part)) memory out out out)) = Returned 0)
     <-> forall block part, In block (tm_blocks t) -> In part (parts_of_block block) -> ~ exchanged_in_memory part name).
Proof. exact seen_after_moving_program. Qed.
Print Assumptions C120_after_moving_a_component.

Theorem C120_without_ndarray :
  forall p w calls i thread array memory v result,
    library_called NoFeature p w calls i thread (GetRustArray (Some array) memory out out out) v result ->
    result = Returned 255 /\ v = Plain VNone
    /\ w_errors (library_state NoFeature p w calls (S i)) thread
       = "internal error: support for rust ndarray is disabled, please recompile the code to activate it".
Proof. exact get_rust_array_disabled. Qed.
Print Assumptions C120_without_ndarray.

(* C120: other arrays. The full statement has an error for all of them; this is undefined
   exactly for the arrays with the identifier of "rust.ndarray" as origin. *)
Theorem C120_other_arrays_partial :
  forall b p files calls i thread a memory v result,
    b <> NoFeature -> a_kind a <> RustNdarray ->
    library_called b p (world_start files) calls i thread (GetRustArray (Some a) memory out out out) v result ->
    v = Plain VNone
    /\ ((exists origin, answers_origin a origin
          /\ nth_error (w_origins (library_state b p (world_start files) calls (S i))) origin = Some "rust.ndarray") ->
        exists reason, result = Crashed reason)
    /\ (~ (exists origin, answers_origin a origin
          /\ nth_error (w_origins (library_state b p (world_start files) calls (S i))) origin = Some "rust.ndarray") ->
        result = Returned 255)
    /\ same_objects (library_state b p (world_start files) calls i) (library_state b p (world_start files) calls (S i))
    /\ w_files (library_state b p (world_start files) calls (S i)) = w_files (library_state b p (world_start files) calls i).
Proof. exact get_other_array. Qed.
Print Assumptions C120_other_arrays_partial.

(* the identifier is given by eqs_register_data_origin *)
Theorem C120_other_arrays_refuted :
  exists b p calls thread a memory v reason id,
    b <> NoFeature /\ a_kind a = ForeignArray id
    /\ library_called b p (world_start []) calls 0 thread (Call (RegisterDataOrigin (Some "rust.ndarray") out)) (Plain (VOrigin id)) (Returned 0)
    /\ library_called b p (world_start []) calls 1 thread (GetRustArray (Some a) memory out out out) v (Crashed reason).
Proof.
  exists OnlyNdarray, Debug,
    [(0, Call (RegisterDataOrigin (Some "rust.ndarray") out)); (0, GetRustArray (Some (ex_other 1 Works)) [] out out out)],
    0, (ex_other 1 Works), [], (Plain VNone), "this is not a pointer to an array of Rust", 1.
  repeat split; vm_compute; discriminate.
Qed.
Print Assumptions C120_other_arrays_refuted.

(* C120: NULL pointers are reported, and nothing is written *)
Theorem C120_null_pointers :
  forall b p w calls i thread array memory data shape shape_count v result,
    array = None \/ data = None \/ shape = None \/ shape_count = None ->
    library_called b p w calls i thread (GetRustArray array memory data shape shape_count) v result ->
    v = Plain VNone /\ result = Returned 1
    /\ same_objects (library_state b p w calls i) (library_state b p w calls (S i))
    /\ w_files (library_state b p w calls (S i)) = w_files (library_state b p w calls i)
    /\ w_origins (library_state b p w calls (S i)) = w_origins (library_state b p w calls i).
Proof. exact get_rust_array_null. Qed.
Print Assumptions C120_null_pointers.

Example C120_example_errors :
  library_called WithSerialization Debug (world_start []) [(0, GetRustArray (Some (as_array ex_row_major)) [] out None out)] 0 0
    (GetRustArray (Some (as_array ex_row_major)) [] out None out) (Plain VNone) (Returned 1)
  /\ library_called NoFeature Debug (world_start []) [(0, GetRustArray (Some (as_array ex_row_major)) [] out out out)] 0 0
    (GetRustArray (Some (as_array ex_row_major)) [] out out out) (Plain VNone) (Returned 255).
Proof. repeat split; vm_compute; reflexivity. Qed.

Example C120_example :
  no_gap ex_row_major /\ row_major (st_shape ex_row_major) (st_strides ex_row_major)
  /\ library_called OnlyNdarray Release (world_start []) ex_seen 0 0
       (GetRustArray (Some (as_array ex_row_major)) (st_buffer ex_row_major) out out out)
       (RustArray [10; 11; 12; 20; 21; 22]%Z [2; 1; 3]) (Returned 0)
  /\ no_gap ex_transposed /\ ~ row_major (st_shape ex_transposed) (st_strides ex_transposed)
  /\ library_called OnlyNdarray Release (world_start []) ex_seen 1 0
       (GetRustArray (Some (as_array ex_transposed)) (st_buffer ex_transposed) out out out) (Plain VNone) (Returned 255)
  /\ library_called OnlyNdarray Release (world_start []) ex_seen 4 1
       (GetRustArray (Some (ex_other 1 (Fails 7))) [] out out out) (Plain VNone) (Returned 255)
  /\ (* a component which can be moved, and one which can not *)
     (forall n, n = 2 \/ n = 3 -> wf_tensor (ex_far n) /\ in_ndarrays (ex_far n) /\ readable_tensor (ex_far n)
        /\ components_to_properties (ex_far n) ["m"] = (ex_far_moved n, Ok tt))
  /\ map (fun n => map (fun b => snd (library_run_call OnlyNdarray Release 0 (world_start [])
                                        (GetRustArray (Some (bb_data (tb_values b))) [] out out out))) (tm_blocks (ex_far_moved n))) [2; 3]
     = [[Returned 255]; [Returned 0]]%Z.
Proof.
  split; [exact ex_row_major_no_gap|]. split; [exact ex_row_major_ok|]. split; [split; vm_compute; reflexivity|].
  split; [exact ex_transposed_no_gap|]. split; [exact ex_transposed_not_row_major|]. split; [split; vm_compute; reflexivity|].
  split; [split; vm_compute; reflexivity|]. split; [|vm_compute; reflexivity].
  intros n Hn. split; [exact (ex_far_wf n Hn)|]. destruct (ex_far_readable n Hn) as [H1 H2].
  split; [exact H1|]. split; [exact H2|]. exact (ex_far_moved_ok n Hn).
Qed.

(* C121: the identifiers stay the same, with the ones which the library registers *)
Theorem C121_identifiers_are_stable :
  forall b p files calls i j name1 id1 name2 id2,
    library_registered b p (world_start files) calls i name1 id1 -> library_registered b p (world_start files) calls j name2 id2 ->
    (name1 = name2 <-> id1 = id2).
Proof. exact library_registered_same. Qed.
Print Assumptions C121_identifiers_are_stable.

Theorem C121_names_are_found :
  forall b p files calls j thread id buffer v,
    library_called b p (world_start files) calls j thread (Call (GetDataOrigin id (Some buffer))) v (Returned 0) ->
    exists name buffer', v = Plain (VText buffer') /\ holds_text buffer' name
    /\ (forall i n, i < j -> library_registered b p (world_start files) calls i n id -> n = name)
    /\ ((forall i n, i < j -> ~ library_registered b p (world_start files) calls i n id) ->
        name = "unregistered origin" \/ name = "rust.ndarray" \/ name = "rust.EmptyArray").
Proof. exact library_names. Qed.
Print Assumptions C121_names_are_found.

(* the identifiers 1 and 2 were taken by the library for its own arrays, before the program
   registered anything *)
Example C121_example :
  library_called OnlyNdarray Release (world_start []) ex_seen 7 0 (Call (GetDataOrigin 1 (Some (ex_text 16))))
    (Plain (VText (list_ascii_of_string "rust.ndarray" ++ nul :: ex_text 3))) (Returned 0)
  /\ library_registered OnlyNdarray Release (world_start []) ex_seen 8 "numpy" 3
  /\ library_registered OnlyNdarray Release (world_start []) ex_seen 9 "rust.ndarray" 1
  /\ library_registered OnlyNdarray Release (world_start []) ex_seen 10 "rust.ndarray" 1.
Proof.
  split; [split; vm_compute; reflexivity|].
  split; [left; exists 1, "numpy"; vm_compute; auto|].
  split; [right; exists 1, (rust_ndarray (nd_zeros [2])); split; [split; vm_compute; reflexivity|left; split; reflexivity]|].
  left. exists 0, "rust.ndarray". vm_compute. auto.
Qed.
