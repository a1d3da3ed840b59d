(* Properties C130 to C132: saving, when the functions of arrays answer anything; and
   the rest of C94 *)
From Coq Require Import Permutation.
From Verif Require Import Base Labels Array Block Tensor Npy Io Spec SpecTensor SpecIo Origin CApi Saving Callbacks SpecCallbacks CallbacksStore
  SaveCalls SpecSaveCalls SaveCallsFacts CloneCallsFacts Examples ExamplesIo ExamplesCallbacks ExamplesSaveCalls.
Local Open Scope string_scope.
Local Open Scope list_scope.
Local Open Scope nat_scope.

(* C130: saving calls `shape`, `shape` and `data` for each array, in the order of
   blocks and gradients, and stops somewhere in this list when it fails *)
Theorem C130_calls_of_save :
  forall p e t tr r,
    reads (r_save p e t) tr r ->
    exists rest, flat_map calls_for (tensor_arrays t) = map fst tr ++ rest /\ (snd r = Ok tt -> rest = []).
Proof. exact save_asks. Qed.
Print Assumptions C130_calls_of_save.

Example C130_example :
  reads (r_save Debug LittleEndian ex_pointers) (fst ex_asked) (ex_archive, Ok tt)
  /\ map fst (fst ex_asked) =
     [RShape 0; RShape 0; RData 0; RShape 1; RShape 1; RData 1; RShape 2; RShape 2; RData 2;
      RShape 3; RShape 3; RData 3; RShape 4; RShape 4; RData 4; RShape 5; RShape 5; RData 5].
Proof. exact (conj ex_asked_reads ex_asked_calls). Qed.

(* C131: a function which fails is the last one called, and the user gets its status
   (or a panic if the function is NULL) *)
Theorem C131_failures_reported :
  forall p e t tr r before c g after,
    reads (r_save p e t) tr r -> tr = before ++ (c, g) :: after -> call_failed g ->
    after = [] /\ reported c g (snd r).
Proof. exact save_reports. Qed.
Print Assumptions C131_failures_reported.

Example C131_example :
  reads (r_save Debug LittleEndian ex_pointers) (fst ex_failed) (snd ex_failed)
  /\ fst ex_failed = firstn 7 (fst ex_asked) ++ [(RShape 2, mk_given false (-3) [] None)]
  /\ snd (snd ex_failed) = Err (External (-3) "calling eqs_array_t.shape failed").
Proof. exact ex_failed_ok. Qed.

Example C131_example_null :
  reads (r_save Debug LittleEndian ex_pointers) (fst ex_null_data) (snd ex_null_data)
  /\ fst ex_null_data = firstn 5 (fst ex_asked) ++ [(RData 1, mk_given true 0 [] None)]
  /\ snd (snd ex_null_data) = Panic "eqs_array_t.data function is NULL".
Proof. exact ex_null_data_ok. Qed.

(* C132. The full statement: when saving succeeds, loading the file gives the data
   answered by the arrays. This is proved when all the answers of `shape` are the same
   for each array. *)
Theorem C132_saved_as_answered_partial :
  forall p e t tr archive s names,
    reads (r_save p e t) tr (archive, Ok tt) ->
    (forall a, In a (tensor_arrays t) -> answered tr a (s_array s a)) ->
    wf_tensor (see s t) -> tensor_in_memory (see s t) -> c_parameters (see s t) ->
    Permutation names (map fst archive) ->
    exists t', load p names archive = Ok t' /\ same_tensor (see s t) t'.
Proof. exact save_given_load. Qed.
Print Assumptions C132_saved_as_answered_partial.

Example C132_example :
  reads (r_save Debug LittleEndian ex_pointers) (fst ex_asked) (ex_archive, Ok tt)
  /\ (forall a, In a (tensor_arrays ex_pointers) -> answered (fst ex_asked) a (s_array ex_store a))
  /\ wf_tensor (see ex_store ex_pointers) /\ tensor_in_memory (see ex_store ex_pointers) /\ c_parameters (see ex_store ex_pointers).
Proof. exact (conj ex_asked_reads (conj ex_asked_answered ex_seen)). Qed.

(* the two answers for the header and for the number of elements are not compared:
   saving can succeed with a file which can not be loaded *)
Theorem C132_saved_as_answered_refuted : exists g g' rest tr archive,
  reads (r_save Debug LittleEndian ex_pointers) tr (archive, Ok tt)
  /\ tr = (RShape 0, g) :: (RShape 0, g') :: rest /\ gv_shape g <> gv_shape g'
  /\ Forall (fun cg => ~ call_failed (snd cg)) tr
  /\ map fst archive = map fst ex_archive
  /\ exists e, load Debug (map fst archive) archive = Err e.
Proof. exact ex_changed_shapes. Qed.
Print Assumptions C132_saved_as_answered_refuted.

(* C94: with arrays in memory, this program does the same as put_tensor of Saving.v *)
Theorem C94_save :
  forall p e t tr r s,
    reads (r_save p e t) tr r -> answers_of s tr ->
    Forall (fun a => float_array (s_array s a)) (tensor_arrays t) -> r = put_tensor e (see s t).
Proof. exact save_same. Qed.
Print Assumptions C94_save.

Theorem C94_save_finishes :
  forall p e t s,
    Forall (fun a => float_array (s_array s a)) (tensor_arrays t) ->
    exists tr, answers_of s tr /\ reads (r_save p e t) tr (put_tensor e (see s t)).
Proof. exact save_same_exists. Qed.
Print Assumptions C94_save_finishes.

Example C94_example_save :
  reads (r_save Debug LittleEndian ex_pointers) (fst ex_asked) (ex_archive, Ok tt)
  /\ answers_of ex_store (fst ex_asked) /\ Forall (fun a => float_array (s_array ex_store a)) (tensor_arrays ex_pointers).
Proof. exact (conj ex_asked_reads (conj ex_asked_answers ex_arrays_float)). Qed.

(* C94: copies of blocks have the content of the block in new arrays, the arrays of the
   block are left as they were, and the same copies fail as for eqs_block_copy *)
Theorem C94_block_clone s b :
  Forall (fun a => a < s_next s) (Callbacks.block_arrays b) ->
  let '(s', r) := play s (p_block_clone b) in
  let '(n, o) := clone_arrays (CApi.block_arrays (see_block s b)) in
  (forall a, a < s_next s -> s_array s' a = s_array s a) /\ s_next s' = s_next s + n
  /\ (let? b' := r in Ok (see_block s' b')) = (let? _ := o in Ok (see_block s b))
  /\ (forall b', r = Ok b' -> Callbacks.block_arrays b' = seq (s_next s) (length (Callbacks.block_arrays b))).
Proof. exact (play_block_clone s b). Qed.
Print Assumptions C94_block_clone.

Example C94_example_clone :
  Callbacks.block_arrays ex_first = [0; 1] /\ s_next ex_store = 6 /\
  exists b', snd (play ex_store (p_block_clone ex_first)) = Ok b' /\ Callbacks.block_arrays b' = [6; 7].
Proof. split; [reflexivity|]. split; [reflexivity|]. eexists. split; reflexivity. Qed.
