(* Entries of labels in Python: cases which meet the hypotheses of the theorems,
   and cases where something else happens *)
From Verif Require Import Base Labels Array Block Tensor CApi Spec SpecTensor SpecApi PyIo PyLabels SpecPyLabels PyEntries SpecPyEntries
  LabelsFacts HandleFacts SafeFacts PyLabelsFacts PySelectFacts Examples ExamplesApi ExamplesPyLabels.
Local Open Scope string_scope.
Local Open Scope list_scope.
Local Open Scope nat_scope.

(** * Named tuples *)

(* Labels.single() *)
Lemma ex_single : exists l, labels_new ["_"] 1 [[0]]%Z = Ok l /\ python_labels l /\ forall unicode, raises (as_namedtuples unicode l).
Proof.
  eexists. split; [vm_compute; reflexivity|]. split.
  - apply (made_new ["_"] 1 [[0]]%Z); [repeat constructor|vm_compute; reflexivity].
  - intros unicode. eexists. vm_compute. reflexivity.
Qed.

Lemma ex_as_dict : exists unicode l tuples tuple name value,
  python_labels l /\ as_namedtuples unicode l = Ok tuples /\ In tuple tuples /\ In (name, value) tuple
  /\ py_getattr tuple name <> Some (AttributeValue value).
Proof.
  exists (fun _ => false), (ex_py ["as_dict"] [[3]]%Z), [[("as_dict", 3%Z)]], [("as_dict", 3%Z)], "as_dict", 3%Z.
  split; [apply (made_new ["as_dict"] 1 [[3]]%Z); [repeat constructor|vm_compute; reflexivity]|].
  split; [vm_compute; reflexivity|]. split; [left; reflexivity|]. split; [left; reflexivity|]. vm_compute. discriminate.
Qed.

(* names which can be fields, and other ones *)
Lemma ex_field_names : Forall field_name (labels_names ex_keys) /\ ~ field_name "lambda" /\ ~ field_name "_" /\ ~ field_name "a b".
Proof.
  split; [|split; [|split]].
  - apply Forall_forall. intros name Hin. split; [|split].
    + pose proof (ex_good_names ["center"; "spin"; "kind"] _ ltac:(vm_compute; reflexivity)) as [H _]. rewrite Forall_forall in H.
      apply H. vm_compute in Hin |- *. exact Hin.
    + vm_compute in Hin. destruct Hin as [<-|[<-|[<-|[]]]]; vm_compute; intuition discriminate.
    + vm_compute in Hin. destruct Hin as [<-|[<-|[<-|[]]]]; discriminate.
  - intros (_ & H & _). apply H. vm_compute. tauto.
  - intros (_ & _ & H). apply (H ""). reflexivity.
  - intros [H _]. apply is_valid_label_name_spec in H. vm_compute in H. discriminate H.
Qed.

(** * Arrays *)

Lemma ex_array_of_fields : exists l values, python_labels l /\ py_asarray l = Ok values /\ values <> py_rows l.
Proof.
  exists ex_py_field, [[0; 1]; [2; 3]; [4; 5]]%Z. split; [exact ex_py_field_python|]. split; [vm_compute; reflexivity|]. vm_compute. discriminate.
Qed.

Lemma ex_array_of_steps : exists l, python_labels l /\ all_fields l /\ py_rows l <> [] /\ raises (py_asarray l).
Proof.
  exists ex_py_even. split; [exact ex_py_even_python|]. split; [reflexivity|]. split; [vm_compute; discriminate|]. eexists. vm_compute. reflexivity.
Qed.

Lemma ex_array_of_nothing : exists l, plain_labels l /\ raises (py_asarray l).
Proof.
  exists (ex_py ["a"] []). split; [apply (plain_new ["a"] 1 []); [constructor|vm_compute; reflexivity]|]. eexists. vm_compute. reflexivity.
Qed.

(** * Keys called self and f0 *)

Definition ex_self_calls : list (nat * c_call) :=
  [ (0, BlockCreate (ex_array [1; 1] 10) (ex_c ["s"] [[0]]%Z) [] (ex_c ["p"] [[0]]%Z));
    (0, BlockCreate (ex_array [1; 1] 20) (ex_c ["s"] [[0]]%Z) [] (ex_c ["p"] [[0]]%Z));
    (0, TensorCreate (ex_c ["self"; "f0"] [[0; 5]; [1; 5]]%Z) [BlockAt 0; BlockAt 1]) ].

Definition ex_self_state : world := state_at Debug (world_start []) ex_self_calls 3.

Definition ex_self_owned : owned_tensor :=
  match w_tensors ex_self_state with
  | [(_, t)] => t
  | _ => ex_owned
  end.

Lemma ex_self_state_eq : ex_self_state = state_at Debug (world_start []) ex_self_calls 3.
Proof. reflexivity. Qed.

Lemma ex_self_never_crashed : never_crashed Debug (world_start []) ex_self_calls.
Proof. apply respectful_safe, check_respectful. vm_compute. reflexivity. Qed.

Lemma ex_self_ordinary : ordinary Debug (world_start []) ex_self_calls.
Proof. apply check_ordinary_program; vm_compute; reflexivity. Qed.

Lemma ex_self_tensor_at : tensor_at ex_self_state 2 ex_self_owned.
Proof. vm_compute. left. reflexivity. Qed.

Lemma ex_key_called_self : exists p files calls i thread handle t j key,
  never_crashed p (world_start files) calls /\ ordinary p (world_start files) calls
  /\ tensor_at (state_at p (world_start files) calls i) handle t
  /\ nth_error (rows (tm_keys (ot_tensor t))) j = Some key /\ Forall (fun z => is_i32 z = true) key
  /\ raises (py_block p thread (state_at p (world_start files) calls i) handle
               (ByKeywords (combine (labels_names (tm_keys (ot_tensor t))) key))).
Proof.
  exists Debug, [], ex_self_calls, 3, 0, 2, ex_self_owned, 1, [1; 5]%Z. rewrite <- ex_self_state_eq. split; [exact ex_self_never_crashed|]. split; [exact ex_self_ordinary|].
  split; [exact ex_self_tensor_at|]. split; [vm_compute; reflexivity|]. split; [repeat constructor|]. eexists. vm_compute. reflexivity.
Qed.

(* keys_to_samples("") *)
Lemma ex_moves_f0 : exists p files calls i thread handle t argument names values sort temporary s',
  never_crashed p (world_start files) calls /\ ordinary p (world_start files) calls
  /\ tensor_at (state_at p (world_start files) calls i) handle t /\ asks_for argument names values
  /\ ~ good_names names /\ Forall (fun name => has_nul name = false) names
  /\ py_keys_to_samples p thread (state_at p (world_start files) calls i) handle argument sort temporary = (s', Ok tt).
Proof.
  exists Debug, [], ex_self_calls, 3, 0, 2, ex_self_owned, (OneName ""), [""], [], true, 0. eexists. rewrite <- ex_self_state_eq. split; [exact ex_self_never_crashed|].
  split; [exact ex_self_ordinary|]. split; [exact ex_self_tensor_at|]. split; [split; reflexivity|]. split.
  - intros [H _]. apply Forall_inv in H. destruct H as (c & rest & E & _). discriminate E.
  - split; [repeat constructor|]. vm_compute. reflexivity.
Qed.

(* keys_to_samples("spin\0s") *)
Lemma ex_moves_spin : exists p files calls i thread handle t argument names values sort temporary s',
  never_crashed p (world_start files) calls /\ ordinary p (world_start files) calls
  /\ tensor_at (state_at p (world_start files) calls i) handle t /\ asks_for argument names values
  /\ ~ good_names names /\ ~ In "" names
  /\ py_keys_to_samples p thread (state_at p (world_start files) calls i) handle argument sort temporary = (s', Ok tt).
Proof.
  set (name := "spin" +++ String nul "s").
  exists Debug, [], ex_calls, 17, 0, 4, ex_owned, (OneName name), [name], [], true, 2. eexists. rewrite <- ex_state_eq. split; [exact ex_never_crashed|].
  split; [exact ex_ordinary|]. split; [apply (ex_tensor_at 17); cbn; auto|]. split; [split; reflexivity|]. split.
  - intros [H _]. apply Forall_inv in H. apply is_valid_label_name_spec in H. vm_compute in H. discriminate H.
  - split; [intros [E|[]]; discriminate E|]. vm_compute. reflexivity.
Qed.

(* a tensor map without blocks *)
Definition ex_nothing_calls : list (nat * c_call) := [ (0, TensorCreate (ex_c ["key"] []) []) ].

Definition ex_nothing_state : world := state_at Debug (world_start []) ex_nothing_calls 1.

Lemma ex_nothing_state_eq : ex_nothing_state = state_at Debug (world_start []) ex_nothing_calls 1.
Proof. reflexivity. Qed.

Lemma ex_no_names : exists p files calls i thread handle t,
  never_crashed p (world_start files) calls /\ ordinary p (world_start files) calls
  /\ tensor_at (state_at p (world_start files) calls i) handle t
  /\ raises (py_sample_names p thread (state_at p (world_start files) calls i) handle).
Proof.
  exists Debug, [], ex_nothing_calls, 1, 0, 0,
    (match w_tensors ex_nothing_state with [(_, t)] => t | _ => ex_owned end).
  rewrite <- ex_nothing_state_eq.
  split; [apply respectful_safe, check_respectful; vm_compute; reflexivity|]. split; [apply check_ordinary_program; vm_compute; reflexivity|].
  split; [vm_compute; left; reflexivity|]. eexists. vm_compute. reflexivity.
Qed.
