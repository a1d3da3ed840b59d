(* Lemmas about tensors of torch *)
From Coq Require Import Lia.
From Verif Require Import Base BaseFacts Labels Array Block Tensor Strided Io Numpy Torch Spec SpecTensor SpecIo SpecNumpy NumpyFacts IoFacts.
Local Open Scope string_scope.
Local Open Scope list_scope.
Local Open Scope nat_scope.

Lemma torch_never_read m t : wrapper_data m (TorchTensor t) = None.
Proof.
  cbn [wrapper_data]. unfold torch_numpy. destruct (String.eqb (tt_device t) "cpu"); reflexivity.
Qed.

Lemma torch_array_refuses origin m t : ~ SpecIo.readable (eqs_array_of origin m (TorchTensor t)).
Proof.
  intros [numbers H]. unfold array_data, eqs_array_of, call in H. cbn [a_kind a_callbacks] in H. rewrite torch_never_read in H. discriminate H.
Qed.

Lemma torch_never_saved e t b part origin m x archive :
  wf_tensor t -> tensor_in_memory t -> describable t ->
  In b (tm_blocks t) -> In part (parts_of_block b) -> bb_data part = eqs_array_of origin m (TorchTensor x) ->
  save e t <> Ok archive.
Proof.
  intros Hwf Hm Hd Hb Hp E H. destruct (save_iff_readable e t Hwf Hm Hd) as [H1 _].
  apply (torch_array_refuses origin m x). rewrite <- E. apply (H1 (ex_intro _ archive H) b part Hb Hp).
Qed.

Lemma numpy_array_gives origin m a : in_memory m a -> np_dtype a = Float64 -> one_after_the_other a ->
  array_data (eqs_array_of origin m (NumpyArray a)) = Ok (np_elements m a).
Proof.
  intros Hm Ht Ho. unfold array_data, eqs_array_of, call. cbn [a_kind a_callbacks wrapper_data shown_array a_nd nd_data].
  assert (E : np_data m a = Some (np_elements m a)) by (apply NumpyFacts.readable; auto). rewrite E. reflexivity.
Qed.

Lemma torch_with_numpy m t : in_memory m (tt_array t) ->
  (tt_requires_grad t = false ->
     exists m' a, array_to_numpy m (TorchTensor t) = Some (m', a) /\ (exists new, m' = m ++ new)
       /\ np_shape a = np_shape (tt_array t) /\ np_dtype a = np_dtype (tt_array t) /\ np_elements m' a = np_elements m (tt_array t))
  /\ (tt_requires_grad t = true -> array_to_numpy m (TorchTensor t) = None).
Proof.
  intros Hm. cbn [array_to_numpy]. unfold torch_cpu, torch_numpy.
  destruct (String.eqb (tt_device t) "cpu") eqn:Ed.
  - rewrite Ed. split; intros ->; cbn [negb andb]; [|reflexivity]. exists m, (tt_array t). split; [reflexivity|].
    split; [exists []; rewrite app_nil_r; reflexivity|]. repeat split.
  - pose proof (new_elements m (np_shape (tt_array t)) (np_dtype (tt_array t)) _ (elements_length m (tt_array t))) as E.
    cbn [np_new fst snd] in E. cbn [np_new tt_device tt_requires_grad tt_array]. rewrite String.eqb_refl.
    split; intros ->; cbn [negb andb]; [|reflexivity]. eexists _, _. split; [reflexivity|]. split; [eexists; reflexivity|]. repeat split. exact E.
Qed.
