(* Property C146: moving a part of the variables *)
From Verif Require Import Base Labels Array Block Tensor Spec SpecTensor PartFacts Examples ExamplesMoved ExamplesSteps ExamplesPart.
Local Open Scope string_scope.
Local Open Scope list_scope.
Local Open Scope nat_scope.

(* C146: if some variables can be moved to the samples, any of them can be, in
   any order *)
Theorem C146_part_to_samples :
  forall p t t' k k1 sort sort1,
    workable t -> wf_labels k -> wf_labels k1 -> labels_names k1 <> [] -> rows k1 = [] ->
    (p = Debug \/ agreeing_groups t (labels_names k)) ->
    keys_to_samples p t k sort = (t', Ok tt) ->
    (forall n, In n (labels_names k1) -> In n (labels_names k)) ->
    exists t1, keys_to_samples p t k1 sort1 = (t1, Ok tt).
Proof. exact part_to_samples. Qed.
Print Assumptions C146_part_to_samples.

(* C146: the same for the properties; entries may be given for the part only if
   they were given for all variables *)
Theorem C146_part_to_properties :
  forall p t t' k k1 sort sort1,
    workable t -> wf_labels k -> wf_labels k1 -> labels_names k1 <> [] -> (rows k = [] -> rows k1 = []) ->
    (forall b, In b (tm_blocks t) -> rows (bb_properties (tb_values b)) <> []) ->
    (p = Debug /\ rows k = []) \/ agreeing_groups t (labels_names k) ->
    keys_to_properties p t k sort = (t', Ok tt) ->
    (forall n, In n (labels_names k1) -> In n (labels_names k)) ->
    exists t1, keys_to_properties p t k1 sort1 = (t1, Ok tt).
Proof. exact part_to_properties. Qed.
Print Assumptions C146_part_to_properties.

Example C146_example :
  workable ex_tensor /\ wf_labels (st_labels ["center"; "spin"]) /\ wf_labels (st_labels ["spin"])
  /\ labels_names (st_labels ["spin"]) <> [] /\ rows (st_labels ["spin"]) = []
  /\ agreeing_groups ex_tensor (labels_names (st_labels ["center"; "spin"]))
  /\ (forall b, In b (tm_blocks ex_tensor) -> rows (bb_properties (tb_values b)) <> [])
  /\ keys_to_samples Debug ex_tensor (st_labels ["center"; "spin"]) true = (st_both, Ok tt)
  /\ keys_to_properties Debug ex_tensor (st_labels ["center"; "spin"]) true = (st_once, Ok tt)
  /\ (forall n, In n (labels_names (st_labels ["spin"])) -> In n (labels_names (st_labels ["center"; "spin"])))
  /\ keys_to_samples Debug ex_tensor (st_labels ["spin"]) true = (st_spin, Ok tt)
  /\ keys_to_properties Debug ex_tensor (st_labels ["spin"]) true = (st_narrow, Ok tt).
Proof.
  split; [exact ex_tensor_workable|]. split; [apply ex_labels_wf|]. split; [apply ex_labels_wf|].
  split; [vm_compute; discriminate|]. split; [vm_compute; reflexivity|]. split; [apply ex_agreeing|].
  split; [intros b; vm_compute; intros [<-|[<-|[<-|[]]]]; discriminate|].
  split; [apply st_both_ok|]. split; [apply st_once_ok|].
  split; [intros n; vm_compute; intros [<-|[]]; auto|].
  split; [apply st_spin_ok|apply st_narrow_ok].
Qed.

(* C146: the other way around, each of two variables can be moved and both of
   them together can not *)
Theorem C146_both_may_be_refused :
  exists p t k1 k2 k t1 t2 error,
    wf_tensor t /\ tensor_map_new (tm_keys t) (tm_blocks t) = Ok t
    /\ labels_names k = labels_names k1 ++ labels_names k2
    /\ keys_to_samples p t k1 true = (t1, Ok tt) /\ keys_to_samples p t k2 true = (t2, Ok tt)
    /\ keys_to_samples p t k true = (t, Err error).
Proof. exact pa_union. Qed.
Print Assumptions C146_both_may_be_refused.
