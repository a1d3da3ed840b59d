(* Concrete tensor maps moved in several steps *)
From Verif Require Import Base Labels Array Block Tensor Spec SpecTensor Examples ExamplesMoved.
Local Open Scope string_scope.
Local Open Scope list_scope.
Local Open Scope nat_scope.

Definition st_labels (names : list string) : Labels := ex_labels names [].

(* first the centers, then the spins, to the samples *)
Definition st_center : TensorMap := fst (keys_to_samples Debug ex_tensor (st_labels ["center"]) false).
Definition st_center_spin : TensorMap := fst (keys_to_samples Debug st_center (st_labels ["spin"]) true).
Definition st_both : TensorMap := fst (keys_to_samples Debug ex_tensor (st_labels ["center"; "spin"]) true).

Lemma st_center_ok : keys_to_samples Debug ex_tensor (st_labels ["center"]) false = (st_center, Ok tt).
Proof. vm_compute. reflexivity. Qed.
Lemma st_center_spin_ok : keys_to_samples Debug st_center (st_labels ["spin"]) true = (st_center_spin, Ok tt).
Proof. vm_compute. reflexivity. Qed.
Lemma st_both_ok : keys_to_samples Debug ex_tensor (st_labels ["center"; "spin"]) true = (st_both, Ok tt).
Proof. vm_compute. reflexivity. Qed.

(* first the spins, then the centers *)
Definition st_spin : TensorMap := fst (keys_to_samples Debug ex_tensor (st_labels ["spin"]) true).
Definition st_spin_center : TensorMap := fst (keys_to_samples Debug st_spin (st_labels ["center"]) true).
Definition st_swapped : TensorMap := fst (keys_to_samples Debug ex_tensor (st_labels ["spin"; "center"]) true).

Lemma st_spin_ok : keys_to_samples Debug ex_tensor (st_labels ["spin"]) true = (st_spin, Ok tt).
Proof. vm_compute. reflexivity. Qed.
Lemma st_spin_center_ok : keys_to_samples Debug st_spin (st_labels ["center"]) true = (st_spin_center, Ok tt).
Proof. vm_compute. reflexivity. Qed.
Lemma st_swapped_ok : keys_to_samples Debug ex_tensor (st_labels ["spin"; "center"]) true = (st_swapped, Ok tt).
Proof. vm_compute. reflexivity. Qed.

(* the kinds to the samples and the centers to the properties *)
Definition st_kind : TensorMap := fst (keys_to_samples Debug ex_tensor (st_labels ["kind"]) true).
Definition st_kind_center : TensorMap := fst (keys_to_properties Debug st_kind (st_labels ["center"]) true).
Definition st_wide : TensorMap := fst (keys_to_properties Debug ex_tensor (st_labels ["center"]) true).
Definition st_wide_kind : TensorMap := fst (keys_to_samples Debug st_wide (st_labels ["kind"]) true).

Lemma st_kind_ok : keys_to_samples Debug ex_tensor (st_labels ["kind"]) true = (st_kind, Ok tt).
Proof. vm_compute. reflexivity. Qed.
Lemma st_kind_center_ok : keys_to_properties Debug st_kind (st_labels ["center"]) true = (st_kind_center, Ok tt).
Proof. vm_compute. reflexivity. Qed.
Lemma st_wide_ok : keys_to_properties Debug ex_tensor (st_labels ["center"]) true = (st_wide, Ok tt).
Proof. vm_compute. reflexivity. Qed.
Lemma st_wide_kind_ok : keys_to_samples Debug st_wide (st_labels ["kind"]) true = (st_wide_kind, Ok tt).
Proof. vm_compute. reflexivity. Qed.

(* the spins to the samples and the centers to the properties *)
Definition st_spin_wide : TensorMap := fst (keys_to_properties Debug st_spin (st_labels ["center"]) true).

Lemma st_spin_wide_ok : keys_to_properties Debug st_spin (st_labels ["center"]) true = (st_spin_wide, Ok tt).
Proof. vm_compute. reflexivity. Qed.
Lemma st_refused_error : exists e, keys_to_samples Debug st_wide (st_labels ["spin"]) true = (st_wide, Err e).
Proof. eexists. vm_compute. reflexivity. Qed.

(* first the spins, then the centers, to the properties *)
Definition st_narrow : TensorMap := fst (keys_to_properties Debug ex_tensor (st_labels ["spin"]) true).
Definition st_twice : TensorMap := fst (keys_to_properties Debug st_narrow (st_labels ["center"]) true).
Definition st_once : TensorMap := fst (keys_to_properties Debug ex_tensor (st_labels ["center"; "spin"]) true).

Lemma st_narrow_ok : keys_to_properties Debug ex_tensor (st_labels ["spin"]) true = (st_narrow, Ok tt).
Proof. vm_compute. reflexivity. Qed.
Lemma st_twice_ok : keys_to_properties Debug st_narrow (st_labels ["center"]) true = (st_twice, Ok tt).
Proof. vm_compute. reflexivity. Qed.
Lemma st_once_ok : keys_to_properties Debug ex_tensor (st_labels ["center"; "spin"]) true = (st_once, Ok tt).
Proof. vm_compute. reflexivity. Qed.
(* the other way around *)
Definition st_wide_spin : TensorMap := fst (keys_to_properties Debug st_wide (st_labels ["spin"]) true).
Definition st_once_swapped : TensorMap := fst (keys_to_properties Debug ex_tensor (st_labels ["spin"; "center"]) true).
Lemma st_wide_spin_ok : keys_to_properties Debug st_wide (st_labels ["spin"]) true = (st_wide_spin, Ok tt).
Proof. vm_compute. reflexivity. Qed.
Lemma st_once_swapped_ok : keys_to_properties Debug ex_tensor (st_labels ["spin"; "center"]) true = (st_once_swapped, Ok tt).
Proof. vm_compute. reflexivity. Qed.

Lemma st_names : labels_names (st_labels ["center"; "spin"]) = labels_names (st_labels ["center"]) ++ labels_names (st_labels ["spin"]).
Proof. vm_compute. reflexivity. Qed.
Lemma st_names_swapped : labels_names (st_labels ["spin"; "center"]) = labels_names (st_labels ["spin"]) ++ labels_names (st_labels ["center"]).
Proof. vm_compute. reflexivity. Qed.
Lemma st_in_order : in_key_order (labels_names (st_labels ["center"; "spin"])) (labels_names (tm_keys ex_tensor)).
Proof. vm_compute. reflexivity. Qed.

Definition st_block (t : TensorMap) (i : nat) : TensorBlock := nth i (tm_blocks t) ex_block_1.

Lemma st_other_order :
  exists p t t1 t2 t' k1 k2 k e b2 b' s,
    wf_tensor t
    /\ keys_to_samples p t k1 true = (t1, Ok tt) /\ keys_to_samples p t1 k2 true = (t2, Ok tt)
    /\ keys_to_samples p t k true = (t', Ok tt)
    /\ labels_names k = labels_names k1 ++ labels_names k2
    /\ block_of t2 e b2 /\ block_of t' e b'
    /\ labels_names (bb_samples (tb_values b2)) = labels_names (bb_samples (tb_values b'))
    /\ In s (rows (bb_samples (tb_values b2))) /\ ~ In s (rows (bb_samples (tb_values b'))).
Proof.
  exists Debug, ex_tensor, st_spin, st_spin_center, st_swapped, (st_labels ["spin"]), (st_labels ["center"]), (st_labels ["spin"; "center"]),
    [4]%Z, (st_block st_spin_center 0), (st_block st_swapped 0), [1; 0; 8]%Z.
  split; [apply ex_tensor_wf|]. split; [apply st_spin_ok|]. split; [apply st_spin_center_ok|]. split; [apply st_swapped_ok|].
  split; [apply st_names_swapped|]. split; [exists 0; vm_compute; auto|]. split; [exists 0; vm_compute; auto|].
  split; [vm_compute; reflexivity|]. split; [vm_compute; auto|]. vm_compute. intuition discriminate.
Qed.

Lemma st_one_order :
  exists p t ta tab tb k1 k2 error,
    wf_tensor t /\ wf_labels k2 /\ rows k2 = []
    /\ (forall n, In n (labels_names k1) -> ~ In n (labels_names k2))
    /\ keys_to_samples p t k1 true = (ta, Ok tt) /\ keys_to_properties p ta k2 true = (tab, Ok tt)
    /\ keys_to_properties p t k2 true = (tb, Ok tt) /\ keys_to_samples p tb k1 true = (tb, Err error).
Proof.
  destruct st_refused_error as [e He].
  exists Debug, ex_tensor, st_spin, st_spin_wide, st_wide, (st_labels ["spin"]), (st_labels ["center"]), e.
  split; [apply ex_tensor_wf|]. split; [apply ex_labels_wf|]. split; [vm_compute; reflexivity|].
  split; [intros n; vm_compute; intros [<-|[]] [H|[]]; discriminate H|].
  split; [apply st_spin_ok|]. split; [apply st_spin_wide_ok|]. split; [apply st_wide_ok|exact He].
Qed.

Lemma st_other_properties :
  exists p t ta t2 t' k1 k2 k e b2 b' pr,
    wf_tensor t /\ wf_labels k1 /\ wf_labels k2 /\ wf_labels k /\ rows k1 = [] /\ rows k2 = [] /\ rows k = []
    /\ keys_to_properties p t k1 true = (ta, Ok tt) /\ keys_to_properties p ta k2 true = (t2, Ok tt)
    /\ keys_to_properties p t k true = (t', Ok tt)
    /\ labels_names k = labels_names k2 ++ labels_names k1
    /\ block_of t2 e b2 /\ block_of t' e b'
    /\ labels_names (bb_properties (tb_values b2)) = labels_names (bb_properties (tb_values b'))
    /\ In pr (rows (bb_properties (tb_values b2))) /\ ~ In pr (rows (bb_properties (tb_values b'))).
Proof.
  exists Debug, ex_tensor, st_wide, st_wide_spin, st_once_swapped, (st_labels ["center"]), (st_labels ["spin"]), (st_labels ["spin"; "center"]),
    [4]%Z, (st_block st_wide_spin 0), (st_block st_once_swapped 0), [0; 8; 3; 1]%Z.
  split; [apply ex_tensor_wf|]. split; [apply ex_labels_wf|]. split; [apply ex_labels_wf|]. split; [apply ex_labels_wf|].
  split; [vm_compute; reflexivity|]. split; [vm_compute; reflexivity|]. split; [vm_compute; reflexivity|].
  split; [apply st_wide_ok|]. split; [apply st_wide_spin_ok|]. split; [apply st_once_swapped_ok|].
  split; [apply st_names_swapped|]. split; [exists 0; vm_compute; auto|]. split; [exists 0; vm_compute; auto|].
  split; [vm_compute; reflexivity|]. split; [vm_compute; auto 20|]. vm_compute. intuition discriminate.
Qed.
