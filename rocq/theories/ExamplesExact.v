(* Concrete cases for the exact forms of C08 and C26 *)
From Verif Require Import Base Labels Array Block Tensor Spec SpecTensor LabelsFacts SpecExact Examples ExamplesMoved.
Local Open Scope string_scope.
Local Open Scope list_scope.
Local Open Scope nat_scope.

Lemma ex_swapped_read :
  exists t' b', keys_to_samples Debug ex_tensor ex_swapped true = (t', Ok tt)
    /\ block_of t' [4]%Z b'
    /\ labels_names (bb_samples (tb_values b')) = ["structure"; "spin"; "center"]
    /\ In [1; 8; 0]%Z (rows (bb_samples (tb_values b')))
    /\ labels_names (tm_keys ex_tensor) = ["center"; "spin"; "kind"]
    /\ In [8; 0; 4]%Z (rows (tm_keys ex_tensor)).
Proof.
  exists (fst (keys_to_samples Debug ex_tensor ex_swapped true)).
  exists (nth 0 (tm_blocks (fst (keys_to_samples Debug ex_tensor ex_swapped true))) ex_block_1).
  split; [vm_compute; reflexivity|]. split; [exists 0; vm_compute; auto|].
  split; [vm_compute; reflexivity|]. split; [vm_compute; auto|]. split; [vm_compute; reflexivity|]. vm_compute; auto.
Qed.

(* the key [8; 0; 4] has different values for center and spin, a key [5; 5; 4] would not *)
Lemma ex_swapped_different :
  ~ same_values ["spin"; "center"] ["center"; "spin"; "kind"] [8; 0; 4]%Z
  /\ same_values ["spin"; "center"] ["center"; "spin"; "kind"] [5; 5; 4]%Z.
Proof.
  split.
  - intros H. specialize (H 0 "spin" "center" 0%Z 8%Z eq_refl eq_refl). vm_compute in H.
    assert (0 = 8)%Z by (apply H; auto). discriminate.
  - intros [|[|i]] r o u v H1 H2 H3 H4.
    + inversion H1; inversion H2; subst. vm_compute in H3, H4. intuition congruence.
    + inversion H1; inversion H2; subst. vm_compute in H3, H4. intuition congruence.
    + destruct i; discriminate.
Qed.
