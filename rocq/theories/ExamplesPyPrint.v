(* Concrete texts, among them those of tests/python/tensor.py and tests/python/blocks.py *)
From Verif Require Import Base BaseFacts Labels Array Block Tensor Spec SpecTensor LabelsFacts ArrayFacts BlockFacts TensorFacts
  Examples ExamplesMoved ExamplesRefuted PyPrint SpecPyPrint PyPrintFacts.
Local Open Scope string_scope.
Local Open Scope list_scope.
Local Open Scope nat_scope.

(* a tensor map with these keys *)
Definition ex_small_block : TensorBlock := ex_block (ex_array [1; 1] 0) (ex_s1 0) [] ex_p1.
Definition ex_printed (names : list string) (rs : list (list Z)) : TensorMap :=
  ex_map (ex_labels names rs) (repeat ex_small_block (length rs)).

Lemma ex_printed_wf names rs :
  labels_names (ex_labels names rs) <> [] ->
  tensor_map_new (ex_labels names rs) (repeat ex_small_block (length rs)) = Ok (ex_printed names rs) ->
  wf_tensor (ex_printed names rs).
Proof.
  intros Hne E. assert (Hk : axis_labels (ex_labels names rs)) by (split; [apply ex_labels_wf|exact Hne]).
  assert (Hr : reachable_block ex_small_block) by (unfold ex_small_block; ex_reach).
  assert (Hf : Forall wf_block (repeat ex_small_block (length rs))).
  { apply Forall_forall. intros b Hb. apply repeat_spec in Hb as ->. apply reachable_wf, Hr. }
  apply (tensor_map_new_ok _ _ _ Hk Hf) in E as [Hh ->]. split; [assumption|]. split; assumption.
Qed.

Ltac ex_printed_tac := apply ex_printed_wf; [vm_compute; discriminate|vm_compute; reflexivity].

(* tests/python/tensor.py:24-44 *)
Definition ex_four : TensorMap := ex_printed ["key_1"; "key_2"] [[0; 0]; [1; 0]; [2; 2]; [2; 3]]%Z.
Definition ex_twelve : TensorMap := ex_printed ["key_1"; "key_2"]
  [[0; 0]; [1; 0]; [2; 2]; [2; 3]; [0; 4]; [1; 4]; [2; 4]; [3; 4]; [0; 5]; [1; 5]; [2; 5]; [3; 5]]%Z.

Lemma ex_four_wf : wf_tensor ex_four. Proof. ex_printed_tac. Qed.
Lemma ex_twelve_wf : wf_tensor ex_twelve. Proof. ex_printed_tac. Qed.

Lemma ex_four_text : tensor_repr ex_four = Ok (in_lines
  ["TensorMap with 4 blocks";
   "keys: ['key_1' 'key_2']";
   "          0       0";
   "          1       0";
   "          2       2";
   "          2       3"]).
Proof. vm_compute. reflexivity. Qed.

Lemma ex_twelve_text : tensor_repr ex_twelve = Ok (in_lines
  ["TensorMap with 12 blocks";
   "keys: ['key_1' 'key_2']";
   "          0       0";
   "          1       0";
   "          2       2";
   "       ...";
   "          1       5";
   "          2       5";
   "          3       5"]).
Proof. vm_compute. reflexivity. Qed.

Lemma ex_four_spaced : Forall (spaced (labels_names (tm_keys ex_four))) (rows (tm_keys ex_four)).
Proof. vm_compute. repeat constructor. Qed.

Lemma ex_twelve_more : 10 < length (rows (tm_keys ex_twelve)).
Proof. vm_compute. lia. Qed.

(* values with too many digits *)
Definition ex_long_1 : TensorMap := ex_printed ["a"; "b"; "c"] [[1; 12345; 1234]]%Z.
Definition ex_long_2 : TensorMap := ex_printed ["a"; "b"; "c"] [[1; 1234; 51234]]%Z.
Lemma ex_long_1_wf : wf_tensor ex_long_1. Proof. ex_printed_tac. Qed.
Lemma ex_long_2_wf : wf_tensor ex_long_2. Proof. ex_printed_tac. Qed.

Definition ex_long_text : string := in_lines ["TensorMap with 1 blocks"; "keys: ['a' 'b' 'c']"; "        1123451234"].
Lemma ex_long_refuted : exists t1 t2,
  wf_tensor t1 /\ wf_tensor t2 /\ tensor_str t1 = Ok ex_long_text /\ tensor_str t2 = Ok ex_long_text
  /\ rows (tm_keys t1) <> rows (tm_keys t2).
Proof.
  exists ex_long_1, ex_long_2. split; [apply ex_long_1_wf|]. split; [apply ex_long_2_wf|].
  vm_compute. split; [reflexivity|]. split; [reflexivity|discriminate].
Qed.

(* names with an even number of characters *)
Definition ex_even : TensorMap := ex_printed ["aa"; "bb"; "cc"] [[1; 2; 3]; [4; 5; 6]]%Z.
Lemma ex_even_wf : wf_tensor ex_even. Proof. ex_printed_tac. Qed.

Definition ex_even_text : string := in_lines
  ["TensorMap with 2 blocks";
   "keys: ['aa' 'bb' 'cc']";
   "        1   2   3";
   "        4   5   6"].

Lemma ex_even_refuted : exists t s header line rest,
  wf_tensor t /\ Forall (spaced (labels_names (tm_keys t))) (rows (tm_keys t))
  /\ tensor_str t = Ok s /\ tensor_repr t = Ok s /\ lines s = title 2 :: header :: line :: rest
  /\ quoted_at header = [(7, 10); (12, 15); (17, 20)] /\ word_ends line = [9; 13; 17] /\ ~ aligned header line.
Proof.
  exists ex_even, ex_even_text, "keys: ['aa' 'bb' 'cc']", "        1   2   3", ["        4   5   6"].
  split; [apply ex_even_wf|]. split; [vm_compute; repeat constructor|]. split; [vm_compute; reflexivity|].
  split; [vm_compute; reflexivity|]. split; [vm_compute; reflexivity|].
  split; [vm_compute; reflexivity|]. split; [vm_compute; reflexivity|].
  unfold aligned. intros H.
  change (Forall2 (fun span stop => fst span < stop <= snd span + 1) [(7, 10); (12, 15); (17, 20)] [9; 13; 17]) in H.
  inversion H as [|? ? ? ? _ H1]; subst. inversion H1 as [|? ? ? ? _ H2]; subst. inversion H2 as [|? ? ? ? H3 _]; subst. cbn in H3. lia.
Qed.

Lemma ex_four_aligned :
  wide_names (labels_names (tm_keys ex_four)) /\ Forall (starts_inside (labels_names (tm_keys ex_four))) (rows (tm_keys ex_four))
  /\ aligned "keys: ['key_1' 'key_2']" "          2       3".
Proof.
  split; [|split].
  - intros [|[|[|j]]] name; vm_compute; intros H; inversion H; subst; vm_compute; lia.
  - vm_compute. repeat constructor.
  - repeat constructor.
Qed.

(** * Blocks *)

(* tests/python/blocks.py:9-21 *)
Definition ex_plain_block : TensorBlock :=
  ex_block (ex_array [3; 2] 0) (ex_labels ["samples"] [[0]; [2]; [4]]%Z) [] (ex_labels ["properties"] [[5]; [3]]%Z).

Lemma ex_plain_wf : wf_block ex_plain_block.
Proof. apply reachable_wf. unfold ex_plain_block. ex_reach. Qed.

Lemma ex_plain_text : block_repr ex_plain_block = Ok (in_lines
  ["TensorBlock"; "    samples: ['samples']"; "    component: []"; "    properties: ['properties']"; "    gradients: no"]).
Proof. vm_compute. reflexivity. Qed.

Lemma ex_block_1_text : block_repr ex_block_1 = Ok (in_lines
  ["TensorBlock"; "    samples: ['structure']"; "    component: ['xyz']"; "    properties: ['n', 'l']"; "    gradients: ['positions']"]).
Proof. vm_compute. reflexivity. Qed.

Lemma ex_block_1_unquoted : Forall unquoted (tb_gradient_parameters ex_block_1).
Proof.
  replace (tb_gradient_parameters ex_block_1) with ["positions"] by (vm_compute; reflexivity).
  repeat constructor. unfold unquoted. cbn. intros H. repeat (destruct H as [H|H]; [discriminate|]). destruct H.
Qed.

(* quotes in the name of a parameter *)
Definition ex_one_gradient (b : TensorBlock) (parameter : string) : TensorBlock :=
  ex_with_gradient b parameter (ex_array [1; 1] 5) (ex_labels ["sample"] [[0]]%Z) [].
Definition ex_quoted_1 : TensorBlock := ex_one_gradient ex_small_block "a', 'b".
Definition ex_quoted_2 : TensorBlock := ex_one_gradient (ex_one_gradient ex_small_block "a") "b".

Lemma ex_quoted_refuted : exists b1 b2,
  wf_block b1 /\ wf_block b2 /\ block_repr b1 = block_repr b2
  /\ tb_gradient_parameters b1 = ["a', 'b"] /\ tb_gradient_parameters b2 = ["a"; "b"].
Proof.
  exists ex_quoted_1, ex_quoted_2.
  split; [apply reachable_wf; unfold ex_quoted_1, ex_one_gradient, ex_small_block; ex_reach|].
  split; [apply reachable_wf; unfold ex_quoted_2, ex_one_gradient, ex_small_block; ex_reach|].
  vm_compute. auto.
Qed.

Definition ex_shown_gradient : BasicBlock := match tb_gradients ex_block_1 with (_, g) :: _ => g | [] => tb_values ex_block_1 end.
Lemma ex_gradient_text : wf_basic ex_shown_gradient /\ gradient_repr "positions" ex_shown_gradient = Ok (in_lines
  ["Gradient TensorBlock "; "parameter: 'positions'"; "samples: ['sample', 'atom']"; "component: ['cell', 'xyz']"; "properties: ['n', 'l']"]).
Proof.
  split; [|vm_compute; reflexivity]. destruct (reachable_wf _ ex_block_1_reachable) as (Hv & Hg & _).
  unfold ex_shown_gradient. destruct (tb_gradients ex_block_1) as [|[q g] l]; [exact Hv|]. inversion Hg as [|? ? [H _] _]; subst. exact H.
Qed.
