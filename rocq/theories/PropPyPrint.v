(* The texts Python shows: C97, C98, C99 *)
From Verif Require Import Base Labels Array Block Tensor Spec SpecTensor PyPrint SpecPyPrint PyPrintFacts Examples ExamplesPyPrint.
Local Open Scope string_scope.
Local Open Scope list_scope.
Local Open Scope nat_scope.

(* C97: str shows the number of blocks, the names of the keys, and one line per entry of
   the keys; the words of a line are the values of the entry exactly when the values
   are not too long for their columns *)
Theorem C97_str t :
  wf_tensor t ->
  exists s body,
    tensor_str t = Ok s
    /\ lines s = title (length (rows (tm_keys t))) :: header_line (labels_names (tm_keys t)) (length (rows (tm_keys t))) :: body
    /\ Forall2 (fun line entry => spaced (labels_names (tm_keys t)) entry <-> shows line entry) body (rows (tm_keys t)).
Proof. exact (tensor_str_lines t). Qed.
Print Assumptions C97_str.

(* repr is the same up to ten blocks, and then shows the first and last three entries *)
Theorem C97_repr t :
  wf_tensor t ->
  (length (rows (tm_keys t)) <= 10 -> tensor_repr t = tensor_str t) /\
  (10 < length (rows (tm_keys t)) ->
   exists s first dots last,
     tensor_repr t = Ok s
     /\ lines s = title (length (rows (tm_keys t))) :: header_line (labels_names (tm_keys t)) (length (rows (tm_keys t)))
                    :: first ++ dots :: last
     /\ words dots = ["..."]
     /\ Forall2 (fun line entry => spaced (labels_names (tm_keys t)) entry <-> shows line entry) first (firstn 3 (rows (tm_keys t)))
     /\ Forall2 (fun line entry => spaced (labels_names (tm_keys t)) entry <-> shows line entry) last
          (skipn (length (rows (tm_keys t)) - 3) (rows (tm_keys t)))).
Proof. exact (fun H => conj (tensor_repr_short t H) (tensor_repr_lines t H)). Qed.
Print Assumptions C97_repr.

(* tensor maps with the same text have the same keys *)
Theorem C97_same_text_partial t1 t2 :
  wf_tensor t1 -> wf_tensor t2 ->
  Forall (spaced (labels_names (tm_keys t1))) (rows (tm_keys t1)) ->
  Forall (spaced (labels_names (tm_keys t2))) (rows (tm_keys t2)) ->
  tensor_str t1 = tensor_str t2 ->
  labels_names (tm_keys t1) = labels_names (tm_keys t2) /\ rows (tm_keys t1) = rows (tm_keys t2).
Proof. exact (same_text t1 t2). Qed.
Print Assumptions C97_same_text_partial.

(* missing: values too long for their columns, which are printed without a blank between
   them *)
Theorem C97_same_text_refuted : exists t1 t2,
  wf_tensor t1 /\ wf_tensor t2 /\ tensor_str t1 = Ok ex_long_text /\ tensor_str t2 = Ok ex_long_text
  /\ rows (tm_keys t1) <> rows (tm_keys t2).
Proof. exact ex_long_refuted. Qed.
Print Assumptions C97_same_text_refuted.

Example C97_example :
  wf_tensor ex_four /\ Forall (spaced (labels_names (tm_keys ex_four))) (rows (tm_keys ex_four)) /\
  tensor_repr ex_four = Ok (in_lines
    ["TensorMap with 4 blocks";
     "keys: ['key_1' 'key_2']";
     "          0       0";
     "          1       0";
     "          2       2";
     "          2       3"]).
Proof. exact (conj ex_four_wf (conj ex_four_spaced ex_four_text)). Qed.

Example C97_example_many :
  wf_tensor ex_twelve /\ 10 < length (rows (tm_keys ex_twelve)) /\
  tensor_repr ex_twelve = Ok (in_lines
    ["TensorMap with 12 blocks";
     "keys: ['key_1' 'key_2']";
     "          0       0";
     "          1       0";
     "          2       2";
     "       ...";
     "          1       5";
     "          2       5";
     "          3       5"]).
Proof. exact (conj ex_twelve_wf (conj ex_twelve_more ex_twelve_text)). Qed.

(* C98: the values are under the names of their columns exactly when every name is wide
   enough for the names of even length before it *)
Theorem C98_aligned_partial t :
  wf_tensor t ->
  exists s header body,
    tensor_str t = Ok s
    /\ lines s = title (length (rows (tm_keys t))) :: header :: body
    /\ Forall2 (fun line entry =>
         spaced (labels_names (tm_keys t)) entry -> starts_inside (labels_names (tm_keys t)) entry ->
         (aligned header line <-> wide_names (labels_names (tm_keys t)))) body (rows (tm_keys t)).
Proof. exact (tensor_str_aligned t). Qed.
Print Assumptions C98_aligned_partial.

(* three names with two characters: the last value is not under its name *)
Theorem C98_aligned_refuted : exists t s header line rest,
  wf_tensor t /\ Forall (spaced (labels_names (tm_keys t))) (rows (tm_keys t))
  /\ tensor_str t = Ok s /\ tensor_repr t = Ok s /\ lines s = title 2 :: header :: line :: rest
  /\ quoted_at header = [(7, 10); (12, 15); (17, 20)] /\ word_ends line = [9; 13; 17] /\ ~ aligned header line.
Proof. exact ex_even_refuted. Qed.
Print Assumptions C98_aligned_refuted.

Example C98_example :
  wf_tensor ex_four /\
  wide_names (labels_names (tm_keys ex_four)) /\ Forall (starts_inside (labels_names (tm_keys ex_four))) (rows (tm_keys ex_four))
  /\ aligned "keys: ['key_1' 'key_2']" "          2       3".
Proof. exact (conj ex_four_wf ex_four_aligned). Qed.

(* C99: the text of blocks and gradients gives the names of all labels and the
   parameters *)
Theorem C99_block b :
  wf_block b ->
  block_repr b = Ok (in_lines
    ["TensorBlock";
     "    samples: " +++ names_list (labels_names (bb_samples (tb_values b)));
     "    component: " +++ names_list (flat_map labels_names (bb_components (tb_values b)));
     "    properties: " +++ names_list (labels_names (bb_properties (tb_values b)));
     "    gradients: " +++ match tb_gradient_parameters b with [] => "no" | p => names_list p end]).
Proof. exact (block_repr_text b). Qed.
Print Assumptions C99_block.

Theorem C99_gradient parameter g :
  wf_basic g ->
  gradient_repr parameter g = Ok (in_lines
    ["Gradient TensorBlock ";
     "parameter: '" +++ parameter +++ "'";
     "samples: " +++ names_list (labels_names (bb_samples g));
     "component: " +++ names_list (flat_map labels_names (bb_components g));
     "properties: " +++ names_list (labels_names (bb_properties g))]).
Proof. exact (gradient_repr_text parameter g). Qed.
Print Assumptions C99_gradient.

Theorem C99_same_text_partial b1 b2 :
  wf_block b1 -> wf_block b2 ->
  Forall unquoted (tb_gradient_parameters b1) -> Forall unquoted (tb_gradient_parameters b2) ->
  block_repr b1 = block_repr b2 ->
  labels_names (bb_samples (tb_values b1)) = labels_names (bb_samples (tb_values b2))
  /\ map labels_names (bb_components (tb_values b1)) = map labels_names (bb_components (tb_values b2))
  /\ labels_names (bb_properties (tb_values b1)) = labels_names (bb_properties (tb_values b2))
  /\ tb_gradient_parameters b1 = tb_gradient_parameters b2.
Proof. exact (same_block_text b1 b2). Qed.
Print Assumptions C99_same_text_partial.

Theorem C99_same_gradient_text_partial p1 g1 p2 g2 :
  wf_basic g1 -> wf_basic g2 -> unquoted p1 -> unquoted p2 ->
  gradient_repr p1 g1 = gradient_repr p2 g2 ->
  p1 = p2 /\ labels_names (bb_samples g1) = labels_names (bb_samples g2)
  /\ map labels_names (bb_components g1) = map labels_names (bb_components g2)
  /\ labels_names (bb_properties g1) = labels_names (bb_properties g2).
Proof. exact (same_gradient_text p1 g1 p2 g2). Qed.
Print Assumptions C99_same_gradient_text_partial.

(* missing: parameters with quotes *)
Theorem C99_same_text_refuted : exists b1 b2,
  wf_block b1 /\ wf_block b2 /\ block_repr b1 = block_repr b2
  /\ tb_gradient_parameters b1 = ["a', 'b"] /\ tb_gradient_parameters b2 = ["a"; "b"].
Proof. exact ex_quoted_refuted. Qed.
Print Assumptions C99_same_text_refuted.

Example C99_example :
  wf_block ex_block_1 /\ Forall unquoted (tb_gradient_parameters ex_block_1) /\
  block_repr ex_block_1 = Ok (in_lines
    ["TensorBlock"; "    samples: ['structure']"; "    component: ['xyz']"; "    properties: ['n', 'l']"; "    gradients: ['positions']"]).
Proof. exact (conj (Forall_inv ex_blocks_wf) (conj ex_block_1_unquoted ex_block_1_text)). Qed.

Example C99_example_plain :
  wf_block ex_plain_block /\
  block_repr ex_plain_block = Ok (in_lines
    ["TensorBlock"; "    samples: ['samples']"; "    component: []"; "    properties: ['properties']"; "    gradients: no"]).
Proof. exact (conj ex_plain_wf ex_plain_text). Qed.

Example C99_example_gradient :
  wf_basic ex_shown_gradient /\ gradient_repr "positions" ex_shown_gradient = Ok (in_lines
    ["Gradient TensorBlock "; "parameter: 'positions'"; "samples: ['sample', 'atom']"; "component: ['cell', 'xyz']"; "properties: ['n', 'l']"]).
Proof. exact ex_gradient_text. Qed.
