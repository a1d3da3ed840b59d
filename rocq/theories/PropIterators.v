(* Properties C115 to C118: iterators over labels and tensor maps, and the Debug text of
   labels *)
From Coq Require Import Permutation.
From Verif Require Import Base Labels Block Tensor Spec SpecTensor Examples SpecPyPrint Iterators SpecIterators IteratorsFacts ExamplesIterators.
Local Open Scope string_scope.
Local Open Scope list_scope.
Local Open Scope nat_scope.

(** * C115: iter() and iter_mut() give each key with its block *)

(* [blocks] is what is given for each block: the block itself, or a reference *)
Theorem C115_tensor_items : forall (B : Type) p t (blocks : list B),
  wf_tensor t -> length blocks = length (tm_blocks t) ->
  exists z, tensor_iterator p t blocks = Ok z
    /\ forall times, snd (nexts tensor_next times z)
         = map (nth_error (combine (rows (tm_keys t)) blocks)) (seq 0 times).
Proof. exact @tensor_iterator_spec. Qed.
Print Assumptions C115_tensor_items.

Theorem C115_labels_items : forall p l,
  wf_labels l -> labels_names l <> [] ->
  exists c, labels_iterator p l = Ok c
    /\ forall times, snd (nexts iter_next times c) = map (nth_error (rows l)) (seq 0 times).
Proof. exact labels_items. Qed.
Print Assumptions C115_labels_items.

Theorem C115_fixed_size_items : forall p l n,
  wf_labels l -> labels_names l <> [] -> n = length (labels_names l) ->
  exists values, fixed_size_iterator p n l = Ok values
    /\ forall times, exists left, fixed_size_nexts n times values = Ok (left, map (nth_error (rows l)) (seq 0 times)).
Proof. exact fixed_size_items. Qed.
Print Assumptions C115_fixed_size_items.

Theorem C115_fixed_size_only : forall p l n,
  wf_labels l -> n <> length (labels_names l) -> exists message, fixed_size_iterator p n l = Panic message.
Proof. exact fixed_size_only. Qed.
Print Assumptions C115_fixed_size_only.

Example C115_example : wf_tensor ex_tensor /\ length [0; 1; 2] = length (tm_blocks ex_tensor)
  /\ tensor_iterator Debug ex_tensor [0; 1; 2] = Ok ex_iterator
  /\ snd (nexts tensor_next 5 ex_iterator)
     = [Some ([1; 0; 4]%Z, 0); Some ([1; 1; 4]%Z, 1); Some ([8; 0; 4]%Z, 2); None; None].
Proof. exact (conj ex_tensor_wf (conj ex_positions (conj (ex_iterator_ok Debug) ex_iterator_items))). Qed.

(** * C116: len() is the number of items which are left *)

(* in full: for the iterators of labels, with a fixed size or not, for those of tensor
   maps and for the parallel ones. It is false for those of tensor maps which are not
   parallel (below), and for labels without names. *)
Theorem C116_labels_len_partial : forall p l,
  wf_labels l -> labels_names l <> [] ->
  exists c, labels_iterator p l = Ok c
    /\ forall times, iter_len (fst (nexts iter_next times c)) = length (rows l) - times.
Proof. exact labels_lengths. Qed.
Print Assumptions C116_labels_len_partial.

Theorem C116_fixed_size_len_partial : forall p l n,
  wf_labels l -> labels_names l <> [] -> n = length (labels_names l) ->
  exists values, fixed_size_iterator p n l = Ok values
    /\ forall times left items, fixed_size_nexts n times values = Ok (left, items) ->
         fixed_size_len n left = Ok (length (rows l) - times).
Proof. exact fixed_size_lengths. Qed.
Print Assumptions C116_fixed_size_len_partial.

Theorem C116_parallel_len : forall (B : Type) p t (blocks : list B),
  wf_tensor t -> length blocks = length (tm_blocks t) ->
  exists z, parallel_iterator p t blocks = Ok z /\ parallel_len z = length (tm_blocks t).
Proof. exact @parallel_length. Qed.
Print Assumptions C116_parallel_len.

(* iter() and iter_mut() of tensor maps: len() panics until all the items were given *)
Theorem C116_tensor_len_partial : forall (B : Type) p t (blocks : list B),
  wf_tensor t -> length blocks = length (tm_blocks t) ->
  exists z, tensor_iterator p t blocks = Ok z /\ forall times,
    (length (tm_blocks t) <= times -> tensor_len (fst (nexts tensor_next times z)) = Ok 0)
    /\ (times < length (tm_blocks t) -> exists message, tensor_len (fst (nexts tensor_next times z)) = Panic message).
Proof. exact @tensor_len_spec. Qed.
Print Assumptions C116_tensor_len_partial.

Theorem C116_tensor_len_refuted : exists t (blocks : list TensorBlock) z message,
  wf_tensor t /\ blocks = tm_blocks t /\ length blocks = 3
  /\ tensor_iterator Release t blocks = Ok z /\ tensor_len z = Panic message.
Proof. exact ex_len_refuted. Qed.
Print Assumptions C116_tensor_len_refuted.

Theorem C116_no_names_refuted : forall p, exists l,
  wf_labels l /\ labels_names l = [] /\ length (rows l) = 0
  /\ (exists message, labels_iterator p l = Panic message)
  /\ (exists message, fixed_size_iterator p 0 l = Panic message \/ fixed_size_len 0 [] = Panic message).
Proof. exact ex_no_names_refuted. Qed.
Print Assumptions C116_no_names_refuted.

Example C116_example : wf_labels ex_keys /\ labels_names ex_keys <> []
  /\ exists c, labels_iterator Release ex_keys = Ok c
       /\ map (fun times => iter_len (fst (nexts iter_next times c))) [0; 1; 2; 3; 4] = [3; 2; 1; 0; 0].
Proof. exact (conj ex_keys_wf (conj ex_keys_names (ex_lengths Release))). Qed.

Example C116_example_fixed_size : exists values, fixed_size_iterator Debug 3 ex_keys = Ok values
  /\ fixed_size_nexts 3 2 values = Ok ([8; 0; 4]%Z, [Some [1; 0; 4]%Z; Some [1; 1; 4]%Z]) /\ fixed_size_len 3 [8; 0; 4]%Z = Ok 1.
Proof. exact (ex_lengths_fixed Debug). Qed.

Example C116_example_tensor :
  map (fun times => tensor_len (fst (nexts tensor_next times ex_iterator))) [0; 2; 3; 4]
  = [Panic "assertion failed: `(left == right)`"; Panic "assertion failed: `(left == right)`"; Ok 0; Ok 0].
Proof. exact ex_tensor_lengths. Qed.

(** * C117: parallel iteration gives each key with its block, however the work is divided *)

Theorem C117_parallel_items : forall (B : Type) p t (blocks : list B) d,
  wf_tensor t -> length blocks = length (tm_blocks t) -> divides d (length (tm_blocks t)) ->
  exists z ps, parallel_iterator p t blocks = Ok z /\ parts d z = Ok ps
    /\ concat ps = combine (rows (tm_keys t)) blocks.
Proof. exact @parallel_items. Qed.
Print Assumptions C117_parallel_items.

(* par_iter_mut(): the result does not depend on the division of the work or on the order
   in which the blocks are changed *)
Theorem C117_parallel_changes : forall p t d z ps order (change : list Z -> TensorBlock -> TensorBlock),
  wf_tensor t -> divides d (length (tm_blocks t)) ->
  parallel_iterator p t (seq 0 (length (tm_blocks t))) = Ok z -> parts d z = Ok ps -> Permutation order (concat ps) ->
  use_items change (tm_blocks t) order
  = map (fun item => change (fst item) (snd item)) (combine (rows (tm_keys t)) (tm_blocks t)).
Proof. exact changes_spec. Qed.
Print Assumptions C117_parallel_changes.

Example C117_example : wf_tensor ex_tensor /\ divides ex_division (length (tm_blocks ex_tensor))
  /\ parallel_iterator Debug ex_tensor [0; 1; 2] = Ok ex_iterator
  /\ parts ex_division ex_iterator = Ok [[([1; 0; 4]%Z, 0)]; []; [([1; 1; 4]%Z, 1)]; [([8; 0; 4]%Z, 2)]].
Proof. exact (conj ex_tensor_wf (conj ex_division_divides (ex_parts Debug))). Qed.

Example C117_example_changes : exists order, Permutation order [([1; 0; 4]%Z, 0); ([1; 1; 4]%Z, 1); ([8; 0; 4]%Z, 2)]
  /\ map snd order = [2; 0; 1]
  /\ use_items ex_change (tm_blocks ex_tensor) order = [ex_block_1; mk_block (tb_values ex_block_2) [] []; ex_block_3].
Proof. exact ex_changes. Qed.

(** * C118: the Debug text of labels *)

Theorem C118_lines : forall l, wf_labels l -> labels_names l <> [] ->
  exists text entries, labels_debug l = Ok text
    /\ lines text = ["Labels{"; "    " +++ join ", " (labels_names l)] ++ entries ++ ["}"; ""]
    /\ map words entries = map (map string_of_Z) (rows l).
Proof. exact debug_spec. Qed.
Print Assumptions C118_lines.

Theorem C118_same_text : forall l l' text,
  wf_labels l -> wf_labels l' -> labels_debug l = Ok text -> labels_debug l' = Ok text ->
  labels_names l = labels_names l' /\ rows l = rows l'.
Proof. exact debug_determines. Qed.
Print Assumptions C118_same_text.

(* each value is in the middle of the column of its name, for the entries where no value
   is longer than its name *)
Theorem C118_columns : forall l, wf_labels l -> labels_names l <> [] ->
  exists text entries, labels_debug l = Ok text
    /\ lines text = ["Labels{"; "    " +++ join ", " (labels_names l)] ++ entries ++ ["}"; ""]
    /\ length entries = length (rows l)
    /\ forall i line entry, nth_error entries i = Some line -> nth_error (rows l) i = Some entry -> fitting (labels_names l) entry ->
         forall j, j < length (labels_names l) -> in_column (labels_names l) entry line j.
Proof. exact debug_columns. Qed.
Print Assumptions C118_columns.

(* and the names are at the start of their columns *)
Theorem C118_names : forall names j name, nth_error names j = Some name ->
  substring (column names j) (String.length name) ("    " +++ join ", " names) = name.
Proof. exact names_columns. Qed.
Print Assumptions C118_names.

(* there is no text for labels without names: formatting panics *)
Theorem C118_no_names : forall l, labels_names l = [] -> exists message, labels_debug l = Panic message.
Proof. exact debug_no_names. Qed.
Print Assumptions C118_no_names.

Example C118_example : Forall (fitting (labels_names ex_shown)) (rows ex_shown)
  /\ (exists text, labels_debug ex_shown = Ok text
        /\ lines text = ["Labels{";
                         "    structure, center, l";
                         "        0        12    3  ";
                         "       -15       7     0  ";
                         "}"; ""])
  /\ map (column (labels_names ex_shown)) [0; 1; 2] = [4; 15; 23].
Proof. exact (conj ex_shown_fitting (conj ex_shown_text ex_shown_columns)). Qed.

(* a longer value moves the values after it out of their columns *)
Example C118_example_longer : exists text, labels_debug (ex_labels ["n"; "l"] [[1000; 2]]%Z) = Ok text
  /\ lines text = ["Labels{"; "    n, l"; "    1000  2  "; "}"; ""]
  /\ column ["n"; "l"] 1 = 7 /\ word_ends "    1000  2  " = [8; 11].
Proof. exact ex_shifted. Qed.

Example C118_example_no_names : labels_debug (ex_labels [] []) = Panic "chunk size must be non-zero".
Proof. exact ex_not_shown. Qed.
