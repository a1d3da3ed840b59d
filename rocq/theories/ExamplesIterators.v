(* Concrete iterations and Debug texts *)
From Coq Require Import Permutation.
From Verif Require Import Base BaseFacts Labels Array Block Tensor Spec SpecTensor LabelsFacts TensorFacts
  Examples SpecPyPrint Iterators SpecIterators IteratorsFacts.
Local Open Scope string_scope.
Local Open Scope list_scope.
Local Open Scope nat_scope.

(* the blocks of [ex_tensor] by their position *)
Definition ex_iterator : zipped nat := mk_zipped (mk_chunks [1; 0; 4; 1; 1; 4; 8; 0; 4]%Z 3) [0; 1; 2].

Lemma ex_iterator_ok p : tensor_iterator p ex_tensor [0; 1; 2] = Ok ex_iterator.
Proof. destruct p; reflexivity. Qed.

Lemma ex_positions : length [0; 1; 2] = length (tm_blocks ex_tensor).
Proof. vm_compute. reflexivity. Qed.

Lemma ex_keys_names : labels_names ex_keys <> [].
Proof. discriminate. Qed.

Lemma ex_iterator_items :
  snd (nexts tensor_next 5 ex_iterator)
  = [Some ([1; 0; 4]%Z, 0); Some ([1; 1; 4]%Z, 1); Some ([8; 0; 4]%Z, 2); None; None].
Proof. reflexivity. Qed.

Lemma ex_lengths p : exists c, labels_iterator p ex_keys = Ok c
  /\ map (fun times => iter_len (fst (nexts iter_next times c))) [0; 1; 2; 3; 4] = [3; 2; 1; 0; 0].
Proof. destruct p; eexists; split; reflexivity. Qed.

Lemma ex_lengths_fixed p : exists values, fixed_size_iterator p 3 ex_keys = Ok values
  /\ fixed_size_nexts 3 2 values = Ok ([8; 0; 4]%Z, [Some [1; 0; 4]%Z; Some [1; 1; 4]%Z]) /\ fixed_size_len 3 [8; 0; 4]%Z = Ok 1.
Proof. destruct p; eexists; split; try reflexivity; split; reflexivity. Qed.

Lemma ex_tensor_lengths :
  map (fun times => tensor_len (fst (nexts tensor_next times ex_iterator))) [0; 2; 3; 4]
  = [Panic "assertion failed: `(left == right)`"; Panic "assertion failed: `(left == right)`"; Ok 0; Ok 0].
Proof. reflexivity. Qed.

Lemma ex_len_refuted : exists t (blocks : list TensorBlock) z message,
  wf_tensor t /\ blocks = tm_blocks t /\ length blocks = 3
  /\ tensor_iterator Release t blocks = Ok z /\ tensor_len z = Panic message.
Proof.
  exists ex_tensor, (tm_blocks ex_tensor). do 2 eexists. split; [exact ex_tensor_wf|]. split; [reflexivity|]. split; [reflexivity|].
  split; reflexivity.
Qed.

(* labels without names *)
Lemma ex_no_names_refuted p : exists l, wf_labels l /\ labels_names l = [] /\ length (rows l) = 0
  /\ (exists message, labels_iterator p l = Panic message) /\ (exists message, fixed_size_iterator p 0 l = Panic message \/ fixed_size_len 0 [] = Panic message).
Proof.
  exists (ex_labels [] []). split; [apply ex_labels_wf|]. split; [reflexivity|]. split; [reflexivity|].
  destruct p; split; eexists; try reflexivity; (left; reflexivity) || (right; reflexivity).
Qed.

(* a division with an empty part *)
Definition ex_division : division := Divided 1 (Divided 1 Together Together) (Divided 1 Together Together).

Lemma ex_division_divides : divides ex_division (length (tm_blocks ex_tensor)).
Proof. change (divides ex_division 3). cbn. lia. Qed.

Lemma ex_parts p : parallel_iterator p ex_tensor [0; 1; 2] = Ok ex_iterator
  /\ parts ex_division ex_iterator = Ok [[([1; 0; 4]%Z, 0)]; []; [([1; 1; 4]%Z, 1)]; [([8; 0; 4]%Z, 2)]].
Proof. destruct p; split; reflexivity. Qed.

(* a change which depends on the key: gradients are removed *)
Definition ex_change (key : list Z) (b : TensorBlock) : TensorBlock :=
  if list_eq_dec Z.eq_dec key [1; 1; 4]%Z then mk_block (tb_values b) [] [] else b.

Lemma ex_changes : exists order, Permutation order [([1; 0; 4]%Z, 0); ([1; 1; 4]%Z, 1); ([8; 0; 4]%Z, 2)]
  /\ map snd order = [2; 0; 1]
  /\ use_items ex_change (tm_blocks ex_tensor) order = [ex_block_1; mk_block (tb_values ex_block_2) [] []; ex_block_3].
Proof.
  exists [([8; 0; 4]%Z, 2); ([1; 0; 4]%Z, 0); ([1; 1; 4]%Z, 1)]. split; [|split; reflexivity].
  apply (Permutation_cons_append [([1; 0; 4]%Z, 0); ([1; 1; 4]%Z, 1)]).
Qed.

(** * Debug texts *)

Definition ex_shown : Labels := ex_labels ["structure"; "center"; "l"] [[0; 12; 3]; [-15; 7; 0]]%Z.

Lemma ex_shown_text : exists text, labels_debug ex_shown = Ok text
  /\ lines text = ["Labels{";
                   "    structure, center, l";
                   "        0        12    3  ";
                   "       -15       7     0  ";
                   "}"; ""].
Proof. eexists. split; reflexivity. Qed.

Lemma ex_shown_fitting : Forall (fitting (labels_names ex_shown)) (rows ex_shown).
Proof. repeat constructor; cbn; lia. Qed.

Lemma ex_shown_columns : map (column (labels_names ex_shown)) [0; 1; 2] = [4; 15; 23].
Proof. reflexivity. Qed.

(* a value which is longer than its name *)
Lemma ex_shifted : exists text, labels_debug (ex_labels ["n"; "l"] [[1000; 2]]%Z) = Ok text
  /\ lines text = ["Labels{"; "    n, l"; "    1000  2  "; "}"; ""]
  /\ column ["n"; "l"] 1 = 7 /\ word_ends "    1000  2  " = [8; 11].
Proof. eexists. repeat split; reflexivity. Qed.

Lemma ex_not_shown : labels_debug (ex_labels [] []) = Panic "chunk size must be non-zero".
Proof. reflexivity. Qed.
