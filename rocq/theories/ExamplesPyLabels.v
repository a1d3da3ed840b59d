(* Labels of Python: cases which meet the hypotheses of the theorems, and cases
   where the labels of Python and of the library are different *)
From Verif Require Import Base Labels Array Block Tensor Origin CApi Spec SpecTensor SpecApi PyIo PyLabels SpecPyLabels
  LabelsFacts HandleFacts
  PyLabelsFacts PySelectFacts Examples ExamplesApi.
Local Open Scope string_scope.
Local Open Scope list_scope.
Local Open Scope nat_scope.

Lemma ex_good_names names b : builder_new names = Ok b -> good_names names.
Proof. intros H. apply builder_new_ok in H. apply H. Qed.

(* Labels(names, values) *)
Definition ex_py (names : list string) (values : list (list Z)) : py_labels :=
  mk_py_labels (concat values) 0 (Z.of_nat (length names)) (length values) (length names)
    (combine names (seq 0 (length names))) None.

Definition ex_py_ab : py_labels := ex_py ["a"; "b"] [[0; 1]; [2; 3]; [4; 5]]%Z.

Lemma ex_py_plain : plain_labels ex_py_ab.
Proof.
  apply (plain_new ["a"; "b"] 2 [[0; 1]; [2; 3]; [4; 5]]%Z); [repeat constructor|vm_compute; reflexivity].
Qed.

(* labels[::2], labels[::-1] and labels[["b"]] *)
Definition ex_py_even : py_labels := py_slice ex_py_ab 0 2 2.
Definition ex_py_reversed : py_labels := py_slice ex_py_ab 2 (-1) 3.
Definition ex_py_field : py_labels := mk_py_labels (pl_memory ex_py_ab) 0 2 3 2 [("b", 1)] None.

Lemma ex_py_even_python : python_labels ex_py_even.
Proof. apply sliced; [apply plain_python, ex_py_plain|discriminate|]. intros k Hk. cbn [ex_py_ab ex_py pl_count length]. lia. Qed.

Lemma ex_py_reversed_python : python_labels ex_py_reversed.
Proof. apply sliced; [apply plain_python, ex_py_plain|discriminate|]. intros k Hk. cbn [ex_py_ab ex_py pl_count length]. lia. Qed.

Lemma ex_py_field_python : python_labels ex_py_field.
Proof. apply (selected_fields ex_py_ab ["b"]); [apply plain_python, ex_py_plain|vm_compute; reflexivity]. Qed.

Lemma ex_even_entries : exists l labels,
  python_labels l /\ good_names (py_names l) /\ NoDup (py_rows l)
  /\ labels_from_c (as_eqs_labels l) = Ok labels /\ labels_names labels = py_names l /\ rows labels <> py_rows l.
Proof.
  exists ex_py_even, (ex_labels ["a"; "b"] [[0; 1]; [2; 3]]%Z). split; [exact ex_py_even_python|].
  split; [eapply ex_good_names; vm_compute; reflexivity|].
  split; [vm_compute; repeat constructor; cbn [In]; intuition discriminate|].
  split; [vm_compute; reflexivity|]. split; [vm_compute; reflexivity|]. vm_compute. discriminate.
Qed.

Lemma ex_field_entries : exists l labels,
  python_labels l /\ (exists whole names, plain_labels whole /\ py_select whole names = Ok l) /\ good_names (py_names l) /\ NoDup (py_rows l)
  /\ labels_from_c (as_eqs_labels l) = Ok labels /\ labels_names labels = py_names l /\ rows labels <> py_rows l.
Proof.
  exists ex_py_field, (ex_labels ["b"] [[0]; [1]; [2]]%Z). split; [exact ex_py_field_python|].
  split; [exists ex_py_ab, ["b"]; split; [exact ex_py_plain|vm_compute; reflexivity]|].
  split; [eapply ex_good_names; vm_compute; reflexivity|].
  split; [vm_compute; repeat constructor; cbn [In]; intuition discriminate|].
  split; [vm_compute; reflexivity|]. split; [vm_compute; reflexivity|]. vm_compute. discriminate.
Qed.

Lemma ex_reversed_entries : exists l reason,
  python_labels l /\ good_names (py_names l) /\ NoDup (py_rows l) /\ labels_from_c (as_eqs_labels l) = Undefined reason.
Proof.
  exists ex_py_reversed. eexists. split; [exact ex_py_reversed_python|].
  split; [eapply ex_good_names; vm_compute; reflexivity|].
  split; [vm_compute; repeat constructor; cbn [In]; intuition discriminate|]. vm_compute. reflexivity.
Qed.

(** * Integers *)

Lemma ex_wrapped_values : exists names columns values l,
  Forall (fun row => length row = columns) values /\ labels_new names columns values = Ok l /\ py_rows l <> values.
Proof.
  exists ["a"], 1, [[4294967297]; [2]]%Z. eexists. split; [repeat constructor|]. split; [vm_compute; reflexivity|]. vm_compute. discriminate.
Qed.

(* the keys of the tensor map of the other examples *)
Definition ex_py_keys : outcome py_labels := let? c := labels_to_c ex_keys in from_eqs_labels c.

Lemma ex_keys_axis : axis_labels ex_keys.
Proof. split; [apply ex_labels_wf|vm_compute; discriminate]. Qed.

Lemma ex_wrapped_position : exists labels c l label i,
  axis_labels labels /\ labels_to_c labels = Ok c /\ from_eqs_labels c = Ok l /\ ~ In label (py_rows l)
  /\ py_position l label = Ok (Some i).
Proof.
  exists ex_keys. do 2 eexists. exists [4294967297; 0; 4]%Z, 0. split; [exact ex_keys_axis|]. split; [vm_compute; reflexivity|].
  split; [vm_compute; reflexivity|]. split; [vm_compute; intuition discriminate|vm_compute; reflexivity].
Qed.

Lemma ex_empty_position : exists labels c l label,
  axis_labels labels /\ labels_to_c labels = Ok c /\ from_eqs_labels c = Ok l /\ length label = length (py_names l)
  /\ raises (py_position l label).
Proof.
  exists (ex_labels ["a"; "b"] []). do 2 eexists. exists [1; 2]%Z.
  split; [split; [apply ex_labels_wf|vm_compute; discriminate]|]. split; [vm_compute; reflexivity|].
  split; [vm_compute; reflexivity|]. split; [reflexivity|]. eexists. vm_compute. reflexivity.
Qed.

(** * Selections *)

(* Labels(["center", "spin"], [[0, 1]])[["spin"]] *)
Definition ex_py_spin : py_labels := mk_py_labels [0; 1]%Z 0 2 1 2 [("spin", 1)] None.

Lemma ex_py_spin_python : python_labels ex_py_spin.
Proof.
  apply (selected_fields (ex_py ["center"; "spin"] [[0; 1]]%Z) ["spin"]); [|vm_compute; reflexivity].
  apply (made_new ["center"; "spin"] 2 [[0; 1]]%Z); [repeat constructor|vm_compute; reflexivity].
Qed.

Lemma ex_agrees_0 : ~ key_agrees ex_tensor [("spin", 1%Z)] 0.
Proof.
  intros (key & Hk & H). vm_compute in Hk. injection Hk as <-. specialize (H "spin" 1%Z (or_introl eq_refl)). vm_compute in H. intuition discriminate.
Qed.

Lemma ex_spin_blocks : py_blocks Debug 0 (ex_state 17) 4 (ByLabels ex_py_spin) = Ok [BlockIn 4 0; BlockIn 4 2].
Proof. vm_compute. reflexivity. Qed.

Lemma ex_spin_name name : In name (py_names ex_py_spin) -> In name (labels_names (tm_keys (ot_tensor ex_owned))).
Proof. intros [<-|[]]. vm_compute. right. left. reflexivity. Qed.

Lemma ex_spin_points : points_to_block (ex_state 17) (ot_tensor ex_owned) 0 (BlockIn 4 0).
Proof.
  exists (mk_owned_block ex_block_1 [0; 1]). split; [|vm_compute; reflexivity]. right. exists 4, 0, ex_owned. split; [reflexivity|].
  split; [apply ex_tensor_at; cbn; auto|]. split; vm_compute; reflexivity.
Qed.

Lemma ex_state_eq i : ex_state i = state_at Debug (world_start []) ex_calls i.
Proof. reflexivity. Qed.

Lemma ex_wrong_selection : exists p files calls i thread handle t l row index pointer,
  never_crashed p (world_start files) calls /\ ordinary p (world_start files) calls
  /\ tensor_at (state_at p (world_start files) calls i) handle t
  /\ python_labels l /\ py_rows l = [row]
  /\ (forall name, In name (py_names l) -> In name (labels_names (tm_keys (ot_tensor t))))
  /\ py_blocks p thread (state_at p (world_start files) calls i) handle (ByLabels l) = Ok (pointer :: index)
  /\ points_to_block (state_at p (world_start files) calls i) (ot_tensor t) 0 pointer
  /\ ~ key_agrees (ot_tensor t) (combine (py_names l) row) 0.
Proof.
  exists Debug, [], ex_calls, 17, 0, 4, ex_owned, ex_py_spin, [1]%Z, [BlockIn 4 2], (BlockIn 4 0).
  rewrite <- ex_state_eq.
  split; [exact ex_never_crashed|]. split; [exact ex_ordinary|]. split; [apply ex_tensor_at; cbn; auto|].
  split; [exact ex_py_spin_python|]. split; [vm_compute; reflexivity|]. split; [exact ex_spin_name|].
  split; [exact ex_spin_blocks|]. split; [exact ex_spin_points|]. exact ex_agrees_0.
Qed.

(** * Names of origins *)

(* a name with 1024 characters *)
Definition ex_long_name : string := string_of_list_ascii (repeat "a"%char 1024).
Definition ex_origin_calls : list (nat * c_call) :=
  [ (0, RegisterDataOrigin (Some "julia") out); (0, RegisterDataOrigin (Some ex_long_name) out) ].

Lemma ex_registered i name id : In (i, name, id) [(0, "julia", 1); (1, ex_long_name, 2)] ->
  registered Debug (world_start []) ex_origin_calls i name id.
Proof.
  intros [E|[E|[]]]; injection E as <- <- <-.
  - exists 0, "julia". split; [vm_compute; repeat split|reflexivity].
  - exists 0, ex_long_name. split; [|vm_compute; reflexivity]. split; vm_compute; reflexivity.
Qed.

Lemma ex_long_origin : exists p calls i j thread name id,
  registered p (world_start []) calls i name id /\ i < j
  /\ (forall tries, 0 < tries -> exists e, data_origin_name tries p thread (state_at p (world_start []) calls j) id = Some (Err e)).
Proof.
  exists Debug, ex_origin_calls, 1, 2, 0, ex_long_name, 2. split; [apply ex_registered; right; left; reflexivity|]. split; [lia|].
  intros tries Ht. apply (origin_name_exact Debug [] ex_origin_calls 1 2 0 tries ex_long_name 2); [|lia|exact Ht|vm_compute; reflexivity].
  apply ex_registered. right. left. reflexivity.
Qed.

Definition ex_callback (text : string) (buffer : list ascii) : world * c_value * c_result :=
  if String.length text <? length buffer then
    (world_start [], VText (list_ascii_of_string text ++ nul :: skipn (S (String.length text)) buffer), Returned 0%Z)
  else (world_start [], VText buffer, Returned 254%Z).

Lemma ex_callback_writes text : writes_text (ex_callback text) text.
Proof.
  intros buffer. unfold ex_callback. split; intros H.
  - apply Nat.ltb_lt in H. rewrite H. eexists _, _. reflexivity.
  - apply Nat.ltb_ge in H. rewrite H. eexists _, _. reflexivity.
Qed.
