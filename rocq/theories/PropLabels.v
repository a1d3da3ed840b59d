(* Properties C01-C08: labels *)
From Coq Require Import Permutation.
From Verif Require Import Base Labels Spec LabelsFacts.
Local Open Scope string_scope.
Local Open Scope list_scope.
Local Open Scope nat_scope.

(* C01: building labels from valid distinct names and distinct rows keeps the
   names and the rows, in order, for every accessor *)
Theorem C01_builder_keeps_entries :
  forall (names : list string) (rs : list (list Z)),
    good_names names -> names <> [] -> good_rows (length names) rs ->
    exists l, labels_build names rs = Ok l
      /\ labels_names l = names
      /\ labels_size l = length names
      /\ labels_count l = Ok (length rs)
      /\ labels_iter l = Ok rs
      /\ (forall p, labels_iter_fixed_size p (length names) l = Ok rs)
      /\ (forall i r, labels_index l i = Ok r <-> nth_error rs i = Some r).
Proof. exact builder_keeps_rows. Qed.
Print Assumptions C01_builder_keeps_entries.

Example C01_example :
  good_names ["structure"; "center"] /\ ["structure"; "center"] <> []
  /\ good_rows 2 [[3; -1]; [0; 7]; [3; 7]]%Z.
Proof.
  split; [apply good_names_by_computation; [reflexivity|prove_nodup]|].
  split; [discriminate|]. split; [repeat constructor|prove_nodup].
Qed.

(* C02: the builder panics exactly on malformed inputs, and accepts everything
   else *)
Theorem C02_builder_rejects_exactly_malformed :
  forall (names : list string) (rs : list (list Z)),
    ((exists m, labels_build names rs = Panic m) <->
       Exists (fun n => ~ identifier n) names
       \/ ~ NoDup names
       \/ Exists (fun r => length r <> length names) rs
       \/ ~ NoDup rs)
    /\ ((exists l, labels_build names rs = Ok l) <->
       ~ (Exists (fun n => ~ identifier n) names
          \/ ~ NoDup names
          \/ Exists (fun r => length r <> length names) rs
          \/ ~ NoDup rs)).
Proof. exact builder_rejects_iff. Qed.
Print Assumptions C02_builder_rejects_exactly_malformed.

Example C02_example_rejected :
  exists m, labels_build ["a"; "b"] [[0; 1]; [2; 3]; [0; 1]]%Z = Panic m.
Proof. eexists. vm_compute. reflexivity. Qed.

Example C02_example_accepted : exists l, labels_build ["a"; "b"] [[0; 1]; [2; 3]; [0; 2]]%Z = Ok l.
Proof. eexists. vm_compute. reflexivity. Qed.

(* C03: position, index and contains agree *)
Theorem C03_position_agrees_with_order :
  forall (l : Labels) (names : list string) (rs : list (list Z)),
    names <> [] -> labels_build names rs = Ok l ->
    (forall r i, labels_position l r = Ok (Some i) <-> labels_index l i = Ok r)
    /\ (forall r, length r = length names -> (labels_position l r = Ok None <-> ~ In r rs))
    /\ (forall r, labels_contains l r = true <-> In r rs)
    /\ (forall i j r, labels_index l i = Ok r -> labels_index l j = Ok r -> i = j).
Proof. exact position_spec. Qed.
Print Assumptions C03_position_agrees_with_order.

Example C03_example :
  exists l, labels_build ["a"; "b"] [[0; 1]; [2; 3]; [0; 2]]%Z = Ok l
    /\ labels_position l [0; 2]%Z = Ok (Some 2) /\ labels_position l [5; 2]%Z = Ok None.
Proof. eexists. vm_compute. repeat split. Qed.

(* C04: valid names are exactly the ASCII identifiers *)
Theorem C04_valid_names_are_identifiers :
  forall s : string, is_valid_label_name s = true <-> identifier s.
Proof. exact is_valid_label_name_spec. Qed.
Print Assumptions C04_valid_names_are_identifiers.

Example C04_example : identifier "_a9" /\ ~ identifier "9a" /\ ~ identifier "" /\ ~ identifier "a b".
Proof.
  rewrite <- !C04_valid_names_are_identifiers. vm_compute. repeat split; discriminate.
Qed.

(* C05: equality of labels, for every order of the hash index *)
Theorem C05_equality_is_names_and_rows :
  forall n1 r1 l1 n2 r2 l2 (index1 index2 : list (list Z * nat)),
    n1 <> [] -> n2 <> [] ->
    labels_build n1 r1 = Ok l1 -> labels_build n2 r2 = Ok l2 ->
    Permutation (l_positions l1) index1 -> Permutation (l_positions l2) index2 ->
    (labels_eqb (mk_labels (l_names l1) (l_values l1) index1)
                (mk_labels (l_names l2) (l_values l2) index2) = true
     <-> n1 = n2 /\ r1 = r2).
Proof. exact labels_eq_any_order. Qed.
Print Assumptions C05_equality_is_names_and_rows.

Example C05_example :
  exists l1 l2 index2,
    labels_build ["a"] [[0]; [1]]%Z = Ok l1 /\ labels_build ["a"] [[0]; [1]]%Z = Ok l2
    /\ Permutation (l_positions l2) index2 /\ index2 <> l_positions l1
    /\ labels_eqb l1 (mk_labels (l_names l2) (l_values l2) index2) = true.
Proof.
  exists (built ["a"] [[0]; [1]]%Z), (built ["a"] [[0]; [1]]%Z), [([1]%Z, 1); ([0]%Z, 0)].
  split; [reflexivity|]. split; [reflexivity|]. split; [apply perm_swap|]. split; [discriminate|reflexivity].
Qed.

(* C06: conversions of integers to label values are exact or refused *)
Theorem C06_conversions_are_exact :
  forall v r : Z,
    ((0 <= v < 2 ^ 32)%Z -> (label_from_u32 v = Ok r <-> r = v /\ (v <= 2 ^ 31 - 2)%Z))
    /\ ((0 <= v < 2 ^ 64)%Z -> (label_from_usize v = Ok r <-> r = v /\ (v <= 2 ^ 31 - 2)%Z))
    /\ ((- 2 ^ 63 <= v < 2 ^ 63)%Z ->
        (label_from_isize v = Ok r <-> r = v /\ (- 2 ^ 31 + 1 <= v <= 2 ^ 31 - 2)%Z)).
Proof. exact conversions. Qed.
Print Assumptions C06_conversions_are_exact.

Theorem C06_conversions_return_or_panic :
  forall v : Z,
    ((0 <= v < 2 ^ 32)%Z -> (exists r, label_from_u32 v = Ok r) \/ (exists m, label_from_u32 v = Panic m))
    /\ ((0 <= v < 2 ^ 64)%Z -> (exists r, label_from_usize v = Ok r) \/ (exists m, label_from_usize v = Panic m))
    /\ ((- 2 ^ 63 <= v < 2 ^ 63)%Z ->
        (exists r, label_from_isize v = Ok r) \/ (exists m, label_from_isize v = Panic m)).
Proof. exact conversions_total. Qed.
Print Assumptions C06_conversions_return_or_panic.

Example C06_example :
  label_from_usize 2147483646 = Ok 2147483646%Z /\ (exists m, label_from_usize 2147483647 = Panic m)
  /\ label_from_isize (-2147483647) = Ok (-2147483647)%Z /\ (exists m, label_from_isize (-2147483648) = Panic m).
Proof. repeat split; try reflexivity; eexists; reflexivity. Qed.

(* C07, as stated, is false: labels with zero names can be built, but count()
   and iter() panic on them *)
Theorem C07_count_and_iterate_refuted :
  exists l, labels_build [] [] = Ok l
    /\ (exists m, labels_count l = Panic m)
    /\ (exists m, labels_iter l = Panic m)
    /\ (exists m, labels_iter_fixed_size Debug 0 l = Panic m).
Proof. eexists. split; [vm_compute; reflexivity|]. repeat split; eexists; vm_compute; reflexivity. Qed.
Print Assumptions C07_count_and_iterate_refuted.

(* C07 for labels with at least one name *)
Theorem C07_count_and_iterate_partial :
  forall (names : list string) (rs : list (list Z)) (l : Labels),
    names <> [] -> labels_build names rs = Ok l ->
    exists n rows, labels_count l = Ok n /\ labels_iter l = Ok rows
      /\ (forall p, labels_iter_fixed_size p (labels_size l) l = Ok rows)
      /\ n * labels_size l = length (l_values l) /\ length rows = n.
Proof. exact count_iterate. Qed.
Print Assumptions C07_count_and_iterate_partial.

Example C07_example : exists l, labels_build ["a"; "b"] [[0; 1]; [2; 3]]%Z = Ok l.
Proof. eexists. reflexivity. Qed.

(* C08, as stated, is false: after a refused duplicate the builder finishes with
   the duplicate row stored *)
Theorem C08_rejected_duplicate_refuted :
  exists b l, builder_new ["a"] = Ok b
    /\ (exists m, snd (builder_add_state (add_catching b [[7]]%Z) [7]%Z) = Panic m)
    /\ builder_finish (add_catching b [[7]; [7]]%Z) = Ok l
    /\ labels_iter l = Ok [[7]; [7]]%Z.
Proof.
  eexists. eexists. split; [vm_compute; reflexivity|].
  split; [eexists; vm_compute; reflexivity|]. split; vm_compute; reflexivity.
Qed.
Print Assumptions C08_rejected_duplicate_refuted.

(* C08 when the only rejected rows are the ones with the wrong size *)
Theorem C08_rejected_row_partial :
  forall (names : list string) (new : list (list Z)),
    good_names names -> names <> [] ->
    NoDup (filter (fun r => length r =? length names) new) ->
    exists b l, builder_new names = Ok b /\ builder_finish (add_catching b new) = Ok l
      /\ labels_names l = names
      /\ labels_iter l = Ok (filter (fun r => length r =? length names) new).
Proof. exact wrong_size_rejection_harmless. Qed.
Print Assumptions C08_rejected_row_partial.

Example C08_example :
  good_names ["a"] /\ NoDup (filter (fun r => length r =? length ["a"]) [[1]; [2; 3]; [4]]%Z).
Proof.
  split; [apply good_names_by_computation; [reflexivity|prove_nodup]|]. simpl. prove_nodup.
Qed.
