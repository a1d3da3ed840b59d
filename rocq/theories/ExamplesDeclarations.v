(* Concrete headers *)
From Verif Require Import Base Declarations SpecDeclarations.
Local Open Scope string_scope.
Local Open Scope list_scope.
Local Open Scope nat_scope.

Lemma generated : generate equistore_h = Some c_api_py.
Proof. vm_compute. reflexivity. Qed.

Lemma same_in_rust a : c_declared a equistore_h = rust_declared a c_api_rs /\ c_declared a equistore_h <> None.
Proof. split; [vm_compute; reflexivity|vm_compute; discriminate]. Qed.
Lemma same_in_py a : c_declared a equistore_h = py_declared a c_api_py.
Proof. vm_compute. reflexivity. Qed.

Lemma header_simple : simple_header equistore_h.
Proof.
  split; [repeat constructor|split; [|split]].
  - set (l := map decl_name equistore_h). vm_compute in l.
    repeat (constructor; [cbn [In]; intros H; repeat (destruct H as [H|H]; [discriminate H|]); exact H|]). constructor.
  - intros name t H. unfold equistore_h in H. cbn [In] in H.
    repeat (destruct H as [H|H]; [try discriminate H; inversion H; eexists; reflexivity|]). destruct H.
  - intros d H E. unfold equistore_h in H. cbn [In] in H.
    repeat (destruct H as [H|H]; [subst d; first [reflexivity|discriminate E]|]). destruct H.
Qed.

(* lengths of words on Linux *)
Definition linux : abi := mk_abi 8 8.

(* typedef int32_t* eqs_counts_t; void eqs_count(eqs_counts_t counts); *)
Definition pointer_typedef : list c_decl :=
  [CTypedef "eqs_counts_t" (CPointer (CNames ["int32_t"])); CDeclare "eqs_count" (CNames ["void"]) [CNames ["eqs_counts_t"]]].
(* typedef long double eqs_value_t; void eqs_set(eqs_value_t value); *)
Definition words_typedef : list c_decl :=
  [CTypedef "eqs_value_t" (CNames ["long"; "double"]); CDeclare "eqs_set" (CNames ["void"]) [CNames ["eqs_value_t"]]].
(* typedef int64_t eqs_status_t; eqs_status_t eqs_do(void); *)
Definition long_status : list c_decl :=
  [CTypedef "eqs_status_t" (CNames ["int64_t"]); CDeclare "eqs_do" (CNames ["eqs_status_t"]) [CNames ["void"]]].

(* everything is accepted: the header, the generator, and the import *)
Definition wrong_for (a : abi) (header : list c_decl) : Prop :=
  exists m d d', generate header = Some m /\ c_declared a header = Some d /\ py_declared a m = Some d' /\ d' <> d.

Lemma wrong_headers : wrong_for linux pointer_typedef /\ wrong_for linux words_typedef /\ wrong_for linux long_status.
Proof. repeat split; eexists _, _, _; (split; [reflexivity|split; [reflexivity|split; [reflexivity|discriminate]]]). Qed.

Lemma same_declarations a :
  exists d, c_declared a equistore_h = Some d /\ rust_declared a c_api_rs = Some d /\ py_declared a c_api_py = Some d.
Proof.
  destruct (same_in_rust a) as [E H]. destruct (c_declared a equistore_h) as [d|] eqn:Ed; [|congruence]. exists d.
  rewrite <- (same_in_py a), Ed. auto.
Qed.

Lemma some_declarations : exists d, c_declared linux equistore_h = Some d
  /\ length (d_functions d) = 23 /\ length (d_structs d) = 5
  /\ find_name "eqs_tensormap_keys_to_samples" (d_functions d) = Some ([RPointer (RStruct "eqs_tensormap_t"); RStruct "eqs_labels_t"; RBool], RInt true 4).
Proof. eexists. split; [vm_compute; reflexivity|]. repeat split. Qed.
