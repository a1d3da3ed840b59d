(* Declarations: C89 and C90 *)
From Verif Require Import Base Declarations SpecDeclarations DeclarationsFacts ExamplesDeclarations.
Local Open Scope string_scope.

(* C89: for all headers, if the module made from it can be imported, functions and
   structs are the ones of the header, on all platforms *)
Theorem C89_generated_declarations a header m d d' :
  simple_header header ->
  generate header = Some m ->
  c_declared a header = Some d ->
  py_declared a m = Some d' ->
  d' = d.
Proof. exact (declarations_right a header m d d'). Qed.
Print Assumptions C89_generated_declarations.

(* the header of equistore, and equistore/_c_api.py *)
Example C89_example : simple_header equistore_h /\ generate equistore_h = Some c_api_py.
Proof. exact (conj header_simple generated). Qed.

Theorem C89_header_names : simple_header equistore_h.
Proof. exact header_simple. Qed.
Print Assumptions C89_header_names.

Theorem C89_current_file : generate equistore_h = Some c_api_py.
Proof. exact generated. Qed.
Print Assumptions C89_current_file.

(* the conditions on the header are used *)
Theorem C89_other_headers_refuted :
  wrong_for linux pointer_typedef /\ wrong_for linux words_typedef /\ wrong_for linux long_status.
Proof. exact wrong_headers. Qed.
Print Assumptions C89_other_headers_refuted.

(* C90: the same structs and functions in Rust, C and Python, on all platforms *)
Theorem C90_same_declarations a :
  exists d, c_declared a equistore_h = Some d /\ rust_declared a c_api_rs = Some d /\ py_declared a c_api_py = Some d.
Proof. exact (same_declarations a). Qed.
Print Assumptions C90_same_declarations.

(* 23 functions and 5 structs; one of the functions *)
Example C90_example : exists d, c_declared linux equistore_h = Some d
  /\ length (d_functions d) = 23 /\ length (d_structs d) = 5
  /\ find_name "eqs_tensormap_keys_to_samples" (d_functions d) = Some ([RPointer (RStruct "eqs_tensormap_t"); RStruct "eqs_labels_t"; RBool], RInt true 4).
Proof. exact some_declarations. Qed.
