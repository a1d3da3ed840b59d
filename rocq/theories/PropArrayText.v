(* Property C144: the text of an array *)
From Coq Require Import NArith.
From Verif Require Import Base Array Origin ArrayText SpecArrayText ArrayTextFacts ExamplesArrayText.
Local Open Scope string_scope.
Local Open Scope list_scope.
Local Open Scope nat_scope.

(* C144: formatting an array gives a text, also when its callbacks fail. Missing
   from the property: arrays without the callbacks for the origin or the shape,
   for which it is false, see [C144_missing_callback_refuted] *)
Theorem C144_no_panic_partial :
  forall r p a, r <> [] ->
    (p = 0%N \/ forall op, op = OpOrigin \/ op = OpShape -> forall o, a_kind a = ForeignArray o -> a_callbacks a op <> Missing) ->
    exists text, snd (array_text r p a) = Ok text.
Proof. exact array_text_total. Qed.
Print Assumptions C144_no_panic_partial.

(* C144: the arrays which can not be formatted are exactly the ones without one of
   these callbacks *)
Theorem C144_panics_exactly :
  forall r p a, r <> [] ->
    ((exists m, snd (array_text r p a) = Panic m)
     <-> p <> 0%N /\ exists o op, a_kind a = ForeignArray o /\ (op = OpOrigin \/ op = OpShape) /\ a_callbacks a op = Missing).
Proof. exact array_text_panics. Qed.
Print Assumptions C144_panics_exactly.

(* C144: arrays with the same text have the same address, shape, and name of the
   origin, whatever characters the name contains; a shape or origin is shown if
   and only if the array gives it *)
Theorem C144_readable :
  forall r1 r2 p1 p2 a1 a2 text,
    snd (array_text r1 p1 a1) = Ok text -> snd (array_text r2 p2 a2) = Ok text ->
    p1 = p2 /\ (p1 <> 0%N -> (forall shape, array_shape a1 = Ok shape <-> array_shape a2 = Ok shape)
                             /\ (forall name, origin_named r1 a1 name <-> origin_named r2 a2 name)).
Proof. exact array_text_read. Qed.
Print Assumptions C144_readable.

(* C144: the text of the arrays without data, for all shapes and registered
   origins *)
Theorem C144_empty_array :
  forall r p shape, p <> 0%N ->
    snd (array_text r p (rust_empty_array shape))
    = Ok ("eqs_array_t { ptr: " +++ pointer_text p +++ ", origin: Some(""rust.EmptyArray""), shape: Some([" +++ join ", " (map string_of_nat shape) +++ "]) }").
Proof. exact array_text_rust. Qed.
Print Assumptions C144_empty_array.

(* C144: nothing is called for a null pointer *)
Theorem C144_null :
  forall r a, array_text r 0 a = (r, Ok "eqs_array_t { ptr: 0x0, origin: None, shape: None }").
Proof. exact array_text_null. Qed.
Print Assumptions C144_null.

(* C144: the names of all identifiers are kept, also when the origin of a Rust
   array is first registered by the formatting *)
Theorem C144_registry :
  forall r p a id name, nth_error r id = Some name -> nth_error (fst (array_text r p a)) id = Some name.
Proof. exact array_text_keeps. Qed.
Print Assumptions C144_registry.

Example C144_example :
  at_registry <> []
  /\ (forall op, op = OpOrigin \/ op = OpShape -> forall o, a_kind (at_foreign 1 Works (Fails 3)) = ForeignArray o -> a_callbacks (at_foreign 1 Works (Fails 3)) op <> Missing)
  /\ snd (array_text at_registry 32572 (at_foreign 1 Works Works)) = Ok "eqs_array_t { ptr: 0x7f3c, origin: Some(""my \""arrays\""""), shape: Some([3, 10, 0]) }"
  /\ snd (array_text at_registry 32572 (at_foreign 2 Works (Fails 3))) = Ok "eqs_array_t { ptr: 0x7f3c, origin: Some(""C:\\other""), shape: None }"
  /\ snd (array_text at_registry 32572 (at_foreign 9 Works Works)) = Ok "eqs_array_t { ptr: 0x7f3c, origin: Some(""unregistered origin""), shape: Some([3, 10, 0]) }"
  /\ snd (array_text at_registry 32572 (at_foreign 1 (Fails 3) Works)) = Ok "eqs_array_t { ptr: 0x7f3c, origin: None, shape: Some([3, 10, 0]) }"
  /\ array_text at_registry 32572 (rust_empty_array [3; 4; 5])
     = (at_registry ++ ["rust.EmptyArray"], Ok "eqs_array_t { ptr: 0x7f3c, origin: Some(""rust.EmptyArray""), shape: Some([3, 4, 5]) }")
  /\ snd (array_text at_registry 32572 (at_foreign 1 Works Missing)) = Panic "eqs_array_t.shape function is NULL"
  /\ origin_named at_registry (at_foreign 1 Works Works) "my ""arrays""".
Proof.
  split; [discriminate|]. split; [intros op [->| ->] o _; discriminate|].
  repeat (split; [vm_compute; reflexivity|]). left. reflexivity.
Qed.

(* C144: the callback for the origin is not set *)
Theorem C144_missing_callback_refuted :
  exists r p a m, r = registry_start /\ p <> 0%N /\ (forall op, op <> OpOrigin -> a_callbacks a op = Works) /\ snd (array_text r p a) = Panic m.
Proof. exact at_missing. Qed.
Print Assumptions C144_missing_callback_refuted.
