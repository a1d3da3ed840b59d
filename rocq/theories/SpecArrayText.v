(* What the text of an array shows *)
From Verif Require Import Base Array Origin.
Local Open Scope string_scope.
Local Open Scope list_scope.
Local Open Scope nat_scope.

(* the name of the origin of an array: the one of the Rust implementations, or the
   registered name; identifiers which are not registered have the first one *)
Definition origin_named (r : registry) (a : eqs_array) (name : string) : Prop :=
  match a_kind a with
  | RustNdarray => name = "rust.ndarray"
  | RustEmptyArray => name = "rust.EmptyArray"
  | ForeignArray id => array_origin a = Ok (ForeignArray id)
      /\ (nth_error r id = Some name \/ nth_error r id = None /\ nth_error r 0 = Some name)
  end.
