(* Specification vocabulary: the registry of origins when a program starts to use
   equistore/data.py, and the identifier given by an array *)
From Verif Require Import Base Origin PyOrigins.
Local Open Scope string_scope.
Local Open Scope list_scope.
Local Open Scope nat_scope.

(* no name is there twice, and 0 is not the identifier of an origin (C32) *)
Definition registry_ok (r : registry) : Prop := NoDup r /\ nth_error r 0 = Some "unregistered origin".

(* 0 if the function of the array does not give an identifier *)
Definition given_id (value : option nat) : nat := match value with Some id => id | None => 0 end.

(* the number of steps of a thread *)
Definition own_steps (i : nat) (schedule : list (nat * move)) : nat := length (filter (fun im => fst im =? i) schedule).

(* the name of the origin of the arrays of each kind *)
Definition kind_origin (kind : py_kind) : string :=
  match kind with NumpyKind => "equistore.data.numpy" | TorchKind => "equistore.data.torch" | OtherKind => "" end.
