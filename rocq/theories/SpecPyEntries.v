(* What is said about entries of labels in Python, independently of how they are
   made *)
From Verif Require Import Base Labels Spec Block Tensor SpecTensor CApi SpecApi PyLabels SpecPyLabels PyEntries.
Local Open Scope string_scope.
Local Open Scope list_scope.
Local Open Scope nat_scope.

(* names which can be the ones of fields of named tuples *)
Definition field_name (name : string) : Prop :=
  identifier name /\ ~ In name python_keywords /\ forall rest, name <> String "_" rest.

(* labels with all the fields of their elements, in order *)
Definition all_fields (l : py_labels) : Prop := map snd (pl_fields l) = seq 0 (pl_item l).

(* labels of Python with the names and entries of labels of the library *)
Definition same_entries (l : py_labels) (labels : Labels) : Prop :=
  py_names l = labels_names labels /\ py_rows l = rows labels.

(* the variables which should be moved, and the entries for these *)
Definition asks_for (argument : names_argument) (names : list string) (values : list (list Z)) : Prop :=
  match argument with
  | OneName name => names = [name] /\ values = []
  | ManyNames list => names = list /\ values = []
  | NamesOfLabels l => plain_labels l /\ names = py_names l /\ values = py_rows l
  end.

(* a tensor map is now [t], with new arrays *)
Definition now_holds (before after : world) (handle : nat) (old : owned_tensor) (t : TensorMap) : Prop :=
  exists arrays, tensor_at after handle (mk_owned_tensor t arrays)
    /\ unused_arrays before (concat arrays) /\ forall a, In a (concat (ot_arrays old)) -> In a (w_destroyed after).
