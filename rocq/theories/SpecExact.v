(* What is needed for the exact forms of C26 and C71 *)
From Verif Require Import Base Labels Array Block Tensor Spec SpecTensor.
Local Open Scope string_scope.
Local Open Scope list_scope.
Local Open Scope nat_scope.

(* the variables which move, in the order of the keys *)
Definition moved_names (variables names : list string) : list string := filter (is_moved variables) names.

(* the key has the same value for the variables at the same position in the request and
   among the moved variables in the order of the keys *)
Definition same_values (variables names : list string) (key : list Z) : Prop :=
  forall i requested ordered u v,
    nth_error variables i = Some requested -> nth_error (moved_names variables names) i = Some ordered ->
    In (requested, u) (named names key) -> In (ordered, v) (named names key) -> u = v.

(* the moved variables have the values they have in the key *)
Definition right_values (variables : list string) (read : list (string * Z)) (names : list string) (key : list Z) : Prop :=
  forall name v, In name variables -> In (name, v) read -> In (name, v) (named names key).

(* the number of elements along these components *)
Definition entries_of (components : list Labels) : nat := prod (map (fun c => length (rows c)) components).

(* another component is the last one; the moved component or the properties have a single
   entry; the last component has as many entries as some of the first components which
   follow the moved one, and at least two of the moved component, of those between, and of
   the last one have several entries *)
Definition exchanged_in_memory (b : BasicBlock) (name : string) : Prop :=
  exists pre moved between last,
    bb_components b = pre ++ moved :: between ++ [last] /\ labels_names moved = [name]
    /\ (length (rows moved) = 1 \/ length (rows (bb_properties b)) = 1)
    /\ (exists first others, between ++ [last] = first ++ others /\ entries_of first = entries_of [last])
    /\ ((2 <= entries_of [moved] /\ 2 <= entries_of between) \/ (2 <= entries_of [moved] /\ 2 <= entries_of [last])
        \/ (2 <= entries_of between /\ 2 <= entries_of [last]))
    /\ rows (bb_samples b) <> [] /\ Forall (fun c => rows c <> []) (bb_components b) /\ rows (bb_properties b) <> [].
