(* Where the elements are found after moving any component to the properties *)
From Verif Require Import Base Labels Block Tensor Spec SpecTensor.
Local Open Scope string_scope.
Local Open Scope list_scope.
Local Open Scope nat_scope.

(* all the combinations of one entry for each of the components; the last component
   changes the fastest *)
Fixpoint combinations (components : list Labels) : list (list (list Z)) :=
  match components with
  | [] => [[]]
  | c :: components => flat_map (fun e => map (cons e) (combinations components)) (rows c)
  end.

(* [after] are the components after the moved one. The elements with the entries
   [original] of these components are found under the entries [found] in the result: all
   the combinations are enumerated with the last component first (changing the slowest),
   and found under the combination with the same position when it is last. *)
Definition found_as (after : list Labels) (original found : list (list Z)) : Prop :=
  match rev after with
  | [] => original = [] /\ found = []
  | last :: others =>
      exists position middle last_entry,
        original = middle ++ [last_entry]
        /\ nth_error (combinations (last :: rev others)) position = Some (last_entry :: middle)
        /\ nth_error (combinations after) position = Some found
  end.

(* the components of the block after the one at position [i] *)
Definition components_after (b : BasicBlock) (i : nat) : list Labels := skipn (S i) (bb_components b).

(* there is nothing to exchange: the last component has one entry, or all the others *)
Definition nothing_exchanged (after : list Labels) : Prop :=
  match rev after with
  | [] => True
  | last :: others => length (rows last) <= 1 \/ length (combinations (rev others)) <= 1
  end.
