(* Moving components to the properties one after the other *)
From Verif Require Import Base Labels Array Block Tensor Spec SpecTensor.
Local Open Scope string_scope.
Local Open Scope list_scope.
Local Open Scope nat_scope.

(* [names] are moved in this order, and all calls succeed *)
Inductive moved_in_turn : TensorMap -> list string -> TensorMap -> Prop :=
| moved_none t : moved_in_turn t [] t
| moved_next t name t1 names t' :
    components_to_properties t [name] = (t1, Ok tt) -> moved_in_turn t1 names t' -> moved_in_turn t (name :: names) t'.

(* the last components of a block are [names] *)
Definition last_components (names : list string) (b : TensorBlock) : Prop :=
  exists front, map labels_names (bb_components (tb_values b)) = front ++ map (fun n => [n]) names.

(* one row of each, the last ones vary fastest *)
Fixpoint all_products (l : list (list (list Z))) : list (list Z) :=
  match l with
  | [] => [[]]
  | first :: others => flat_map (fun r => map (app r) (all_products others)) first
  end.

(* the last components of [b], called [names], are in the properties of [b'], and
   the numbers are the same, in the same order *)
Record flattened (names : list string) (b b' : BasicBlock) : Prop := {
  fl_samples : bb_samples b' = bb_samples b;
  fl_components : exists moved, bb_components b = bb_components b' ++ moved
    /\ map labels_names moved = map (fun n => [n]) names
    /\ labels_names (bb_properties b') = names ++ labels_names (bb_properties b)
    /\ rows (bb_properties b') = all_products (map rows moved ++ [rows (bb_properties b)]);
  fl_kind : a_kind (bb_data b') = a_kind (bb_data b);
  fl_shape : shape_of (bb_data b') = map (fun l => length (rows l)) (bb_samples b' :: bb_components b' ++ [bb_properties b']);
  fl_data : a_kind (bb_data b) <> RustEmptyArray -> nd_data (a_nd (bb_data b')) = nd_data (a_nd (bb_data b));
  fl_entries : a_kind (bb_data b) <> RustEmptyArray ->
    forall s cs xs pr v, length xs = length names -> Forall (fun x => length x = 1) xs ->
      (entry b' s cs (concat xs ++ pr) v <-> entry b s (cs ++ xs) pr v);
}.

(* the values and all gradients *)
Definition flat_block (names : list string) (b b' : TensorBlock) : Prop :=
  flattened names (tb_values b) (tb_values b')
  /\ Forall2 (fun g g' => fst g' = fst g /\ flattened names (snd g) (snd g')) (tb_gradients b) (tb_gradients b').
