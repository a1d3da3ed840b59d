(* Specification vocabulary, part 2: arrays, blocks and tensor maps.

   Only the data types of the model are used, not its functions. *)
From Coq Require Import Permutation.
From Verif Require Import Base Labels Array Block Tensor Spec.
Local Open Scope string_scope.
Local Open Scope list_scope.
Local Open Scope nat_scope.

(** * Arrays *)

Definition shape_of (a : eqs_array) : list nat := nd_shape (a_nd a).

(* number of elements of an array with the given shape *)
Definition volume (shape : list nat) : nat := fold_right Nat.mul 1 shape.

(* an array stores one element per multi-index; the EmptyArray of the Rust API
   stores nothing. An ndarray has one stride per axis. *)
Definition wf_array (a : eqs_array) : Prop :=
  (a_kind a <> RustEmptyArray -> length (nd_data (a_nd a)) = volume (shape_of a))
  /\ (a_kind a = RustNdarray -> length (a_strides a) = length (shape_of a)).

(* row-major order: the last index varies fastest *)
Definition offset (shape idx : list nat) : nat :=
  fold_left (fun acc ni => acc * fst ni + snd ni) (combine shape idx) 0.

Definition in_bounds (shape idx : list nat) : Prop :=
  Forall2 (fun n i => i < n) shape idx.

(* the array holds [v] at the multi-index [idx] *)
Definition element (a : eqs_array) (idx : list nat) (v : Z) : Prop :=
  in_bounds (shape_of a) idx /\ nth_error (nd_data (a_nd a)) (offset (shape_of a) idx) = Some v.

(** * Blocks *)

(* the labels of the axes of a block, in the order of the axes *)
Definition axes (b : BasicBlock) : list Labels :=
  bb_samples b :: bb_components b ++ [bb_properties b].

(* the multi-index [idx] has the given coordinates *)
Fixpoint located (labels : list Labels) (idx : list nat) (coordinates : list (list Z)) : Prop :=
  match labels, idx, coordinates with
  | [], [], [] => True
  | l :: labels', i :: idx', r :: coordinates' =>
      nth_error (rows l) i = Some r /\ located labels' idx' coordinates'
  | _, _, _ => False
  end.

(* the block stores the value [v] for this sample, components and property *)
Definition entry (b : BasicBlock) (sample : list Z) (components : list (list Z)) (property : list Z)
    (v : Z) : Prop :=
  exists idx, located (axes b) idx (sample :: components ++ [property]) /\ element (bb_data b) idx v.

(* labels usable as the axis of a block: well-formed with at least one variable *)
Definition axis_labels (l : Labels) : Prop := wf_labels l /\ labels_names l <> [].

(* array and labels agree *)
Definition wf_basic (b : BasicBlock) : Prop :=
  wf_array (bb_data b)
  /\ Forall axis_labels (axes b)
  /\ shape_of (bb_data b) = map (fun l => length (rows l)) (axes b)
  /\ Forall (fun c => length (labels_names c) = 1) (bb_components b)
  /\ NoDup (map labels_names (bb_components b)).

(* [suffix] are the last label sets of [l], up to the hash order *)
Definition ends_with (l suffix : list Labels) : Prop :=
  exists prefix rest, l = prefix ++ rest /\ Forall2 same_labels rest suffix.

(* a gradient goes with the values of its block *)
Definition compatible_gradient (values gradient : BasicBlock) : Prop :=
  (exists others, labels_names (bb_samples gradient) = "sample" :: others)
  /\ ends_with (bb_components gradient) (bb_components values)
  /\ bb_properties gradient = bb_properties values
  /\ a_kind (bb_data gradient) = a_kind (bb_data values).

Definition wf_block (b : TensorBlock) : Prop :=
  wf_basic (tb_values b)
  /\ Forall (fun pg => wf_basic (snd pg) /\ compatible_gradient (tb_values b) (snd pg)) (tb_gradients b)
  /\ NoDup (map fst (tb_gradients b))
  /\ Permutation (tb_gradient_parameters b) (map fst (tb_gradients b))
  /\ ~ In "values" (map fst (tb_gradients b)).

(* the array has one axis per label set, with the right length; every component
   has a single variable with its own name *)
Definition shapes_agree (data : eqs_array) (samples : Labels) (components : list Labels)
    (properties : Labels) : Prop :=
  shape_of data = map (fun l => length (rows l)) (samples :: components ++ [properties])
  /\ Forall (fun c => length (labels_names c) = 1) components
  /\ NoDup (map labels_names components)
  /\ labels_names samples <> [] /\ labels_names properties <> [].

(* the array answers when asked for its shape or origin (always true for arrays
   implemented in Rust) *)
Definition answers (a : eqs_array) (op : array_op) : Prop :=
  forall o, a_kind a = ForeignArray o -> a_callbacks a op = Works \/ a_callbacks a op = Fails 0.

(* a gradient which can be added to a block *)
Definition acceptable_gradient (b : TensorBlock) (parameter : string) (data : eqs_array)
    (samples : Labels) (components : list Labels) : Prop :=
  ~ In parameter (map fst (tb_gradients b))
  /\ parameter <> "values"
  /\ compatible_gradient (tb_values b) (mk_basic data samples components (bb_properties (tb_values b)))
  /\ shapes_agree data samples components (bb_properties (tb_values b)).

(* every block a program can hold: created by TensorBlock::new, then extended by
   add_gradient calls, accepted or refused, but which did not panic *)
Inductive reachable_block : TensorBlock -> Prop :=
| reachable_new : forall data samples components properties b,
    wf_array data -> wf_labels samples -> Forall wf_labels components -> wf_labels properties ->
    tensor_block_new data samples components properties = Ok b ->
    reachable_block b
| reachable_add : forall b parameter data samples components b' result,
    reachable_block b ->
    wf_array data -> wf_labels samples -> Forall wf_labels components ->
    tensor_block_add_gradient b parameter data samples components = (b', result) ->
    (forall m, result <> Panic m) ->
    reachable_block b'.

(** * Tensor maps *)

(* the gradients of two blocks have the same parameters, sample names and
   component names *)
Definition same_gradient_names (b1 b2 : TensorBlock) : Prop :=
  forall q g1, In (q, g1) (tb_gradients b1) ->
    exists g2, In (q, g2) (tb_gradients b2)
      /\ labels_names (bb_samples g1) = labels_names (bb_samples g2)
      /\ map labels_names (bb_components g1) = map labels_names (bb_components g2).

Definition same_names (b1 b2 : TensorBlock) : Prop :=
  labels_names (bb_samples (tb_values b1)) = labels_names (bb_samples (tb_values b2))
  /\ map labels_names (bb_components (tb_values b1)) = map labels_names (bb_components (tb_values b2))
  /\ labels_names (bb_properties (tb_values b1)) = labels_names (bb_properties (tb_values b2))
  /\ same_gradient_names b1 b2 /\ same_gradient_names b2 b1.

(* one block per key, all blocks with the same names *)
Definition homogeneous (keys : Labels) (blocks : list TensorBlock) : Prop :=
  length blocks = length (rows keys)
  /\ forall b1 b2, In b1 blocks -> In b2 blocks -> same_names b1 b2.

Definition wf_tensor (t : TensorMap) : Prop :=
  axis_labels (tm_keys t)
  /\ Forall wf_block (tm_blocks t)
  /\ homogeneous (tm_keys t) (tm_blocks t).

(** ** Selection of blocks *)

(* a row read with the names of its variables *)
Definition named (names : list string) (row : list Z) : list (string * Z) := combine names row.

(* a selection is usable if it has no variable, or a single row with variables
   of the keys *)
Definition valid_selection (t : TensorMap) (selection : Labels) : Prop :=
  labels_names selection = []
  \/ (length (rows selection) = 1
      /\ forall name, In name (labels_names selection) -> In name (labels_names (tm_keys t))).

(* block [i] agrees with the selection on all selected variables *)
Definition selected (t : TensorMap) (selection : Labels) (i : nat) : Prop :=
  exists key, nth_error (rows (tm_keys t)) i = Some key
    /\ forall row name value, In row (rows selection) ->
         In (name, value) (named (labels_names selection) row) ->
         In (name, value) (named (labels_names (tm_keys t)) key).

(** ** Moving variables out of the keys *)

Definition is_moved (variables : list string) (name : string) : bool :=
  if in_dec string_dec name variables then true else false.

(* the names which stay in the keys *)
Definition kept_names (variables names : list string) : list string :=
  filter (fun name => negb (is_moved variables name)) names.

(* the values of a key for the moved variables, in the order of the keys *)
Definition moved_part (variables names : list string) (key : list Z) : list Z :=
  map snd (filter (fun nv => is_moved variables (fst nv)) (named names key)).

(* the values of a key for the other variables *)
Definition kept_part (variables names : list string) (key : list Z) : list Z :=
  map snd (filter (fun nv => negb (is_moved variables (fst nv))) (named names key)).

(* the new key: the placeholder 0 when nothing is left *)
Definition new_key (variables names : list string) (key : list Z) : list Z :=
  match kept_names variables names with
  | [] => [0%Z]
  | _ => kept_part variables names key
  end.

Definition new_key_names (variables names : list string) : list string :=
  match kept_names variables names with
  | [] => ["_"]
  | remaining => remaining
  end.

(* [distinct] lists each element of [all] once, in order of first appearance *)
Definition first_appearance {A} (all distinct : list A) : Prop :=
  NoDup distinct
  /\ (forall x, In x distinct <-> In x all)
  /\ (forall i j x y, i < j -> nth_error distinct i = Some x -> nth_error distinct j = Some y ->
        exists a, nth_error all a = Some x /\ forall b, nth_error all b = Some y -> a < b).

(* the tensor map stores [v] in the block with this key, for this sample,
   components and property *)
Definition tensor_entry (t : TensorMap) (key sample : list Z) (components : list (list Z))
    (property : list Z) (v : Z) : Prop :=
  exists i b, nth_error (rows (tm_keys t)) i = Some key /\ nth_error (tm_blocks t) i = Some b
    /\ entry (tb_values b) sample components property v.

(* the block has a gradient with respect to [q] for this sample (given by its
   labels, not by its position), with the given other gradient labels *)
Definition gradient_sample (b : TensorBlock) (q : string) (sample rest : list Z) : Prop :=
  exists i g, nth_error (rows (bb_samples (tb_values b))) i = Some sample
    /\ In (q, g) (tb_gradients b)
    /\ In (Z.of_nat i :: rest) (rows (bb_samples g)).

(* the gradient of the value for [sample] with respect to [q] *)
Definition gradient_value (b : TensorBlock) (q : string) (sample rest : list Z)
    (components : list (list Z)) (property : list Z) (v : Z) : Prop :=
  exists i g, nth_error (rows (bb_samples (tb_values b))) i = Some sample
    /\ In (q, g) (tb_gradients b)
    /\ entry g (Z.of_nat i :: rest) components property v.

(* all the gradient samples refer to an existing sample *)
Definition gradient_samples_in_range (b : TensorBlock) : Prop :=
  forall q g row, In (q, g) (tb_gradients b) -> In row (rows (bb_samples g)) ->
    exists i rest, row = Z.of_nat i :: rest /\ i < length (rows (bb_samples (tb_values b))).

(* the gradients of the blocks have the same components, with the same labels *)
Definition agreeing_gradients (b1 b2 : TensorBlock) : Prop :=
  forall q g1 g2, In (q, g1) (tb_gradients b1) -> In (q, g2) (tb_gradients b2) ->
    Forall2 same_labels (bb_components g1) (bb_components g2).

(* the variables are listed in the order they have in the keys *)
Definition in_key_order (variables names : list string) : Prop :=
  filter (is_moved variables) names = variables.

(** ** Tensor maps after a move *)

Definition block_of (t : TensorMap) (key : list Z) (b : TensorBlock) : Prop :=
  exists i, nth_error (rows (tm_keys t)) i = Some key /\ nth_error (tm_blocks t) i = Some b.

Definition tensor_gradient_sample (t : TensorMap) (key : list Z) (q : string) (sample rest : list Z) : Prop :=
  exists b, block_of t key b /\ gradient_sample b q sample rest.

Definition tensor_gradient_value (t : TensorMap) (key : list Z) (q : string) (sample rest : list Z)
    (components : list (list Z)) (property : list Z) (v : Z) : Prop :=
  exists b, block_of t key b /\ gradient_value b q sample rest components property v.

(* the keys and blocks which end up in the same block, for the new key [e] *)
Definition merged_together (t : TensorMap) (variables : list string) (e : list Z) : list (list Z * TensorBlock) :=
  filter (fun kb => if list_eq_dec Z.eq_dec (new_key variables (labels_names (tm_keys t)) (fst kb)) e then true else false)
         (combine (rows (tm_keys t)) (tm_blocks t)).

(* the gradients of blocks which are merged together have the same components *)
Definition agreeing_groups (t : TensorMap) (variables : list string) : Prop :=
  forall key1 b1 key2 b2, block_of t key1 b1 -> block_of t key2 b2 ->
    new_key variables (labels_names (tm_keys t)) key1 = new_key variables (labels_names (tm_keys t)) key2 ->
    agreeing_gradients b1 b2.

(* lexicographic order *)
Definition lex_lt (r1 r2 : list Z) : Prop :=
  (exists common x y t1 t2, r1 = common ++ x :: t1 /\ r2 = common ++ y :: t2 /\ (x < y)%Z)
  \/ (exists y t2, r2 = r1 ++ y :: t2).

(* the block with this key is kept: no rows were given for the variables to
   move, or the moved part of the key is one of these rows *)
Definition requested_key (keys : Labels) (names : list string) (key : list Z) : Prop :=
  rows keys = [] \/ In (moved_part (labels_names keys) names key) (rows keys).

(** ** Moving a component to the properties *)

(* the component with this name is at this position *)
Definition component_at (b : BasicBlock) (name : string) (i : nat) : Prop :=
  nth_error (map labels_names (bb_components b)) i = Some [name].

(* the component with this name is the last one, or the one before *)
Definition among_last_two (b : BasicBlock) (name : string) : Prop :=
  exists i, component_at b name i /\ length (bb_components b) <= i + 2.

(* the array reacts to all the functions of the library (always true for arrays
   implemented in Rust) *)
Definition responsive (a : eqs_array) : Prop := forall op, answers a op.

(* every array of the block reacts *)
Definition responsive_block (b : TensorBlock) : Prop :=
  responsive (bb_data (tb_values b)) /\ forall q g, In (q, g) (tb_gradients b) -> responsive (bb_data g).

(* tensor maps made with the public constructors *)
Definition accepted (t : TensorMap) : Prop :=
  exists keys blocks, wf_labels keys /\ Forall reachable_block blocks /\ tensor_map_new keys blocks = Ok t.

(** ** When moving keys works *)

(* a tensor map with data which can be moved: its arrays come from one place,
   hold data and react to all calls, its gradient samples refer to existing
   samples, its gradient parameters are C strings, and the position of its
   samples fit in the labels *)
Definition workable (t : TensorMap) : Prop :=
  wf_tensor t /\ tm_blocks t <> []
  /\ (exists kind, kind <> RustEmptyArray /\ forall b, In b (tm_blocks t) -> a_kind (bb_data (tb_values b)) = kind)
  /\ (forall b, In b (tm_blocks t) -> responsive_block b /\ gradient_samples_in_range b
        /\ forall q g, In (q, g) (tb_gradients b) -> ~ In Ascii.zero (list_ascii_of_string q))
  /\ (Z.of_nat (list_sum (map (fun b => length (rows (bb_samples (tb_values b)))) (tm_blocks t))) < 2 ^ 31)%Z.

(* blocks which are merged together have the same components *)
Definition same_components_groups (t : TensorMap) (variables : list string) : Prop :=
  forall key1 b1 key2 b2, block_of t key1 b1 -> block_of t key2 b2 ->
    new_key variables (labels_names (tm_keys t)) key1 = new_key variables (labels_names (tm_keys t)) key2 ->
    Forall2 same_labels (bb_components (tb_values b1)) (bb_components (tb_values b2)).

(* blocks which are merged together have the same properties *)
Definition same_properties_groups (t : TensorMap) (variables : list string) : Prop :=
  forall key1 b1 key2 b2, block_of t key1 b1 -> block_of t key2 b2 ->
    new_key variables (labels_names (tm_keys t)) key1 = new_key variables (labels_names (tm_keys t)) key2 ->
    same_labels (bb_properties (tb_values b1)) (bb_properties (tb_values b2)).

(** ** The order of the gradients *)

(* the same block, with its gradients in another order *)
Definition reordered_block (b b' : TensorBlock) : Prop :=
  tb_values b = tb_values b' /\ Permutation (tb_gradients b) (tb_gradients b')
  /\ Permutation (tb_gradient_parameters b) (tb_gradient_parameters b').

Definition reordered (t t' : TensorMap) : Prop :=
  tm_keys t = tm_keys t' /\ Forall2 reordered_block (tm_blocks t) (tm_blocks t').
