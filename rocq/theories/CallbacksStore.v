(* The functions of eqs_array_t for arrays which are in memory, following Array.v *)
From Verif Require Import Base Labels Array Block Tensor Callbacks SpecCallbacks.
Local Open Scope string_scope.
Local Open Scope list_scope.
Local Open Scope nat_scope.

(* all arrays have a pointer smaller than [s_next] *)
Record store := mk_store { s_array : nat -> eqs_array; s_next : nat }.

Definition put (s : store) (a : nat) (array : eqs_array) : store :=
  mk_store (fun b => if a =? b then array else s_array s b) (s_next s).

Definition answer_ok : answer := mk_answer false 0 0 [] 0.

(* the answer for the result of the functions of Array.v *)
Definition answer_of {A} (r : outcome A) : answer :=
  match r with
  | Ok _ => answer_ok
  | Err (External status _) => mk_answer false status 0 [] 0
  | _ => mk_answer true 0 0 [] 0
  end.

(* the number of the origin *)
Definition origin_of (k : array_kind) : nat :=
  match k with RustNdarray => 0 | RustEmptyArray => 1 | ForeignArray n => S (S n) end.

Definition respond (s : store) (c : call) : store * answer :=
  match c with
  | QOrigin a =>
      match array_origin (s_array s a) with
      | Ok k => (s, mk_answer false 0 (origin_of k) [] 0)
      | r => (s, answer_of r)
      end
  | QShape a =>
      match array_shape (s_array s a) with
      | Ok shape => (s, mk_answer false 0 0 shape 0)
      | r => (s, answer_of r)
      end
  | QReshape a shape =>
      let '(array, r) := array_reshape (s_array s a) shape in (put s a array, answer_of r)
  | QSwapAxes a i j =>
      let '(array, r) := array_swap_axes (s_array s a) i j in (put s a array, answer_of r)
  | QCreate a shape =>
      match array_create (s_array s a) shape with
      | Ok array => (mk_store (s_array (put s (s_next s) array)) (S (s_next s)), mk_answer false 0 0 [] (s_next s))
      | r => (s, answer_of r)
      end
  | QCopy a =>
      match array_clone (s_array s a) with
      | Ok array => (mk_store (s_array (put s (s_next s) array)) (S (s_next s)), mk_answer false 0 0 [] (s_next s))
      | _ => (s, match a_callbacks (s_array s a) OpCopy with Fails status => mk_answer false status 0 [] 0 | _ => mk_answer true 0 0 [] 0 end)
      end
  | QMove output input samples start stop =>
      match array_move_samples_from (s_array s output) (s_array s input) samples start stop with
      | Ok array => (put s output array, answer_ok)
      | r => (s, answer_of r)
      end
  | QDestroy a => (s, answer_ok)
  end.

Fixpoint play {A} (s : store) (m : prog A) : store * A :=
  match m with
  | Ret a => (s, a)
  | Ask c k => let '(s, an) := respond s c in play s (k an)
  end.

(* the calls which were made *)
Fixpoint played {A} (s : store) (m : prog A) : trace :=
  match m with
  | Ret a => []
  | Ask c k => let '(s, an) := respond s c in (c, an) :: played s (k an)
  end.

(* the blocks and tensor maps of the other files, with the arrays themselves *)
Definition see_basic (s : store) (b : BasicBlock) : BasicBlock :=
  mk_basic (s_array s (data_of b)) (bb_samples b) (bb_components b) (bb_properties b).
Definition see_block (s : store) (b : TensorBlock) : TensorBlock :=
  mk_block (see_basic s (tb_values b)) (map (fun pg => (fst pg, see_basic s (snd pg))) (tb_gradients b)) (tb_gradient_parameters b).
Definition see (s : store) (t : TensorMap) : TensorMap := mk_tensor (tm_keys t) (map (see_block s) (tm_blocks t)).
