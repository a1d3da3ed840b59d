(* Model of the memory layout of ndarray::ArrayD<f64>, as used in
   src/data.rs:671-733. The crate (ndarray 0.15) is not part of the repository:
   the functions below follow its documentation and its source. Strides are never
   negative here, since no axis is ever inverted. *)
From Verif Require Import Base.
Local Open Scope list_scope.
Local Open Scope nat_scope.

(* number of elements *)
Fixpoint prod (shape : list nat) : nat :=
  match shape with
  | [] => 1
  | n :: r => n * prod r
  end.

(* Dimension::default_strides: row-major order, or zeros without elements *)
Fixpoint row_major_strides (shape : list nat) : list nat :=
  match shape with
  | [] => []
  | _ :: r => prod r :: row_major_strides r
  end.

Definition default_strides (shape : list nat) : list nat :=
  if prod shape =? 0 then repeat 0 (length shape) else row_major_strides shape.

(* is_layout_c, from the last axis to the first one *)
Fixpoint layout_c_loop (axes : list (nat * nat)) (contiguous : nat) : bool :=
  match axes with
  | [] => true
  | (n, s) :: axes' =>
      if n =? 1 then layout_c_loop axes' contiguous
      else if s =? contiguous then layout_c_loop axes' (contiguous * n)
      else false
  end.

Definition is_standard_layout (shape strides : list nat) : bool :=
  existsb (Nat.eqb 0) shape || layout_c_loop (rev (combine shape strides)) 1.

(* Dimension::is_contiguous: the axes, by increasing strides, have no gap. The
   sort is stable. *)
Fixpoint insert_axis (axis : nat * nat) (axes : list (nat * nat)) : list (nat * nat) :=
  match axes with
  | [] => [axis]
  | x :: axes' => if snd axis <=? snd x then axis :: axes else x :: insert_axis axis axes'
  end.

Definition fastest_varying_order (axes : list (nat * nat)) : list (nat * nat) :=
  fold_right insert_axis [] axes.

Fixpoint contiguous_loop (axes : list (nat * nat)) (cstride : nat) : bool :=
  match axes with
  | [] => true
  | (n, s) :: axes' =>
      if (n =? 1) || (s =? cstride) then contiguous_loop axes' (cstride * n) else false
  end.

Definition is_contiguous (shape strides : list nat) : bool :=
  if list_eq_dec Nat.eq_dec strides (default_strides shape) then true
  else if length shape =? 1 then false
  else contiguous_loop (fastest_varying_order (combine shape strides)) 1.

(* reshape_dim_c: strides for another shape which visit the same elements in the
   same order, without moving them. The loops are the ones of the crate, with
   lists in place of cursors; [fuel] is the number of axes. *)
Inductive reshape_error := IncompatibleShape | IncompatibleLayout.

(* combination of several axes: the new strides, and the axes which are left *)
Fixpoint combine_axes (fuel fs fd_product whole td td_product : nat) (from : list (nat * nat)) (to : list nat)
  : (list nat * list (nat * nat) * list nat) + reshape_error :=
  match fuel with
  | 0 => inr IncompatibleShape
  | S fuel' =>
      if fd_product =? td_product then inl ([whole / td], from, to)
      else if fd_product <? td_product then
        match from with
        | [] => inr IncompatibleShape
        | (fd, s) :: from' =>
            if 1 <? fd then
              if fs =? fd * s then combine_axes fuel' s (fd_product * fd) whole td td_product from' to
              else inr IncompatibleLayout
            else combine_axes fuel' fs (fd_product * fd) whole td td_product from' to
        end
      else
        match to with
        | [] => inr IncompatibleShape
        | td' :: to' =>
            match combine_axes fuel' fs fd_product (whole / td) td' (td_product * td') from to' with
            | inl (strides, from', to'') => inl (whole / td :: strides, from', to'')
            | inr e => inr e
            end
        end
  end.

Fixpoint reshape_dim_c (fuel : nat) (from : list (nat * nat)) (to : list nat) : list nat + reshape_error :=
  match from, to with
  | (fd, fs) :: from', td :: to' =>
      match fuel with
      | 0 => inr IncompatibleShape
      | S fuel' =>
          if fd =? td then
            match reshape_dim_c fuel' from' to' with
            | inl strides => inl (fs :: strides)
            | inr e => inr e
            end
          else if fd =? 1 then reshape_dim_c fuel' from' to
          else if td =? 1 then
            match reshape_dim_c fuel' from to' with
            | inl strides => inl (1 :: strides)
            | inr e => inr e
            end
          else if (fd =? 0) || (td =? 0) then inr IncompatibleShape
          else
            match combine_axes fuel fs fd (fs * fd) td td from' to' with
            | inl (strides, from'', to'') =>
                match reshape_dim_c fuel' from'' to'' with
                | inl strides' => inl (strides ++ strides')
                | inr e => inr e
                end
            | inr e => inr e
            end
      end
  | _, _ =>
      (* only axes of length one can be left *)
      if forallb (fun axis => fst axis =? 1) from && forallb (Nat.eqb 1) to
      then inl (map (fun _ => 1) to) else inr IncompatibleShape
  end.

Definition reshape_dim (shape strides new_shape : list nat) : list nat + reshape_error :=
  reshape_dim_c (length shape + length new_shape) (combine shape strides) new_shape.

(* the strides of array.to_shape(new_shape).expect("invalid shape").to_owned().
   - to_shape is a view when this is possible, or an array in row-major order;
   - to_owned keeps the strides when the elements have no gap between them, and
     copies the elements in row-major order otherwise;
   None is an error of to_shape. *)
Definition to_shape_strides (shape strides new_shape : list nat) : option (list nat) :=
  if prod new_shape =? prod shape then
    if prod shape =? 0 then Some (default_strides new_shape)
    else
      match reshape_dim shape strides new_shape with
      | inl view => Some (if is_contiguous new_shape view then view else default_strides new_shape)
      | inr IncompatibleShape => None
      | inr IncompatibleLayout => Some (default_strides new_shape)
      end
  else None.
