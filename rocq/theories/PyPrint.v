(* Model of the text Python shows for tensor maps and blocks: equistore/labels.py lines
   258-326, equistore/tensor.py lines 82-97 and equistore/block.py lines 137-164.

   Texts are strings of ASCII characters: the names in labels are always ASCII (see
   is_valid_label_name), gradient parameters can be any text. *)
From Verif Require Import Base Labels Array Block Tensor.
Local Open Scope string_scope.
Local Open Scope list_scope.
Local Open Scope nat_scope.

Definition newline : string := String (ascii_of_nat 10) "".

Fixpoint spaces (n : nat) : string := match n with 0 => "" | S n => String " " (spaces n) end.

(* str.rjust(n) and "{:>n}".format *)
Definition rjust (n : nat) (s : string) : string := spaces (n - String.length s) +++ s.

(* s[:-n] *)
Definition but_last (n : nat) (s : string) : string := substring 0 (String.length s - n) s.

(* equistore/labels.py:317-326 -- _make_padding *)
Definition make_padding (value : Z) (width prev : nat) : string := rjust (prev + width / 2) (string_of_Z value).

(* equistore/labels.py:295-298 -- the loop over the values of an entry, with zip *)
Fixpoint print_entry (prev : nat) (widths : list nat) (entry : list Z) : string :=
  match widths, entry with
  | w :: widths, v :: entry => make_padding v w prev +++ print_entry (w / 2) widths entry
  | _, _ => ""
  end.

(* equistore/labels.py:294-300 -- the loop over the entries *)
Fixpoint print_entries (prev : nat) (widths : list nat) (entries : list (list Z)) : string :=
  match entries with
  | [] => ""
  | e :: entries => print_entry prev widths e +++ newline +++ print_entries prev widths entries
  end.

(* equistore/labels.py:285-288 *)
Fixpoint print_names (names : list string) : string :=
  match names with
  | [] => ""
  | n :: names => "'" +++ n +++ "' " +++ print_names names
  end.

(* Labels[-3:] *)
Definition last_entries (n : nat) (rows : list (list Z)) : list (list Z) := skipn (length rows - n) rows.

(* equistore/labels.py:258-314 -- _print_labels; width[0] raises an IndexError for labels
   without names, which is an error here *)
Definition print_labels (names : list string) (rows : list (list Z)) (header : string) (print_limit : nat) : outcome string :=
  let print_limit := if print_limit <? 6 then 6 else print_limit in
  let ln := length rows in
  let s := header +++ ": [" +++ print_names names in
  let s := if 0 <? ln then but_last 1 s else s in
  let s := s +++ "]" +++ newline in
  let width := map (fun n => String.length n + 3) names in
  let prev := String.length header + 3 in
  if ln <=? print_limit then Ok (but_last 1 (s +++ print_entries prev width rows))
  else
    match width with
    | [] => Err (InvalidParameter "list index out of range")
    | w :: _ =>
        Ok (but_last 1 (s +++ print_entries prev width (firstn 3 rows) +++ rjust (prev + w / 2) ("..." +++ newline)
          +++ print_entries prev width (last_entries 3 rows)))
    end.

(* equistore/tensor.py:82-97 -- __len__, __repr__ and __str__. [rows] are the entries of
   the keys *)
Definition tensor_text (t : TensorMap) (print_limit : nat -> nat) : outcome string :=
  let? rows := labels_iter (tm_keys t) in
  let? keys := print_labels (labels_names (tm_keys t)) rows "keys" (print_limit (length rows)) in
  Ok ("TensorMap with " +++ string_of_nat (length rows) +++ " blocks" +++ newline +++ keys).
Definition tensor_repr (t : TensorMap) : outcome string := tensor_text t (fun _ => 10).
Definition tensor_str (t : TensorMap) : outcome string := tensor_text t (fun n => n + 1).

(* names[:-1] and names[-1] *)
Definition quoted (n : string) : string := "'" +++ n +++ "'".
Definition print_all_names (names : list string) : outcome string :=
  match rev names with
  | [] => Err (InvalidParameter "list index out of range")
  | last :: _ =>
      Ok (fold_right (fun n s => quoted n +++ ", " +++ s) "" (removelast names) +++ quoted last)
  end.

(* equistore/block.py:137-164 -- TensorBlock.__repr__. gradients_list() gives the
   parameters in the order they were added *)
Definition block_repr (b : TensorBlock) : outcome string :=
  let v := tb_values b in
  let? samples := print_all_names (labels_names (bb_samples v)) in
  let components := fold_right (fun n s => quoted n +++ ", " +++ s) "" (flat_map labels_names (bb_components v)) in
  let s := "TensorBlock" +++ newline +++ "    samples: [" +++ samples +++ "]" +++ newline +++ "    component: [" +++ components in
  let s := if 0 <? length (bb_components v) then but_last 2 s else s in
  let? properties := print_all_names (labels_names (bb_properties v)) in
  let s := s +++ "]" +++ newline +++ "    properties: [" +++ properties +++ "]" +++ newline +++ "    gradients: " in
  match tb_gradient_parameters b with
  | [] => Ok (s +++ "no")
  | parameters =>
      let? gradients := print_all_names parameters in
      Ok (s +++ "[" +++ gradients +++ "]")
  end.

(* equistore/block.py:309-329 -- Gradient.__repr__ *)
Definition gradient_repr (parameter : string) (g : BasicBlock) : outcome string :=
  let? samples := print_all_names (labels_names (bb_samples g)) in
  let components := fold_right (fun n s => quoted n +++ ", " +++ s) "" (flat_map labels_names (bb_components g)) in
  let s := "Gradient TensorBlock " +++ newline +++ "parameter: '" +++ parameter +++ "'" +++ newline
    +++ "samples: [" +++ samples +++ "]" +++ newline +++ "component: [" +++ components in
  let s := if 0 <? length (bb_components g) then but_last 2 s else s in
  let? properties := print_all_names (labels_names (bb_properties g)) in
  Ok (s +++ "]" +++ newline +++ "properties: [" +++ properties +++ "]").
