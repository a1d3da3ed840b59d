(* Model of src/labels.rs *)
From Verif Require Import Base.
Local Open Scope string_scope.
Local Open Scope list_scope.
Local Open Scope nat_scope.

(* src/labels.rs:12-16 -- LabelValue wraps an i32. The conversions below are
   where the 32-bit range matters. *)
Definition i32_max : Z := 2147483647.
Definition i32_min : Z := -2147483648.
Definition is_i32 (z : Z) : bool := ((i32_min <=? z) && (z <=? i32_max))%Z.

(* src/labels.rs:42-47 -- impl From<u32> for LabelValue *)
Definition label_from_u32 (value : Z) : outcome Z :=
  if (value <? i32_max)%Z then Ok value
  else Panic "assertion failed: value < i32::MAX as u32".

(* src/labels.rs:55-60 -- impl From<usize> for LabelValue *)
Definition label_from_usize (value : Z) : outcome Z :=
  if (value <? i32_max)%Z then Ok value
  else Panic "assertion failed: value < i32::MAX as usize".

(* src/labels.rs:62-67 -- impl From<isize> for LabelValue *)
Definition label_from_isize (value : Z) : outcome Z :=
  if ((value <? i32_max) && (i32_min <? value))%Z then Ok value
  else Panic "assertion failed: value < i32::MAX as isize && value > i32::MIN as isize".

(* src/labels.rs:77-80 -- LabelValue::usize: debug_assert in debug builds, sign
   extension to 64 bits in release builds: v + 2^64 for every negative i32,
   written with the 31 low bits of v to be in the same range for all integers *)
Definition label_usize (p : profile) (v : Z) : outcome Z :=
  if (v <? 0)%Z then
    match p with
    | Debug => Panic "assertion failed: self.0 >= 0"
    | Release => Ok (2 ^ 64 - 2 ^ 31 + v mod 2 ^ 31)%Z
    end
  else Ok v.

(* indexing a slice with an usize which can be larger than any nat we would
   like to build: `l[i]`. A slice never has more than isize::MAX elements. *)
Definition index_slice_Z {A} (l : list A) (i : Z) : outcome A :=
  if ((0 <=? i) && (i <? Z.of_nat (length l)) && (i <? 2 ^ 63))%Z
  then index_slice l (Z.to_nat i)
  else Panic "index out of bounds".

(* src/labels.rs:188-204 -- is_valid_label_name. The Rust code iterates over
   characters; on the UTF-8 bytes a non-ASCII character is a sequence of bytes
   >= 128, all of which are refused. *)
Definition is_ascii_digit (c : ascii) : bool :=
  let n := nat_of_ascii c in (48 <=? n) && (n <=? 57).
Definition is_ascii_alphanumeric (c : ascii) : bool :=
  let n := nat_of_ascii c in
  is_ascii_digit c || ((65 <=? n) && (n <=? 90)) || ((97 <=? n) && (n <=? 122)).

Fixpoint label_name_chars (i : nat) (s : string) : bool :=
  match s with
  | EmptyString => true
  | String c r =>
      if (i =? 0) && is_ascii_digit c then false
      else if negb (is_ascii_alphanumeric c || Ascii.eqb c "_"%char) then false
      else label_name_chars (S i) r
  end.

Definition is_valid_label_name (name : string) : bool :=
  match name with
  | EmptyString => false
  | _ => label_name_chars 0 name
  end.

(* src/labels.rs:94-99 -- struct LabelsBuilder *)
Record LabelsBuilder := mk_builder {
  lb_names : list string;
  lb_values : list Z;
  lb_positions : list (list Z * nat);
}.

(* src/labels.rs:103-116 -- LabelsBuilder::new *)
Definition builder_new (names : list string) : outcome LabelsBuilder :=
  match find (fun name => negb (is_valid_label_name name)) names with
  | Some name =>
      Panic ("all labels names must be valid identifiers, '" +++ name +++ "' is not")
  | None =>
      let n_unique_names := count_distinct String.eqb names in
      if n_unique_names =? length names
      then Ok (mk_builder names [] [])
      else Panic "invalid labels: the same name is used multiple times"
  end.

(* src/labels.rs:125-127 -- LabelsBuilder::size *)
Definition builder_size (b : LabelsBuilder) : nat := length (lb_names b).

(* src/labels.rs:133-156 -- LabelsBuilder::add. Returns the builder after the
   call together with the outcome, since a duplicate panics after `values` was
   extended. *)
Definition builder_add_state (b : LabelsBuilder) (entry : list Z) : LabelsBuilder * outcome unit :=
  if negb (builder_size b =? length entry) then
    (b, Panic ("wrong size for added label: got " +++ string_of_nat (length entry)
               +++ ", but expected " +++ string_of_nat (builder_size b)))
  else
    let values := lb_values b ++ entry in
    let new_position := length (lb_positions b) in
    match hm_get row_eqb (lb_positions b) entry with
    | Some position =>
        (mk_builder (lb_names b) values (lb_positions b),
         Panic ("can not have the same label value multiple time: ["
                +++ join ", " (map string_of_Z entry)
                +++ "] is already present at position " +++ string_of_nat position))
    | None =>
        (mk_builder (lb_names b) values (hm_insert_new (lb_positions b) entry new_position),
         Ok tt)
    end.

(* the same, for callers which do not catch the panic (all of the library) *)
Definition builder_add (b : LabelsBuilder) (entry : list Z) : outcome LabelsBuilder :=
  let '(b', result) := builder_add_state b entry in
  let? _ := result in Ok b'.

(* src/labels.rs:159-161 -- LabelsBuilder::contains *)
Definition builder_contains (b : LabelsBuilder) (label : list Z) : bool :=
  hm_contains row_eqb (lb_positions b) label.

(* `for entry in ... { builder.add(&entry) }` *)
Definition builder_add_all (b : LabelsBuilder) (entries : list (list Z)) : outcome LabelsBuilder :=
  foldM builder_add entries b.

(* src/labels.rs:214-226 -- struct Labels *)
Record Labels := mk_labels {
  l_names : list string;
  l_values : list Z;
  l_positions : list (list Z * nat);
}.

(* src/labels.rs:164-183 -- LabelsBuilder::finish *)
Definition builder_finish (b : LabelsBuilder) : outcome Labels :=
  match lb_names b with
  | [] =>
      match lb_values b with
      | [] => Ok (mk_labels [] [] [])
      | _ => Panic "assertion failed: self.values.is_empty()"
      end
  | _ =>
      let? names := mapM (fun s => expect_some "invalid C string" (cstring_new s)) (lb_names b) in
      Ok (mk_labels names (lb_values b) (lb_positions b))
  end.

(* LabelsBuilder::new, then add for every entry, then finish: the pattern used
   by every function of the library *)
Definition labels_build (names : list string) (entries : list (list Z)) : outcome Labels :=
  let? builder := builder_new names in
  let? builder := builder_add_all builder entries in
  builder_finish builder.

(* src/labels.rs:250-255 -- Labels::single *)
Definition labels_single : outcome Labels := labels_build ["_"] [[0%Z]].

(* src/labels.rs:258-260 -- Labels::size *)
Definition labels_size (l : Labels) : nat := length (l_names l).

(* src/labels.rs:263-265 -- Labels::names *)
Definition labels_names (l : Labels) : list string := l_names l.

(* src/labels.rs:274-276 -- Labels::count *)
Definition labels_count (l : Labels) : outcome nat :=
  if labels_size l =? 0 then Panic "attempt to divide by zero"
  else Ok (length (l_values l) / labels_size l).

(* src/labels.rs:279-281 -- Labels::contains *)
Definition labels_contains (l : Labels) (label : list Z) : bool :=
  hm_contains row_eqb (l_positions l) label.

(* src/labels.rs:285-289 -- Labels::position *)
Definition labels_position (l : Labels) (value : list Z) : outcome (option nat) :=
  if length value =? labels_size l then Ok (hm_get row_eqb (l_positions l) value)
  else Panic "invalid size of index in Labels::position".

(* src/labels.rs:292-297 -- Labels::iter, as the list of all the items it
   yields (also src/labels.rs:300-307, par_iter, up to scheduling). With zero
   names both the debug assertion (remainder by zero) and chunks_exact(0)
   panic. The debug assertion on the remainder can not fail for labels produced
   by a builder and is not modelled. *)
Definition labels_iter (l : Labels) : outcome (list (list Z)) :=
  if labels_size l =? 0 then Panic "chunk size must be non-zero"
  else Ok (chunks_exact (labels_size l) (l_values l)).

(* src/labels.rs:380-392 -- FixedSizeIter::next, iterated until it returns
   None *)
Fixpoint fixed_size_items (fuel n : nat) (values : list Z) : outcome (list (list Z)) :=
  match values with
  | [] => Ok []
  | _ =>
      match fuel with
      | O => Panic "endless iterator"
      | S fuel =>
          if length values <? n then Panic "assertion failed: mid <= self.len()"
          else
            let? rest := fixed_size_items fuel n (skipn n values) in
            Ok (firstn n values :: rest)
      end
  end.

(* src/labels.rs:310-321 -- Labels::iter_fixed_size::<N> *)
Definition labels_iter_fixed_size (p : profile) (n : nat) (l : Labels) : outcome (list (list Z)) :=
  let? _ := debug_assert p (negb (labels_size l =? 0))
              "attempt to calculate the remainder with a divisor of zero" in
  if n =? labels_size l then fixed_size_items (length (l_values l)) n (l_values l)
  else Panic "wrong label size in `iter_fixed_size`".

(* src/labels.rs:407-414 -- impl Index<usize> for Labels *)
Definition labels_index (l : Labels) (i : nat) : outcome (list Z) :=
  let start := i * labels_size l in
  let stop := (i + 1) * labels_size l in
  if stop <=? length (l_values l) then Ok (firstn (stop - start) (skipn start (l_values l)))
  else Panic "range end index out of range for slice".

(* src/labels.rs:214 -- derive(PartialEq) for Labels *)
Definition labels_eqb (l1 l2 : Labels) : bool :=
  names_eqb (l_names l1) (l_names l2)
  && row_eqb (l_values l1) (l_values l2)
  && hm_eqb row_eqb Nat.eqb (l_positions l1) (l_positions l2).
