(* Model of the iterators of src/labels.rs and src/tensor/iter.rs, one call of a method
   at a time, of the parallel iterators for all the ways rayon can divide the work, and
   of the Debug text of labels. Iterators of std and rayon are modelled from their
   documentation and known code (std::slice::ChunksExact, std::iter::Zip,
   rayon 1: par_chunks_exact, zip_eq, Producer::split_at). *)
From Verif Require Import Base Labels Block Tensor.
Local Open Scope string_scope.
Local Open Scope list_scope.
Local Open Scope nat_scope.

(** * Sequential iterators *)

(* std::slice::ChunksExact: the elements which are left, and the size of chunks *)
Record chunks := mk_chunks {
  ch_values : list Z;
  ch_size : nat;
}.

(* slice::chunks_exact: what is after the last complete chunk is never given *)
Definition chunks_of (n : nat) (values : list Z) : outcome chunks :=
  if n =? 0 then Panic "chunk size must be non-zero"
  else Ok (mk_chunks (firstn (length values - length values mod n) values) n).

Definition chunks_next (c : chunks) : chunks * option (list Z) :=
  if length (ch_values c) <? ch_size c then (c, None)
  else (mk_chunks (skipn (ch_size c) (ch_values c)) (ch_size c), Some (firstn (ch_size c) (ch_values c))).

Definition chunks_len (c : chunks) : nat := length (ch_values c) / ch_size c.

(* what Iterator::size_hint gives: at least, and at most *)
Definition size_hint : Type := nat * option nat.

(* Iterator::size_hint, when it is not defined by the iterator *)
Definition default_size_hint : size_hint := (0, None).

(* ExactSizeIterator::len, when it is not defined by the iterator:
     let (lower, upper) = self.size_hint();
     assert_eq!(upper, Some(lower));
     lower *)
Definition default_len (hint : size_hint) : outcome nat :=
  let (lower, upper) := hint in
  match upper with
  | Some upper => if upper =? lower then Ok lower else Panic "assertion failed: `(left == right)`"
  | None => Panic "assertion failed: `(left == right)`"
  end.

(* src/labels.rs:292-297 -- Labels::iter *)
Definition labels_iterator (p : profile) (l : Labels) : outcome chunks :=
  let? _ := debug_assert p (negb (labels_size l =? 0)) "attempt to calculate the remainder with a divisor of zero" in
  let? _ := debug_assert p (length (l_values l) mod labels_size l =? 0)
              "assertion failed: self.values.len() % self.names.len() == 0" in
  chunks_of (labels_size l) (l_values l).

(* src/labels.rs:325-341 -- Iter::next and Iter::len; size_hint is not defined *)
Definition iter_next (c : chunks) : chunks * option (list Z) := chunks_next c.
Definition iter_len (c : chunks) : nat := chunks_len c.
Definition iter_size_hint (c : chunks) : size_hint := default_size_hint.

(* src/labels.rs:310-321 -- Labels::iter_fixed_size::<N>, src/labels.rs:376-398 --
   FixedSizeIter: the values which are left *)
Definition fixed_size_iterator (p : profile) (n : nat) (l : Labels) : outcome (list Z) :=
  let? _ := debug_assert p (negb (labels_size l =? 0)) "attempt to calculate the remainder with a divisor of zero" in
  let? _ := debug_assert p (length (l_values l) mod labels_size l =? 0)
              "assertion failed: self.values.len() % self.names.len() == 0" in
  if n =? labels_size l then Ok (l_values l) else Panic "wrong label size in `iter_fixed_size`".

Definition fixed_size_next (n : nat) (values : list Z) : outcome (list Z * option (list Z)) :=
  match values with
  | [] => Ok ([], None)
  | _ =>
      if length values <? n then Panic "assertion failed: mid <= self.len()"
      else Ok (skipn n values, Some (firstn n values))
  end.

Definition fixed_size_len (n : nat) (values : list Z) : outcome nat :=
  if n =? 0 then Panic "attempt to divide by zero" else Ok (length values / n).

(* std::iter::Zip of the entries of labels and of an iterator on a slice. The second
   iterator is the list of what is left in the slice: blocks for iter(), references to
   blocks for iter_mut(). *)
Record zipped (B : Type) := mk_zipped {
  z_keys : chunks;
  z_blocks : list B;
}.
Arguments mk_zipped {B}.
Arguments z_keys {B}.
Arguments z_blocks {B}.

(* the first iterator advances even when the second one is at its end *)
Definition zip_next {B} (z : zipped B) : zipped B * option (list Z * B) :=
  match iter_next (z_keys z) with
  | (keys, None) => (mk_zipped keys (z_blocks z), None)
  | (keys, Some key) =>
      match z_blocks z with
      | [] => (mk_zipped keys [], None)
      | block :: blocks => (mk_zipped keys blocks, Some (key, block))
      end
  end.

(* Zip::size_hint: the smallest of both *)
Definition zip_size_hint {B} (z : zipped B) : size_hint :=
  let (lower_1, upper_1) := iter_size_hint (z_keys z) in
  let (lower_2, upper_2) := (length (z_blocks z), Some (length (z_blocks z))) in
  (min lower_1 lower_2,
   match upper_1, upper_2 with
   | Some a, Some b => Some (min a b)
   | Some a, None => Some a
   | None, upper => upper
   end).

(* src/tensor/iter.rs:9-21 -- TensorMap::iter and TensorMap::iter_mut. [blocks] is what
   the slice gives for each block: the blocks, or where they are. *)
Definition tensor_iterator {B} (p : profile) (t : TensorMap) (blocks : list B) : outcome (zipped B) :=
  let? keys := labels_iterator p (tm_keys t) in
  Ok (mk_zipped keys blocks).

(* src/tensor/iter.rs:50-62 and 72-90 -- next and len. The implementation of
   ExactSizeIterator for Zip does not define len. *)
Definition tensor_next {B} (z : zipped B) : zipped B * option (list Z * B) := zip_next z.
Definition tensor_len {B} (z : zipped B) : outcome nat := default_len (zip_size_hint z).

(* next(), a number of times *)
Fixpoint nexts {S A} (next : S -> S * option A) (times : nat) (s : S) : S * list (option A) :=
  match times with
  | 0 => (s, [])
  | S times =>
      let (s, item) := next s in
      let (s, items) := nexts next times s in
      (s, item :: items)
  end.

Fixpoint fixed_size_nexts (n times : nat) (values : list Z) : outcome (list Z * list (option (list Z))) :=
  match times with
  | 0 => Ok (values, [])
  | S times =>
      let? step := fixed_size_next n values in
      let? rest := fixed_size_nexts n times (fst step) in
      Ok (fst rest, snd step :: snd rest)
  end.

(** * Parallel iterators

    rayon divides the items with Producer::split_at as often as it wants, at any index
    which is not after the end, and then uses what is left as sequential iterators, on
    any threads. *)
Inductive division :=
| Together
| Divided (index : nat) (first second : division).

(* slice::split_at *)
Definition split_at {A} (index : nat) (l : list A) : outcome (list A * list A) :=
  if index <=? length l then Ok (firstn index l, skipn index l) else Panic "assertion failed: mid <= self.len()".

(* the producers of par_chunks_exact and of slices, in the producer of zip_eq *)
Definition producer (B : Type) : Type := zipped B.

Definition producer_split {B} (index : nat) (z : producer B) : outcome (producer B * producer B) :=
  let? values := split_at (index * ch_size (z_keys z)) (ch_values (z_keys z)) in
  let? blocks := split_at index (z_blocks z) in
  Ok (mk_zipped (mk_chunks (fst values) (ch_size (z_keys z))) (fst blocks),
      mk_zipped (mk_chunks (snd values) (ch_size (z_keys z))) (snd blocks)).

(* Producer::into_iter, until the end: chunks_exact again, zipped with the slice *)
Fixpoint all_items {B} (fuel : nat) (z : zipped B) : list (list Z * B) :=
  match fuel with
  | 0 => []
  | S fuel =>
      match tensor_next z with
      | (_, None) => []
      | (z, Some item) => item :: all_items fuel z
      end
  end.

Definition producer_items {B} (z : producer B) : outcome (list (list Z * B)) :=
  let? keys := chunks_of (ch_size (z_keys z)) (ch_values (z_keys z)) in
  Ok (all_items (S (length (z_blocks z))) (mk_zipped keys (z_blocks z))).

(* the items of each part, in the order of the parts *)
Fixpoint parts {B} (d : division) (z : producer B) : outcome (list (list (list Z * B))) :=
  match d with
  | Together => let? items := producer_items z in Ok [items]
  | Divided index first second =>
      let? both := producer_split index z in
      let? first := parts first (fst both) in
      let? second := parts second (snd both) in
      Ok (first ++ second)
  end.

(* src/labels.rs:300-307, src/tensor/iter.rs:23-40 -- TensorMap::par_iter and
   TensorMap::par_iter_mut; zip_eq checks that there is one block for each key *)
Definition parallel_iterator {B} (p : profile) (t : TensorMap) (blocks : list B) : outcome (producer B) :=
  let? keys := labels_iterator p (tm_keys t) in
  if chunks_len keys =? length blocks then Ok (mk_zipped keys blocks)
  else Panic "assertion failed: `(left == right)`".

(* src/tensor/iter.rs:107-110 and 141-144 -- len; ZipEq::len is the one of the keys *)
Definition parallel_len {B} (z : producer B) : nat := chunks_len (z_keys z).

(* Changes made through references to blocks: for_each(|(key, block)| ...), the items
   being used in this order *)
Definition use_item {B} (change : list Z -> B -> B) (blocks : list B) (item : list Z * nat) : list B :=
  match nth_error blocks (snd item) with
  | Some block => set_nth blocks (snd item) (change (fst item) block)
  | None => blocks
  end.
Definition use_items {B} (change : list Z -> B -> B) (blocks : list B) (items : list (list Z * nat)) : list B :=
  fold_left (use_item change) items blocks.

(** * Debug text of labels *)

Fixpoint blanks (n : nat) : string := match n with 0 => "" | S n => String " " (blanks n) end.

(* format!("{:^width$}", value): if the number of blanks is odd, there is one more on
   the right *)
Definition centered (width : nat) (s : string) : string :=
  let missing := width - String.length s in
  blanks (missing / 2) +++ s +++ blanks ((missing + 1) / 2).

Definition end_of_line : string := String (ascii_of_nat 10) "".

Fixpoint debug_entry (values : list Z) (widths : list nat) : string :=
  match values, widths with
  | value :: values, width :: widths => centered width (string_of_Z value) +++ "  " +++ debug_entry values widths
  | _, _ => ""
  end.

Fixpoint debug_entries (entries : list (list Z)) (widths : list nat) : string :=
  match entries with
  | [] => ""
  | entry :: entries => "    " +++ debug_entry entry widths +++ end_of_line +++ debug_entries entries widths
  end.

(* src/labels.rs:228-245 -- impl Debug for Labels. Names have as many bytes as
   characters. *)
Definition labels_debug (l : Labels) : outcome string :=
  let widths := map String.length (labels_names l) in
  let? entries := labels_iter l in
  Ok ("Labels{" +++ end_of_line +++ "    " +++ join ", " (labels_names l) +++ end_of_line
      +++ debug_entries entries widths +++ "}" +++ end_of_line).
