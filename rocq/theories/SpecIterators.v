(* What iterators over tensor maps should give *)
From Verif Require Import Base Labels Tensor Spec SpecPyPrint Iterators.
Local Open Scope string_scope.
Local Open Scope list_scope.
Local Open Scope nat_scope.

(* the items of [t] in order: each key with what is given for its block *)
Definition items_of {B} (t : TensorMap) (blocks : list B) : list (list Z * B) := combine (rows (tm_keys t)) blocks.

(* the first answers of an iterator over these items: the items, then nothing *)
Definition first_answers {A} (items : list A) (times : nat) : list (option A) := map (nth_error items) (seq 0 times).

(* a way to divide [n] items: never after the end *)
Fixpoint divides (d : division) (n : nat) : Prop :=
  match d with
  | Together => True
  | Divided index first second => index <= n /\ divides first index /\ divides second (n - index)
  end.

(* the blocks after a change of each of them *)
Definition changed {B} (change : list Z -> B -> B) (t : TensorMap) (blocks : list B) : list B :=
  map (fun item => change (fst item) (snd item)) (items_of t blocks).

(* where the column of a name starts, in the Debug text of labels: every name before,
   with a comma and a blank *)
Definition column (names : list string) (j : nat) : nat :=
  fold_left (fun position name => position + String.length name + 2) (firstn j names) 4.

(* all the values are at most as long as the name of their column *)
Definition fitting (names : list string) (entry : list Z) : Prop :=
  Forall2 (fun name value => String.length (string_of_Z value) <= String.length name) names entry.

(* the word which ends at [stop] is in the middle of its column: the blanks before and
   after are as many, or there is one more after *)
Definition in_column (names : list string) (entry : list Z) (line : string) (j : nat) : Prop :=
  exists name value stop before,
    nth_error names j = Some name /\ nth_error entry j = Some value /\ nth_error (word_ends line) j = Some stop
    /\ stop = column names j + before + String.length (string_of_Z value)
    /\ (column names j + String.length name = stop + before \/ column names j + String.length name = stop + before + 1).
