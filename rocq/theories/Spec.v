(* Specification vocabulary, part 1: labels.

   The definitions of this file do not use the functions of the model which are
   being specified, only its data types. *)
From Coq Require Import Permutation.
From Verif Require Import Base Labels.
Local Open Scope list_scope.
Local Open Scope nat_scope.

(** * Identifiers *)

Definition is_letter_code (n : nat) : Prop := (65 <= n <= 90) \/ (97 <= n <= 122).
Definition is_digit_code (n : nat) : Prop := 48 <= n <= 57.
Definition is_underscore_code (n : nat) : Prop := n = 95.

(* the character codes of a string *)
Definition codes (s : string) : list nat := map nat_of_ascii (list_ascii_of_string s).

(* ASCII identifiers: a letter or underscore, followed by letters, digits and
   underscores *)
Definition identifier (s : string) : Prop :=
  exists c rest,
    codes s = c :: rest
    /\ (is_letter_code c \/ is_underscore_code c)
    /\ Forall (fun c => is_letter_code c \/ is_digit_code c \/ is_underscore_code c) rest.

(** * Labels *)

(* what users are allowed to put in Labels *)
Definition good_names (names : list string) : Prop :=
  Forall identifier names /\ NoDup names.

Definition good_rows (n : nat) (rows : list (list Z)) : Prop :=
  Forall (fun r => length r = n) rows /\ NoDup rows.

(* [l] holds exactly these names and rows, in this order, with a hash index
   (in any internal order) from every row to its position *)
Definition is_labels (l : Labels) (names : list string) (rows : list (list Z)) : Prop :=
  good_names names
  /\ good_rows (length names) rows
  /\ (names = [] -> rows = [])
  /\ l_names l = names
  /\ l_values l = concat rows
  /\ Permutation (l_positions l) (combine rows (seq 0 (length rows))).

Definition wf_labels (l : Labels) : Prop := exists names rows, is_labels l names rows.

(* the rows of [l], read from its flat list of values *)
Fixpoint take_rows (count n : nat) (values : list Z) : list (list Z) :=
  match count with
  | O => []
  | S count => firstn n values :: take_rows count n (skipn n values)
  end.

Definition rows (l : Labels) : list (list Z) :=
  take_rows (length (l_values l) / length (l_names l)) (length (l_names l)) (l_values l).

(* same names and rows, whatever the internal order of the hash index *)
Definition same_labels (l1 l2 : Labels) : Prop :=
  l_names l1 = l_names l2 /\ rows l1 = rows l2.
