(* What a reader sees in a printed text: lines, words spaced by blanks, quoted names,
   and where they are in the line *)
From Verif Require Import Base.
Local Open Scope string_scope.
Local Open Scope list_scope.
Local Open Scope nat_scope.

(* the pieces of [s] between the occurrences of [c] *)
Fixpoint pieces (c : ascii) (s : string) : list string :=
  match s with
  | "" => [""]
  | String a s =>
      if (a =? c)%char then "" :: pieces c s
      else match pieces c s with
           | [] => [String a ""]
           | w :: r => String a w :: r
           end
  end.

Definition line_end : ascii := ascii_of_nat 10.
Definition quote_mark : ascii := "'"%char.

Definition lines (s : string) : list string := pieces line_end s.
Definition words (s : string) : list string := filter (fun w => negb (w =? "")%string) (pieces " " s).

(* where the words of a line end: the number of characters up to the end of the word *)
Fixpoint ends_from (pos : nat) (in_word : bool) (s : string) : list nat :=
  match s with
  | "" => if in_word then [pos] else []
  | String a s =>
      if (a =? " ")%char then (if in_word then [pos] else []) ++ ends_from (S pos) false s
      else ends_from (S pos) true s
  end.
Definition word_ends (s : string) : list nat := ends_from 0 false s.

(* the positions of the quotes in a line *)
Fixpoint quotes_from (pos : nat) (s : string) : list nat :=
  match s with
  | "" => []
  | String a s => if (a =? quote_mark)%char then pos :: quotes_from (S pos) s else quotes_from (S pos) s
  end.
Fixpoint in_pairs (l : list nat) : list (nat * nat) :=
  match l with
  | a :: b :: l => (a, b) :: in_pairs l
  | _ => []
  end.
(* opening and closing quotes *)
Definition quoted_at (s : string) : list (nat * nat) := in_pairs (quotes_from 0 s).

(* the last character of every word of [line] is under the quoted name with the same
   position in [header], quotes included *)
Definition aligned (header line : string) : Prop :=
  Forall2 (fun span stop => fst span < stop <= snd span + 1) (quoted_at header) (word_ends line).

(* there is a blank between the values of an entry: the text of a value is shorter than
   half of the name before and half of the own name, quotes and blank included *)
Definition half (name : string) : nat := (String.length name + 3) / 2.
Fixpoint spaced (names : list string) (entry : list Z) : Prop :=
  match names, entry with
  | n :: (m :: _) as names, _ :: (v :: _) as entry =>
      String.length (string_of_Z v) < half n + half m /\ spaced names entry
  | _, _ => True
  end.

(* the first value starts inside of the line *)
Definition starts_inside (names : list string) (entry : list Z) : Prop :=
  match names, entry with
  | n :: _, v :: _ => String.length (string_of_Z v) <= 7 + half n
  | _, _ => True
  end.

(* the names with an even number of characters *)
Definition even_names (names : list string) : nat := length (filter (fun n => Nat.even (String.length n)) names).

(* every name is wide enough for the names of even length before *)
Definition wide_names (names : list string) : Prop :=
  forall j name, nth_error names j = Some name -> even_names (firstn j names) < half name.

(* the first lines for keys with these names *)
Definition title (n : nat) : string := "TensorMap with " +++ string_of_nat n +++ " blocks".
Definition names_line (names : list string) : string :=
  "keys: [" +++ join " " (map (fun n => "'" +++ n +++ "'") names).

(* the line with the names of [n] entries; there is a blank at the end if there is nothing below *)
Definition header_line (names : list string) (n : nat) : string :=
  names_line names +++ (if n =? 0 then " ]" else "]").

(* the line of an entry: its words are the values, in order *)
Definition shows (line : string) (entry : list Z) : Prop := words line = map string_of_Z entry.

(* the text of blocks *)
Definition names_list (names : list string) : string :=
  "[" +++ join ", " (map (fun n => "'" +++ n +++ "'") names) +++ "]".
Definition in_lines (l : list string) : string := join (String line_end "") l.
Definition unquoted (s : string) : Prop := ~ In quote_mark (list_ascii_of_string s).
