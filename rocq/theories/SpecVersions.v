(* What is needed to state the properties of Versions.v *)
From Verif Require Import Base Versions.
Local Open Scope string_scope.
Local Open Scope list_scope.
Local Open Scope nat_scope.

(* the characters of versions in Cargo.toml (Semantic Versioning): digits, letters, . - + *)
Definition version_code (n : nat) : Prop :=
  48 <= n <= 57 \/ 65 <= n <= 90 \/ 97 <= n <= 122 \/ n = 46 \/ n = 45 \/ n = 43.
Definition version_text (v : string) : Prop :=
  Forall (fun c => version_code (nat_of_ascii c)) (list_ascii_of_string v).

(* a number in decimal *)
Definition number_text (v : string) : Prop :=
  v <> "" /\ Forall (fun c => 48 <= nat_of_ascii c <= 57) (list_ascii_of_string v).

(* three numbers *)
Definition numeric_version (v : string) : Prop :=
  exists major minor patch, number_text major /\ number_text minor /\ number_text patch
    /\ v = major +++ "." +++ minor +++ "." +++ patch.

Definition end_of_line : string := String "010"%char "".

(* the content of Cargo.toml: the first line which starts with "version" is
   version = "..." *)
Definition cargo_toml (before : list string) (v : string) (rest : list string) : list string :=
  before ++ ["version = " +++ quote +++ v +++ quote] ++ rest.
Definition first_version (before : list string) : Prop :=
  forall line, In line before -> String.prefix "version" line = false.

(* the lines as Python reads them *)
Definition with_ends (lines : list string) : list string := map (fun line => line +++ end_of_line) lines.

(* [part] is somewhere in [s] *)
Definition is_in (part s : string) : Prop := exists a b, s = a +++ part +++ b.

(* one word: no character is a space or an end of line *)
Definition space_code (n : nat) : Prop := n = 32 \/ 9 <= n <= 13.
Definition word (t : string) : Prop := Forall (fun c => ~ space_code (nat_of_ascii c)) (list_ascii_of_string t).

(* the commit from which the others are counted: the last tag; the first commit when there
   are no tags; none when git does not give it *)
Inductive counted_from (g : git) : string -> Prop :=
| from_tag tags tag : git_tag g = Some tags -> (exists c, In c (list_ascii_of_string tags) /\ ~ space_code (nat_of_ascii c)) ->
    git_describe g = Some (tag +++ end_of_line) -> word tag -> counted_from g tag
| from_start tags first : git_tag g = Some tags -> (forall c, In c (list_ascii_of_string tags) -> space_code (nat_of_ascii c)) ->
    git_roots g = Some (first +++ end_of_line) -> word first -> counted_from g first
| from_nothing : git_tag g = None -> counted_from g "".

(* the number of commits which git gives, None if it fails *)
Definition commits_since (g : git) (count : option string) : Prop :=
  exists reference, counted_from g reference
    /\ match count with
       | Some n => number_text n /\ git_count g (reference +++ "..HEAD") = Some (n +++ end_of_line)
       | None => git_count g (reference +++ "..HEAD") = None
       end.

(* versions: major, minor, patch *)
Definition version := (nat * nat * nat)%type.
Definition parts (v : version) : list nat := let '(major, minor, patch) := v in [major; minor; patch].
Definition older_or_same (a b : version) : Prop :=
  let '(a0, a1, a2) := a in let '(b0, b1, b2) := b in
  a0 < b0 \/ (a0 = b0 /\ (a1 < b1 \/ (a1 = b1 /\ a2 <= b2))).

(* Semantic Versioning: same major version, and same minor version when it is 0 *)
Definition same_interface (a b : version) : Prop :=
  let '(a0, a1, _) := a in let '(b0, b1, _) := b in a0 = b0 /\ (a0 = 0 -> a1 = b1).

(* the sizes of pointers are the same, or one is not known *)
Definition same_size (a b : option nat) : Prop := a = None \/ b = None \/ a = b.
