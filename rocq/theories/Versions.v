(* Model of the version of the Python package (setup.py:82-149), of the one of CMake
   (CMakeLists.txt:9-16), and of the versions which CMake accepts
   (cmake/equistore-config-version.in.cmake). *)
From Verif Require Import Base.
Local Open Scope string_scope.
Local Open Scope list_scope.
Local Open Scope nat_scope.

(** * Python *)

(* str.split with a separator which is not empty: [word] is what was read since the last
   one *)
Fixpoint split_word (fuel : nat) (sep s word : string) : list string :=
  match fuel with
  | O => [word +++ s]
  | S fuel =>
      match s with
      | EmptyString => [word]
      | String c rest =>
          if String.prefix sep s then word :: split_word fuel sep (substring (String.length sep) (String.length s) s) ""
          else split_word fuel sep rest (word +++ String c "")
      end
  end.
Definition py_split (sep s : string) : list string := split_word (S (String.length s)) sep s "".

(* value[1:-2] *)
Definition py_unquote (value : string) : string := substring 1 (String.length value - 3) value.

(* str.strip, for ASCII *)
Definition is_space (c : ascii) : bool :=
  existsb (Ascii.eqb c) [" "%char; "009"%char; "010"%char; "011"%char; "012"%char; "013"%char].
Fixpoint strip_left (l : list ascii) : list ascii :=
  match l with
  | c :: rest => if is_space c then strip_left rest else l
  | [] => []
  end.
Definition py_strip (s : string) : string :=
  string_of_list_ascii (rev (strip_left (rev (strip_left (list_ascii_of_string s))))).

(* setup.py:91-100 -- the first line which starts with "version". The lines have the end of
   line. None is an exception: when there is none (UnboundLocalError), or when the line is
   not split in two (ValueError). *)
Fixpoint cargo_version (lines : list string) : option string :=
  match lines with
  | [] => None
  | line :: rest =>
      if String.prefix "version" line then
        match py_split " = " line with
        | [_; version] => Some (py_unquote version)
        | _ => None
        end
      else cargo_version rest
  end.

(* What git prints, None when it fails (or is not there): git tag, git rev-list
   --max-parents=0 HEAD, git describe --tags --abbrev=0, and git rev-list <range> --count *)
Record git := mk_git {
  git_tag : option string;
  git_roots : option string;
  git_describe : option string;
  git_count : string -> option string;
}.

(* setup.py:102-133 *)
Definition git_reference (g : git) : string :=
  match git_tag g with
  | None => ""
  | Some tags =>
      let answer := if String.eqb (py_strip tags) "" then git_roots g else git_describe g in
      match answer with Some reference => py_strip reference | None => "" end
  end.

(* setup.py:135-149 -- n_commits_since_tag is a string, which is never equal to 0 *)
Definition python_version (lines : list string) (g : git) : option string :=
  match cargo_version lines with
  | None => None
  | Some version =>
      Some match git_count g (git_reference g +++ "..HEAD") with
           | Some count => version +++ ".dev" +++ py_strip count
           | None => version
           end
  end.

(** * CMake *)

Definition is_digit (c : ascii) : bool := (48 <=? nat_of_ascii c) && (nat_of_ascii c <=? 57).

Fixpoint digits (s : string) : string * string :=
  match s with
  | String c rest =>
      if is_digit c then let '(d, rest) := digits rest in (String c d, rest) else ("", s)
  | EmptyString => ("", "")
  end.

(* the text after [prefix] *)
Fixpoint text_after (prefix s : string) : option string :=
  match prefix, s with
  | EmptyString, _ => Some s
  | String c prefix, String d s => if Ascii.eqb c d then text_after prefix s else None
  | String _ _, EmptyString => None
  end.

Definition quote : string := String "034"%char "".

(* CMakeLists.txt:11 -- the regular expression at the start of the text: gives the
   version *)
Definition match_version (s : string) : option string :=
  match text_after ("version = " +++ quote) s with
  | None => None
  | Some s =>
      let '(major, s) := digits s in
      match text_after "." s with
      | None => None
      | Some s =>
          let '(minor, s) := digits s in
          match text_after "." s with
          | None => None
          | Some s =>
              let '(patch, s) := digits s in
              match text_after quote s with
              | None => None
              | Some _ =>
                  if String.eqb major "" || String.eqb minor "" || String.eqb patch "" then None
                  else Some (major +++ "." +++ minor +++ "." +++ patch)
              end
          end
      end
  end.

(* string(REGEX REPLACE ...): the text before the first match stays, and the match goes to
   the end of the line. None when nothing matches (CMAKE_MATCH_COUNT is 0). *)
Fixpoint replace_version (s : string) : option string :=
  match match_version s with
  | Some version => Some version
  | None =>
      match s with
      | EmptyString => None
      | String c rest => match replace_version rest with Some t => Some (String c t) | None => None end
      end
  end.

(* CMakeLists.txt:9-16 -- the lines do not have the end of line. They are elements of a list
   of CMake: the ones with ; or brackets which are not closed are not modelled. None: the last
   line is used as the version, which is an error of project(). *)
Fixpoint cmake_version (lines : list string) : option string :=
  match lines with
  | [] => None
  | line :: rest => match replace_version line with Some version => Some version | None => cmake_version rest end
  end.

(** * find_package *)

(* VERSION_GREATER, VERSION_EQUAL: the components which are missing are 0 *)
Fixpoint version_compare (n : nat) (a b : list nat) : comparison :=
  match n with
  | O => Eq
  | S n => match Nat.compare (hd 0 a) (hd 0 b) with Eq => version_compare n (tl a) (tl b) | c => c end
  end.
Definition compare_versions (a b : list nat) : comparison := version_compare (Nat.max (length a) (length b)) a b.

(* find_package(equistore <requested> [EXACT]), with the file
   cmake/equistore-config-version.in.cmake (all its lines) for an installed version, and the
   sizes of pointers of both. The components which were not requested are 0. The last lines
   are what find_package does with these variables. *)
Definition find_package (exact : bool) (requested : list nat) (size : option nat) (installed : list nat) (installed_size : option nat) : bool :=
  let package_version_exact := match compare_versions requested installed with Eq => true | _ => false end in
  let package_version_compatible :=
    match compare_versions requested installed with
    | Gt => false
    | _ => if nth 0 installed 0 =? 0 then nth 1 requested 0 =? nth 1 installed 0
           else nth 0 requested 0 =? nth 0 installed 0
    end in
  let package_version_unsuitable :=
    match size, installed_size with Some a, Some b => negb (a =? b) | _, _ => false end in
  let okay := package_version_exact || (negb exact && package_version_compatible) in
  negb package_version_unsuitable && (okay || match requested with [] => true | _ => false end).
