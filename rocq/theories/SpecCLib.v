(* What the results of a program are for C107 to C109 *)
From Verif Require Import Base Npy PyIo SpecIo Declarations CLib.
Local Open Scope string_scope.
Local Open Scope list_scope.
Local Open Scope nat_scope.

(* the call [i] of a program, and its result *)
Definition called (m : machine) (program : list (disk * finder_call)) (i : nat) (d : disk) (c : finder_call) (r : finder_result)
  : Prop :=
  nth_error program i = Some (d, c) /\ nth_error (finder_run m finder_start program) i = Some r.

Definition gives_library (m : machine) (program : list (disk * finder_call)) (i : nat) (l : library) : Prop :=
  exists d, called m program i d GetLibrary (Library (Ok l)).

Definition sets_path (m : machine) (program : list (disk * finder_call)) (i : nat) (path : string) : Prop :=
  exists d, called m program i d (SetPath path) (PathSet (Ok tt)).

(* the platforms with a library *)
Definition known_platform (m : machine) : Prop :=
  exists rest, ma_platform m = "darwin" +++ rest \/ ma_platform m = "linux" +++ rest \/ ma_platform m = "win" +++ rest.

Definition is_windows (m : machine) : Prop := exists rest, ma_platform m = "win" +++ rest.

(* the library which comes with the Python code *)
Definition default_path (m : machine) (path : string) : Prop :=
  exists name, path = ma_here m +++ ma_separator m +++ "lib" +++ ma_separator m +++ name
    /\ exists rest, ma_platform m = "darwin" +++ rest /\ name = "libequistore.dylib"
                    \/ ma_platform m = "linux" +++ rest /\ name = "libequistore.so"
                    \/ ma_platform m = "win" +++ rest /\ name = "equistore.dll".

(* all the functions of the header *)
Definition all_functions (names : list string) : Prop :=
  forall name result params, In (CDeclare name result params) equistore_h -> In name names.

(* all functions have types, and panics are not printed *)
Definition set_up (l : library) : Prop := all_functions (li_declared l) /\ li_quiet l = true.

(* an unsigned number in a file *)
Definition stored_at (content : bytes) (position : nat) (count : nat) (z : Z) : Prop :=
  exists before middle after, content = before ++ middle ++ after /\ length before = position /\ length middle = count
    /\ little_endian middle z.

(* a DLL for this Python: MZ, the position of the other header at byte 60, and 4
   bytes after it the machine *)
Definition good_dll (m : machine) (content : bytes) : Prop :=
  (exists rest, content = "M"%char :: "Z"%char :: rest)
  /\ exists offset number, stored_at content 60 4 (Z.of_nat offset) /\ stored_at content (offset + 4) 2 number
       /\ (ma_architecture m = "32bit" /\ number = 332%Z \/ ma_architecture m = "64bit" /\ number = 34404%Z).

(* a file which can be used *)
Definition good_file (m : machine) (d : disk) (path : string) : Prop :=
  di_isfile d path = true
  /\ (is_windows m -> exists content, di_content d path = Some content /\ good_dll m content).
