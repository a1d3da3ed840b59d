(* Properties C107 to C109: how Python finds the library *)
From Verif Require Import Base Npy PyIo SpecIo Declarations CLib SpecCLib CLibFacts ExamplesCLib.
Local Open Scope string_scope.
Local Open Scope list_scope.
Local Open Scope nat_scope.

(* C107: once there is a library, it is always given *)
Theorem C107_one_library :
  forall m program i l,
    gives_library m program i l ->
    (forall j d r, i <= j -> called m program j d GetLibrary (Library r) -> r = Ok l)
    /\ (forall j l', gives_library m program j l' -> l' = l).
Proof. exact one_library. Qed.
Print Assumptions C107_one_library.

(* C107: the path is set once, before there is any library, and is the one of the
   library *)
Theorem C107_path_is_used :
  forall m program i path,
    sets_path m program i path ->
    (forall j path', sets_path m program j path' -> j = i) /\ (forall j l, gives_library m program j l -> i < j /\ li_path l = path).
Proof. exact path_used. Qed.
Print Assumptions C107_path_is_used.

(* C107: exactly when the path can be set *)
Theorem C107_when_the_path_can_be_set :
  forall m program i d path r,
    called m program i d (SetPath path) (PathSet r) ->
    (r = Ok tt <-> i = 0 \/ ~ known_platform m /\ forall j d' c, j < i -> nth_error program j = Some (d', c) -> c = GetLibrary)
    /\ (r = Ok tt \/ exists e, r = Err e).
Proof. exact path_can_be_set. Qed.
Print Assumptions C107_when_the_path_can_be_set.

(* C107: otherwise this is the library next to the Python code *)
Theorem C107_default_path :
  forall m program i l,
    gives_library m program i l -> (forall j d c, j < i -> nth_error program j = Some (d, c) -> c = GetLibrary) ->
    default_path m (li_path l).
Proof. exact path_by_default. Qed.
Print Assumptions C107_default_path.

Example C107_example :
  sets_path ex_linux ex_program 0 "/custom/lib.so" /\ gives_library ex_linux ex_program 2 (ex_library "/custom/lib.so")
  /\ called ex_linux ex_program 3 ex_missing (SetPath "/other.so") (PathSet (exception "Trying to set the EQUISTORE library path twice"))
  /\ called ex_linux ex_program 4 ex_missing GetLibrary (Library (Ok (ex_library "/custom/lib.so")))
  /\ gives_library ex_linux [(ex_good, GetLibrary)] 0 (ex_library ex_so) /\ default_path ex_linux ex_so.
Proof.
  split; [exact ex_sets|]. split; [exact ex_gives|]. split; [split; [reflexivity|rewrite ex_program_results; reflexivity]|].
  split; [split; [reflexivity|rewrite ex_program_results; reflexivity]|].
  split; [exists ex_good; split; [reflexivity|vm_compute; reflexivity]|apply ex_default].
Qed.

(* C108. The full statement: every library which is given is set up. This is proved
   here if no earlier call raised, or if all the libraries have all the functions. *)
Theorem C108_library_is_set_up_partial :
  forall m program i l,
    gives_library m program i l ->
    (forall j d r, j < i -> called m program j d GetLibrary (Library r) -> exists l, r = Ok l)
    \/ (forall d c path exports, In (d, c) program -> di_load d path = Some exports -> all_functions exports) ->
    set_up l.
Proof. exact library_set_up. Qed.
Print Assumptions C108_library_is_set_up_partial.

Example C108_example :
  gives_library ex_linux ex_program 2 (ex_library "/custom/lib.so")
  /\ (forall d c path exports, In (d, c) ex_program -> di_load d path = Some exports -> all_functions exports)
  /\ length (li_declared (ex_library "/custom/lib.so")) = 23.
Proof.
  split; [exact ex_gives|]. split; [|vm_compute; reflexivity]. intros d c path exports Hin.
  repeat destruct Hin as [H|Hin]; try contradiction; injection H as <- <-; cbn [di_load ex_missing ex_good ex_disk]; try discriminate.
  intros H. injection H as <-. exact ex_all_functions.
Qed.

(* C108 is false for the second call, with a library without all the functions *)
Theorem C108_second_call_refuted : exists m program i l, gives_library m program i l /\ ~ set_up l.
Proof. exact ex_not_set_up. Qed.
Print Assumptions C108_second_call_refuted.

(* C109: exactly when the first call gives a library *)
Theorem C109_first_call :
  forall m program d r,
    called m program 0 d GetLibrary (Library r) ->
    ((exists l, r = Ok l)
     <-> exists path exports, default_path m path /\ good_file m d path /\ di_load d path = Some exports /\ all_functions exports)
    /\ ((exists l, r = Ok l) \/ exists e, r = Err e).
Proof. exact first_library. Qed.
Print Assumptions C109_first_call.

(* C109. The full statement: the file of a library which is given, without setting
   its path, was checked. This is proved here if no earlier call raised. *)
Theorem C109_library_is_checked_partial :
  forall m program i l,
    gives_library m program i l -> (forall j d c, j < i -> nth_error program j = Some (d, c) -> c = GetLibrary) ->
    (forall j d r, j < i -> called m program j d GetLibrary (Library r) -> exists l, r = Ok l) ->
    default_path m (li_path l) /\ exists d, nth_error program 0 = Some (d, GetLibrary) /\ good_file m d (li_path l).
Proof. exact library_checked. Qed.
Print Assumptions C109_library_is_checked_partial.

Example C109_example :
  good_file ex_win ex_amd64 ex_dll
  /\ called ex_win [(ex_amd64, GetLibrary); (ex_arm64, GetLibrary)] 0 ex_amd64 GetLibrary (Library (Ok (ex_library ex_dll)))
  /\ called ex_win [(ex_amd64, GetLibrary); (ex_arm64, GetLibrary)] 1 ex_arm64 GetLibrary (Library (Ok (ex_library ex_dll)))
  /\ (exists e, called ex_win [(ex_arm64, GetLibrary)] 0 ex_arm64 GetLibrary (Library (Err e)))
  /\ (exists e, called ex_win [(ex_missing, GetLibrary)] 0 ex_missing GetLibrary (Library (Err e))).
Proof.
  split; [exact ex_good_dll|]. split; [split; [reflexivity|vm_compute; reflexivity]|]. split; [split; [reflexivity|vm_compute; reflexivity]|].
  split; eexists; (split; [reflexivity|vm_compute; reflexivity]).
Qed.

(* C109 is false for the second call, which does not check the file *)
Theorem C109_second_call_refuted :
  exists m program i l,
    gives_library m program i l /\ (forall j d c, j < i -> nth_error program j = Some (d, c) -> c = GetLibrary)
    /\ ~ exists j d, j <= i /\ nth_error program j = Some (d, GetLibrary) /\ good_file m d (li_path l).
Proof. exact ex_not_checked. Qed.
Print Assumptions C109_second_call_refuted.
