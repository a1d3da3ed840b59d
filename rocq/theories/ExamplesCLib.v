(* Programs which look for the library, for C107 to C109 *)
From Verif Require Import Base Npy PyIo SpecIo Declarations CLib SpecCLib CLibFacts.
Local Open Scope string_scope.
Local Open Scope list_scope.
Local Open Scope nat_scope.

Definition ex_linux : machine := mk_machine "linux" "64bit" "/py/equistore" "/".
Definition ex_win : machine := mk_machine "win32" "64bit" "C:\equistore" "\".

(* a disk with one file; the loader gives the functions [exports] for all the paths *)
Definition ex_disk (path : string) (content : bytes) (exports : option (list string)) : disk :=
  mk_disk (String.eqb path) (fun p => if (path =? p)%string then Some content else None) (fun _ => exports).

Definition ex_so : string := "/py/equistore/lib/libequistore.so".
Definition ex_dll : string := "C:\equistore\lib\equistore.dll".

Definition ex_good : disk := ex_disk ex_so [] (Some function_names).
Definition ex_missing : disk := ex_disk "/elsewhere" [] None.
(* a library which is too old *)
Definition ex_old : disk := ex_disk ex_so [] (Some (firstn 5 function_names)).

(* a DLL for a machine *)
Definition ex_dll_content (number : Z) : bytes :=
  bytes_of "MZ" ++ repeat Ascii.zero 58 ++ low_bytes 4 64 ++ bytes_of "PE" ++ [Ascii.zero; Ascii.zero] ++ low_bytes 2 number ++ repeat Ascii.zero 20.

Definition ex_amd64 : disk := ex_disk ex_dll (ex_dll_content 34404) (Some function_names).
(* ARM64: the loader of a Python for this machine accepts it *)
Definition ex_arm64 : disk := ex_disk ex_dll (ex_dll_content 43620) (Some function_names).

(* the library of these disks *)
Definition ex_library (path : string) : library := mk_library path function_names function_names true.

Lemma ex_all_functions : all_functions function_names.
Proof. apply all_functions_spec. apply Forall_forall. auto. Qed.

(* twice the same library, when it is looked for again *)
Definition ex_program : list (disk * finder_call) :=
  [(ex_missing, SetPath "/custom/lib.so"); (ex_missing, GetLibrary); (ex_good, GetLibrary); (ex_missing, SetPath "/other.so"); (ex_missing, GetLibrary)].

Lemma ex_program_results :
  finder_run ex_linux finder_start ex_program
  = [PathSet (Ok tt); Library (exception "OSError"); Library (Ok (ex_library "/custom/lib.so"));
     PathSet (exception "Trying to set the EQUISTORE library path twice"); Library (Ok (ex_library "/custom/lib.so"))].
Proof. vm_compute. reflexivity. Qed.

Lemma ex_gives : gives_library ex_linux ex_program 2 (ex_library "/custom/lib.so").
Proof. exists ex_good. split; [reflexivity|]. rewrite ex_program_results. reflexivity. Qed.

Lemma ex_sets : sets_path ex_linux ex_program 0 "/custom/lib.so".
Proof. exists ex_missing. split; [reflexivity|]. rewrite ex_program_results. reflexivity. Qed.

(* the second call gives a library which is not set up *)
Lemma ex_not_set_up : exists m program i l, gives_library m program i l /\ ~ set_up l.
Proof.
  exists ex_linux, [(ex_old, GetLibrary); (ex_old, GetLibrary)], 1, (mk_library ex_so (firstn 5 function_names) (firstn 5 function_names) false).
  split; [|intros [_ H]; discriminate]. exists ex_old. split; [reflexivity|]. vm_compute. reflexivity.
Qed.

(* the second call does not check the file *)
Lemma ex_not_checked :
  exists m program i l,
    gives_library m program i l /\ (forall j d c, j < i -> nth_error program j = Some (d, c) -> c = GetLibrary)
    /\ ~ exists j d, j <= i /\ nth_error program j = Some (d, GetLibrary) /\ good_file m d (li_path l).
Proof.
  exists ex_win, [(ex_arm64, GetLibrary); (ex_arm64, GetLibrary)], 1, (ex_library ex_dll). split; [|split].
  - exists ex_arm64. split; [reflexivity|]. vm_compute. reflexivity.
  - intros j d c Hj H. destruct j as [|j]; [|lia]. injection H as _ <-. reflexivity.
  - intros (j & d & Hj & H & Hg). assert (d = ex_arm64) as -> by (destruct j as [|[|j]]; [cbn in H; congruence|cbn in H; congruence|lia]).
    destruct Hg as [_ Hg]. apply check_good in Hg; [vm_compute in Hg; discriminate|]. exists "32". reflexivity.
Qed.

Lemma ex_default : default_path ex_win ex_dll /\ default_path ex_linux ex_so.
Proof.
  split.
  - exists "equistore.dll". split; [reflexivity|]. exists "32". auto 6.
  - exists "libequistore.so". split; [reflexivity|]. exists "". auto.
Qed.

Lemma ex_good_dll : good_file ex_win ex_amd64 ex_dll.
Proof. split; [vm_compute; reflexivity|]. intros _. apply check_good. vm_compute. reflexivity. Qed.
