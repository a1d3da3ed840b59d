(* Properties C124 to C126: versions in Python and CMake *)
From Verif Require Import Base Versions SpecVersions VersionsFacts ExamplesVersions.
Local Open Scope string_scope.
Local Open Scope list_scope.
Local Open Scope nat_scope.

(* C124: the version of the Python package is the one of Cargo.toml, followed by .dev and the
   number of commits since the last tag. The full statement only has .dev when this number is
   not 0. *)
Theorem C124_python_version_partial :
  forall before v rest g count,
    first_version before -> version_text v -> commits_since g count ->
    python_version (with_ends (cargo_toml before v rest)) g
    = Some (match count with Some n => v +++ ".dev" +++ n | None => v end).
Proof. exact python_version_exact. Qed.
Print Assumptions C124_python_version_partial.

(* C124 is false: released versions are also development versions *)
Theorem C124_released_version_refuted :
  exists lines v g,
    python_version lines ex_no_git = Some v /\ commits_since g (Some "0") /\ python_version lines g <> Some v.
Proof.
  exists (with_ends (cargo_toml ex_cargo_before "0.12.3" ex_cargo_rest)), "0.12.3", ex_released.
  split; [vm_compute; reflexivity|]. split; [exact ex_released_count|]. vm_compute. discriminate.
Qed.
Print Assumptions C124_released_version_refuted.

Example C124_example :
  first_version ex_cargo_before /\ version_text "0.12.3"
  /\ commits_since ex_released (Some "0") /\ commits_since ex_no_tag (Some "41") /\ commits_since ex_no_git None
  /\ python_version (with_ends (cargo_toml ex_cargo_before "0.12.3" ex_cargo_rest)) ex_released = Some "0.12.3.dev0"
  /\ python_version (with_ends (cargo_toml ex_cargo_before "0.12.3" ex_cargo_rest)) ex_developed = Some "0.12.3.dev12"
  /\ python_version (with_ends (cargo_toml ex_cargo_before "0.12.3" ex_cargo_rest)) ex_no_tag = Some "0.12.3.dev41"
  /\ python_version (with_ends (cargo_toml ex_cargo_before "0.12.3" ex_cargo_rest)) ex_no_git = Some "0.12.3"
  /\ python_version (with_ends (cargo_toml ex_cargo_before "0.12.3-rc.1" ex_cargo_rest)) ex_two_roots = Some "0.12.3-rc.1"
  (* without spaces, or without the end of line *)
  /\ python_version (with_ends ["[package]"; "version=" +++ quote +++ "0.12.3" +++ quote]) ex_no_git = None
  /\ python_version ["[package]" +++ end_of_line; "version = " +++ quote +++ "0.12.3" +++ quote] ex_no_git = Some "0.12.".
Proof.
  split; [exact ex_cargo_first|]. split; [exact (numeric_version_text _ ex_numeric)|].
  split; [exact ex_released_count|]. split; [exact ex_no_tag_count|]. split; [exact ex_no_git_count|].
  repeat split; vm_compute; reflexivity.
Qed.

(* C125: CMake and Python use the same version, without the number of commits, when it is
   made of three numbers and no line before has a version. The full statement has no condition
   on these lines. *)
Theorem C125_same_version_partial :
  forall before v rest g,
    first_version before -> (forall line, In line before -> ~ is_in ("version = " +++ quote) line) ->
    numeric_version v -> commits_since g None ->
    cmake_version (cargo_toml before v rest) = Some v
    /\ python_version (with_ends (cargo_toml before v rest)) g = Some v.
Proof. exact versions_agree. Qed.
Print Assumptions C125_same_version_partial.

(* C125 is false when a key which ends with "version" is before *)
Theorem C125_same_version_refuted :
  exists before v rest g,
    first_version before /\ numeric_version v /\ commits_since g None
    /\ python_version (with_ends (cargo_toml before v rest)) g = Some v
    /\ cmake_version (cargo_toml before v rest) = Some "rust-1.53.0".
Proof.
  exists (ex_cargo_before ++ ["rust-version = " +++ quote +++ "1.53.0" +++ quote]), "0.12.3", ex_cargo_rest, ex_no_git.
  split; [intros line Hl; repeat (destruct Hl as [<-|Hl]; [reflexivity|]); destruct Hl|].
  split; [exact ex_numeric|]. split; [exact ex_no_git_count|]. repeat split; vm_compute; reflexivity.
Qed.
Print Assumptions C125_same_version_refuted.

Example C125_example :
  first_version ex_cargo_before /\ (forall line, In line ex_cargo_before -> ~ is_in ("version = " +++ quote) line)
  /\ numeric_version "0.12.3" /\ commits_since ex_no_git None
  /\ cmake_version (cargo_toml ex_cargo_before "0.12.3" ex_cargo_rest) = Some "0.12.3"
  (* versions which are not three numbers *)
  /\ cmake_version (cargo_toml ex_cargo_before "0.12.3-rc.1" ex_cargo_rest) = None.
Proof.
  split; [exact ex_cargo_first|]. split; [exact ex_cargo_no_version|]. split; [exact ex_numeric|]. split; [exact ex_no_git_count|].
  repeat split; vm_compute; reflexivity.
Qed.

(* C126: find_package accepts a version exactly when it is not older than the requested one
   and has the same interface, with the same size of pointers *)
Theorem C126_find_package :
  forall requested installed size installed_size,
    find_package false (parts requested) size (parts installed) installed_size = true
    <-> older_or_same requested installed /\ same_interface requested installed /\ same_size size installed_size.
Proof. exact find_package_iff. Qed.
Print Assumptions C126_find_package.

(* C126: with EXACT, it has to be the same version *)
Theorem C126_find_package_exact :
  forall requested installed size installed_size,
    find_package true (parts requested) size (parts installed) installed_size = true
    <-> requested = installed /\ same_size size installed_size.
Proof. exact find_package_exact. Qed.
Print Assumptions C126_find_package_exact.

(* C126: the numbers which are not given are 0 *)
Theorem C126_find_package_short :
  forall exact requested size installed installed_size,
    requested <> [] -> length requested <= 3 ->
    find_package exact requested size (parts installed) installed_size
    = find_package exact (parts (nth 0 requested 0, nth 1 requested 0, nth 2 requested 0)) size (parts installed) installed_size.
Proof. exact find_package_short. Qed.
Print Assumptions C126_find_package_short.

(* C126: any version is accepted when none is requested *)
Theorem C126_find_package_any :
  forall exact size installed installed_size,
    find_package exact [] size (parts installed) installed_size = true <-> same_size size installed_size.
Proof. exact find_package_any. Qed.
Print Assumptions C126_find_package_any.

Example C126_example :
  find_package false [0; 2] (Some 8) [0; 2; 5] (Some 8) = true
  /\ find_package false [0; 2] (Some 8) [0; 3; 0] (Some 8) = false
  /\ find_package false [0; 2; 6] (Some 8) [0; 2; 5] (Some 8) = false
  /\ find_package false [1; 2] (Some 8) [1; 7; 0] None = true
  /\ find_package false [1; 2] (Some 8) [2; 0; 0] None = false
  /\ find_package false [0; 2] (Some 4) [0; 2; 5] (Some 8) = false
  /\ find_package true [0; 2] (Some 8) [0; 2; 0] (Some 8) = true
  /\ find_package true [0; 2] (Some 8) [0; 2; 5] (Some 8) = false
  /\ find_package false [0] (Some 8) [0; 2; 5] (Some 8) = false.
Proof. repeat split; reflexivity. Qed.
