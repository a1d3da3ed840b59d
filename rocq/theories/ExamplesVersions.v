(* Concrete values for the properties of Versions.v *)
From Verif Require Import Base Versions SpecVersions VersionsFacts.
Local Open Scope string_scope.
Local Open Scope list_scope.
Local Open Scope nat_scope.

(* Cargo.toml:1-15 *)
Definition ex_cargo_before : list string := ["[package]"; "name = " +++ quote +++ "equistore" +++ quote].
Definition ex_cargo_rest : list string :=
  ["edition = " +++ quote +++ "2021" +++ quote; ""; "[lib]"; "bench = false"; ""; "[dependencies]";
   "ahash = " +++ quote +++ "0.7" +++ quote; "smallvec = {version = " +++ quote +++ "1" +++ quote +++ "}"].

Lemma ex_cargo_first : first_version ex_cargo_before.
Proof. intros line [<-|[<-|[]]]; reflexivity. Qed.

Fixpoint is_inb (part s : string) : bool :=
  String.prefix part s || match s with EmptyString => false | String _ rest => is_inb part rest end.

Lemma is_in_inb part s : is_in part s -> is_inb part s = true.
Proof.
  intros (a & b & ->). induction a as [|c a IH].
  - cbn [String.append]. destruct (part +++ b) eqn:E; cbn [is_inb]; rewrite <- E, prefix_app; reflexivity.
  - cbn [String.append is_inb]. rewrite IH. apply orb_true_r.
Qed.

Lemma ex_cargo_no_version : forall line, In line ex_cargo_before -> ~ is_in ("version = " +++ quote) line.
Proof. intros line Hl H. apply is_in_inb in H. destruct Hl as [<-|[<-|[]]]; vm_compute in H; discriminate H. Qed.

Lemma ex_numeric : numeric_version "0.12.3".
Proof.
  exists "0", "12", "3". unfold number_text. repeat split; try discriminate; repeat constructor; vm_compute; lia.
Qed.

(* git without changes since the last tag, with 12 commits, and without tags *)
Definition ex_released : git :=
  mk_git (Some ("v0.11.0" +++ end_of_line +++ "v0.12.3" +++ end_of_line)) None (Some ("v0.12.3" +++ end_of_line))
    (fun range => if String.eqb range "v0.12.3..HEAD" then Some ("0" +++ end_of_line) else None).
Definition ex_developed : git :=
  mk_git (Some ("v0.12.3" +++ end_of_line)) None (Some ("v0.12.3" +++ end_of_line))
    (fun range => if String.eqb range "v0.12.3..HEAD" then Some ("12" +++ end_of_line) else None).
Definition ex_no_tag : git :=
  mk_git (Some "") (Some ("f28ff4e" +++ end_of_line)) None
    (fun range => if String.eqb range "f28ff4e..HEAD" then Some ("41" +++ end_of_line) else None).
Definition ex_no_git : git := mk_git None None None (fun _ => None).

(* two first commits: the range has two lines, and git fails *)
Definition ex_two_roots : git :=
  mk_git (Some "") (Some ("f28ff4e" +++ end_of_line +++ "0a1b2c3" +++ end_of_line)) None
    (fun range => if String.eqb range "f28ff4e..HEAD" then Some ("41" +++ end_of_line) else None).

Lemma ex_word t : forallb (fun c => negb (is_space c)) (list_ascii_of_string t) = true -> word t.
Proof.
  intros H. apply Forall_forall. intros c Hc Hs. rewrite forallb_forall in H. specialize (H c Hc). apply is_space_iff in Hs. rewrite Hs in H. discriminate H.
Qed.

Lemma ex_released_count : commits_since ex_released (Some "0").
Proof.
  exists "v0.12.3". split.
  - eapply from_tag; [reflexivity| |reflexivity|apply ex_word; reflexivity]. exists "v"%char. split; [left; reflexivity|]. unfold space_code. vm_compute. lia.
  - split; [|reflexivity]. split; [discriminate|]. repeat constructor; vm_compute; lia.
Qed.

Lemma ex_no_tag_count : commits_since ex_no_tag (Some "41").
Proof.
  exists "f28ff4e". split; [eapply from_start; [reflexivity|intros c []|reflexivity|apply ex_word; reflexivity]|].
  split; [|reflexivity]. split; [discriminate|]. repeat constructor; vm_compute; lia.
Qed.

Lemma ex_no_git_count : commits_since ex_no_git None.
Proof. exists "". split; [apply from_nothing; reflexivity|reflexivity]. Qed.
