(* Concrete arrays and their text *)
From Coq Require Import NArith.
From Verif Require Import Base Labels Array Origin ArrayText SpecArrayText.
Local Open Scope string_scope.
Local Open Scope list_scope.
Local Open Scope nat_scope.

Definition at_registry : registry := ["unregistered origin"; "my ""arrays"""; "C:\other"].
Definition at_foreign (id : nat) (origin shape : callback) : eqs_array :=
  mk_array (ForeignArray id) (mk_nd [3; 10; 0] []) [] (fun op => match op with OpOrigin => origin | OpShape => shape | _ => Missing end).

Lemma at_missing : exists r p a m, r = registry_start /\ p <> 0%N /\ (forall op, op <> OpOrigin -> a_callbacks a op = Works) /\ snd (array_text r p a) = Panic m.
Proof.
  exists registry_start, 16%N, (mk_array (ForeignArray 0) (mk_nd [] []) [] (fun op => match op with OpOrigin => Missing | _ => Works end)). eexists.
  split; [reflexivity|]. split; [discriminate|]. split; [intros [] H; try reflexivity; congruence|]. vm_compute. reflexivity.
Qed.
