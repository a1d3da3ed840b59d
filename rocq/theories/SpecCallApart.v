(* What is written in the arrays which are created, for the calls which are made *)
From Verif Require Import Base Labels Array Block Tensor Callbacks SpecCallbacks.
Local Open Scope string_scope.
Local Open Scope list_scope.
Local Open Scope nat_scope.

(* move_samples_from with these samples and properties writes
   array[row, ..., property] (src/data.rs:144-165) *)
Definition writes (samples : list sample_mapping) (start stop row property : nat) : Prop :=
  In row (map sm_output samples) /\ start <= property < stop.

(* two calls to move_samples_from never write the same element of an array; in a call,
   two samples never go to the same place *)
Definition apart_moves (tr : trace) : Prop :=
  (forall before o i samples start stop an after, tr = before ++ (QMove o i samples start stop, an) :: after ->
     NoDup (map sm_output samples))
  /\ forall before o i1 samples1 start1 stop1 an1 between i2 samples2 start2 stop2 an2 after,
     tr = before ++ (QMove o i1 samples1 start1 stop1, an1) :: between ++ (QMove o i2 samples2 start2 stop2, an2) :: after ->
     Forall (fun '(c, an) => created c an <> Some o) between ->
     forall row property, writes samples1 start1 stop1 row property -> ~ writes samples2 start2 stop2 row property.
