(* What is needed to state the properties of Collector.v *)
From Verif Require Import Base Collector.
Local Open Scope list_scope.
Local Open Scope nat_scope.

(* the state after some events, if nothing undefined happened *)
Definition after (enabled : bool) (blocks : list (list bool)) (events : list event) (s : collector) : Prop :=
  execution (collector_start enabled blocks) events = Ok s.

(* where a thread is *)
Definition is_at (s : collector) (thread : nat) (p : place) : Prop :=
  exists t, nth_error (gc_threads s) thread = Some t /\ co_place t = p.

Definition ended (p : place) : Prop := match p with Finished _ | Raised => True | _ => False end.

(* it disabled the collector, and has to enable it again *)
Definition has_disabled (p : place) : Prop :=
  match p with Copying true _ _ | Taking true _ _ | Enabling _ => True | _ => False end.

(* the copy has started, and did not end yet *)
Definition in_copy (p : place) : Prop :=
  match p with Copying _ _ _ | Taking _ _ _ | Enabling _ | Undoing _ _ => True | _ => False end.

(* [e] happens in the state [s] *)
Definition happens_in (enabled : bool) (blocks : list (list bool)) (events : list event) (e : event) (s : collector) : Prop :=
  exists before rest, events = before ++ e :: rest /\ after enabled blocks before s.

(* gc.enable() is never called by a thread while another one copies a block *)
Definition separate_copies (enabled : bool) (blocks : list (list bool)) (events : list event) : Prop :=
  forall thread s taken other p,
    happens_in enabled blocks events (Step thread) s -> is_at s thread (Enabling taken) ->
    other <> thread -> is_at s other p -> ~ in_copy p.

(* gc.collect() is never called while a thread copies a block *)
Definition no_collect_in_copy (enabled : bool) (blocks : list (list bool)) (events : list event) : Prop :=
  forall s thread p, happens_in enabled blocks events Explicit s -> is_at s thread p -> ~ in_copy p.

(* all the copies: as many objects as arrays allocated by Python, which are alive, and not
   shared *)
Definition good_copies (blocks : list (list bool)) (s : collector) : Prop :=
  (forall thread taken arrays,
     is_at s thread (Finished taken) -> nth_error blocks thread = Some arrays ->
     NoDup taken /\ length taken = count_occ Bool.bool_dec arrays true
     /\ forall o, In o taken -> ~ In o (gc_freed s))
  /\ (forall thread taken other taken' o,
        thread <> other -> is_at s thread (Finished taken) -> is_at s other (Finished taken') ->
        In o taken -> ~ In o taken').
