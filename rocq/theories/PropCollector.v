(* Properties C122 and C123: copies of blocks in Python and the garbage collector *)
From Verif Require Import Base Collector SpecCollector CollectorFacts ExamplesCollector.
Local Open Scope list_scope.
Local Open Scope nat_scope.

(* C122: once all the copies have ended, the collector is enabled when it was before. It
   can only stay disabled if an exception was raised between gc.disable() and gc.enable().
   The full statement has no such case. *)
Theorem C122_collector_restored_partial :
  forall enabled blocks events s,
    after enabled blocks events s ->
    (forall thread p, is_at s thread p -> ended p) ->
    gc_enabled s = enabled
    \/ (enabled = true
        /\ exists thread s0 p, happens_in enabled blocks events (Raise thread) s0 /\ is_at s0 thread p /\ has_disabled p).
Proof. exact enabled_at_the_end. Qed.
Print Assumptions C122_collector_restored_partial.

(* C122: without exceptions it always is *)
Theorem C122_collector_restored_without_exceptions :
  forall enabled blocks events s,
    after enabled blocks events s -> (forall thread, ~ In (Raise thread) events) ->
    (forall thread p, is_at s thread p -> ended p) ->
    gc_enabled s = enabled.
Proof. exact enabled_without_exceptions. Qed.
Print Assumptions C122_collector_restored_without_exceptions.

(* C122: with one copy, the condition is exact *)
Theorem C122_collector_restored_iff :
  forall enabled arrays events s,
    after enabled [arrays] events s ->
    (forall thread p, is_at s thread p -> ended p) ->
    (gc_enabled s = enabled <->
     ~ (enabled = true
        /\ exists thread s0 p, happens_in enabled [arrays] events (Raise thread) s0 /\ is_at s0 thread p /\ has_disabled p)).
Proof. exact single_enabled_iff. Qed.
Print Assumptions C122_collector_restored_iff.

(* C122 is false with exceptions *)
Theorem C122_collector_restored_refuted :
  exists enabled blocks events s,
    after enabled blocks events s /\ (forall thread p, is_at s thread p -> ended p) /\ gc_enabled s <> enabled.
Proof.
  exists true, ex_blocks, ex_raising, ex_raising_state. split; [exact ex_raising_after|]. split; [|discriminate].
  intros [|[|thread]] p (t & Ht & <-); try (injection Ht as <-; exact I). destruct thread; discriminate Ht.
Qed.
Print Assumptions C122_collector_restored_refuted.

Example C122_example :
  after true ex_blocks ex_apart ex_apart_state
  /\ (forall thread, ~ In (Raise thread) ex_apart)
  /\ (forall thread p, is_at ex_apart_state thread p -> ended p)
  /\ gc_enabled ex_apart_state = true
  /\ (exists s, after true ex_blocks (firstn 6 ex_apart) s /\ gc_enabled s = false)
  (* an exception before gc.disable() changes nothing *)
  /\ (exists s, after true [[true]] [Step 0; Raise 0] s /\ is_at s 0 Raised /\ gc_enabled s = true)
  (* nor when the collector was disabled *)
  /\ (exists s, after false [[true]] [Step 0; Step 0; Raise 0; Step 0; Step 0] s /\ is_at s 0 Raised /\ gc_enabled s = false).
Proof.
  split; [exact ex_apart_after|]. split.
  { intros thread H. repeat (destruct H as [H|H]; [discriminate H|]). exact H. }
  split.
  { intros [|[|thread]] p (t & Ht & <-); try (injection Ht as <-; exact I). destruct thread; discriminate Ht. }
  split; [reflexivity|]. split; [eexists; split; vm_compute; reflexivity|].
  split; eexists; (split; [vm_compute; reflexivity|]; split; [eexists; split; reflexivity|reflexivity]).
Qed.

(* C123: no object is used after it was freed, and each copy has its own objects, one for
   each array allocated by Python, which are all alive. This needs that no thread enables the
   collector, and none calls gc.collect(), while another one copies a block. The full
   statement has no such conditions. *)
Theorem C123_copies_alive_partial :
  forall enabled blocks events,
    separate_copies enabled blocks events -> no_collect_in_copy enabled blocks events ->
    exists s, after enabled blocks events s /\ good_copies blocks s.
Proof. exact copies_are_good. Qed.
Print Assumptions C123_copies_alive_partial.

(* C123: one thread which copies, with collections at any time *)
Theorem C123_copies_alive_single :
  forall enabled arrays events,
    no_collect_in_copy enabled [arrays] events ->
    exists s, after enabled [arrays] events s /\ good_copies [arrays] s.
Proof. exact single_copy_good. Qed.
Print Assumptions C123_copies_alive_single.

(* C123: any number of threads, when the collector was disabled before *)
Theorem C123_copies_alive_disabled :
  forall blocks events,
    no_collect_in_copy false blocks events ->
    exists s, after false blocks events s /\ good_copies blocks s.
Proof. exact disabled_copies_good. Qed.
Print Assumptions C123_copies_alive_disabled.

(* C123 is false when two threads copy at the same time, even without calls to gc.collect() *)
Theorem C123_copies_alive_refuted :
  exists blocks events reason,
    ~ In Explicit events /\ (forall thread, ~ In (Raise thread) events)
    /\ execution (collector_start true blocks) events = Undefined reason.
Proof.
  exists ex_blocks, (ex_together ++ [Step 1]), "object used after it was freed"%string.
  split; [intros H; repeat (destruct H as [H|H]; [discriminate H|]); exact H|].
  split; [intros thread H; repeat (destruct H as [H|H]; [discriminate H|]); exact H|]. exact ex_together_undefined.
Qed.
Print Assumptions C123_copies_alive_refuted.

(* C123 is false when gc.collect() is called during a copy, with only one *)
Theorem C123_copy_alive_with_collect_refuted :
  exists arrays events reason,
    (forall thread, ~ In (Raise thread) events)
    /\ execution (collector_start true [arrays]) events = Undefined reason.
Proof.
  exists [true], [Step 0; Step 0; Step 0; Explicit; Step 0; Step 0], "object used after it was freed"%string.
  split; [intros thread H; repeat (destruct H as [H|H]; [discriminate H|]); exact H|]. exact ex_collect_undefined.
Qed.
Print Assumptions C123_copy_alive_with_collect_refuted.

Example C123_example :
  separate_copies true ex_blocks ex_apart /\ no_collect_in_copy true ex_blocks ex_apart
  /\ after true ex_blocks ex_apart ex_apart_state
  /\ is_at ex_apart_state 1 (Finished [1; 2; 3])
  /\ ~ separate_copies true ex_blocks ex_together
  (* the same collections without disabling the collector would free the object *)
  /\ gc_freed (collect (mk_collector true 1 [] [mk_copier [true; false] (Copying true [false] [0])])) = [0].
Proof.
  split; [exact (proj1 ex_apart_separate)|]. split; [exact (proj2 ex_apart_separate)|]. split; [exact ex_apart_after|].
  split; [eexists; split; reflexivity|]. split; [exact ex_together_not_separate|reflexivity].
Qed.
