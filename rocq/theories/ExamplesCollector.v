(* Concrete executions for the properties of Collector.v *)
From Verif Require Import Base Collector SpecCollector CollectorFacts.
Local Open Scope list_scope.
Local Open Scope nat_scope.

(* two threads copy blocks with one array of Python for the values, and one gradient which
   was allocated by Rust for the first block; the second block has two gradients of Python *)
Definition ex_blocks : list (list bool) := [[true; false]; [true; true; true]].

(* one after the other, with collections between the steps *)
Definition ex_apart : list event :=
  [ Automatic; Step 0; Automatic; Step 0; Step 0; Automatic; Step 0; Step 0; Automatic; Step 0; Step 0; Step 0;
    Automatic; Step 1; Step 1; Automatic; Step 1; Step 1; Step 1; Automatic; Step 1; Step 1; Step 1; Step 1; Step 1; Step 1;
    Explicit; Automatic ].

Definition ex_apart_state : collector :=
  mk_collector true 4 [] [mk_copier [true; false] (Finished [0]); mk_copier [true; true; true] (Finished [1; 2; 3])].

Lemma ex_apart_after : after true ex_blocks ex_apart ex_apart_state.
Proof. vm_compute. reflexivity. Qed.

(* at the same time: the second thread found the collector disabled by the first one, which
   enabled it again too early *)
Definition ex_together : list event :=
  [ Step 0; Step 0; Step 1; Step 0; Step 1; Step 0; Step 0; Step 0; Step 0; Step 0; Automatic; Step 1; Step 1; Step 1 ].

Lemma ex_together_undefined : execution (collector_start true ex_blocks) (ex_together ++ [Step 1])
  = Undefined "object used after it was freed".
Proof. vm_compute. reflexivity. Qed.

(* the same with a call to gc.collect() by another thread, and one copy *)
Lemma ex_collect_undefined : execution (collector_start true [[true]]) [Step 0; Step 0; Step 0; Explicit; Step 0; Step 0]
  = Undefined "object used after it was freed".
Proof. vm_compute. reflexivity. Qed.

(* array.copy() raises for the second array of the second block *)
Definition ex_raising : list event := [ Step 0; Raise 0; Step 1; Step 1; Step 1; Raise 1; Step 1; Step 1; Automatic ].

Definition ex_raising_state : collector :=
  mk_collector false 1 [] [mk_copier [true; false] Raised; mk_copier [true; true; true] Raised].

Lemma ex_raising_after : after true ex_blocks ex_raising ex_raising_state.
Proof. vm_compute. reflexivity. Qed.

(* the states of ex_apart when an event happens *)
Lemma happens_in_nth enabled blocks events e s : happens_in enabled blocks events e s ->
  exists i, i < length events /\ nth_error events i = Some e /\ execution (collector_start enabled blocks) (firstn i events) = Ok s.
Proof.
  intros (before & rest & -> & H). exists (length before). rewrite app_length. cbn [length]. split; [lia|].
  rewrite nth_error_app2, Nat.sub_diag by lia. split; [reflexivity|].
  rewrite firstn_app, Nat.sub_diag, firstn_all. cbn [firstn]. rewrite app_nil_r. exact H.
Qed.

Definition in_copyb (p : place) : bool :=
  match p with Copying _ _ _ | Taking _ _ _ | Enabling _ | Undoing _ _ => true | _ => false end.

Lemma in_copyb_iff p : in_copy p <-> in_copyb p = true.
Proof. destruct p; cbn; split; try contradiction; try discriminate; auto. Qed.

(* no other thread copies when one enables the collector, and none when gc.collect() is
   called, by looking at all the states *)
Definition checked (enabled : bool) (blocks : list (list bool)) (events : list event) : bool :=
  forallb (fun i =>
    match execution (collector_start enabled blocks) (firstn i events), nth_error events i with
    | Ok s, Some (Step thread) =>
        match nth_error (gc_threads s) thread with
        | Some (mk_copier _ (Enabling _)) =>
            forallb (fun j => Nat.eqb j thread || negb (match nth_error (gc_threads s) j with Some t => in_copyb (co_place t) | None => false end))
              (seq 0 (length (gc_threads s)))
        | _ => true
        end
    | Ok s, Some Explicit => forallb (fun t => negb (in_copyb (co_place t))) (gc_threads s)
    | _, _ => true
    end) (seq 0 (length events)).

Lemma checked_separate enabled blocks events : checked enabled blocks events = true ->
  separate_copies enabled blocks events /\ no_collect_in_copy enabled blocks events.
Proof.
  intros H. unfold checked in H. rewrite forallb_forall in H. split.
  - intros thread s taken other p He (t & Ht & Ep) Hne (t' & Ht' & Ep') Hc.
    apply happens_in_nth in He as (i & Hi & Hn & Hs). specialize (H i (proj2 (in_seq (length events) 0 i) ltac:(lia))). rewrite Hs, Hn, Ht in H.
    destruct t as [a q]. cbn [co_place] in Ep. subst q. rewrite forallb_forall in H.
    assert (Hl : other < length (gc_threads s)) by (apply nth_error_Some; congruence).
    specialize (H other (proj2 (in_seq (length (gc_threads s)) 0 other) ltac:(lia))). rewrite Ht', Ep', (proj1 (in_copyb_iff p) Hc) in H.
    apply Nat.eqb_neq in Hne. rewrite Hne in H. discriminate H.
  - intros s thread p He (t & Ht & Ep) Hc.
    apply happens_in_nth in He as (i & Hi & Hn & Hs). specialize (H i (proj2 (in_seq (length events) 0 i) ltac:(lia))). rewrite Hs, Hn in H.
    rewrite forallb_forall in H. specialize (H t (nth_error_In _ _ Ht)). rewrite Ep, (proj1 (in_copyb_iff p) Hc) in H. discriminate H.
Qed.

Lemma ex_apart_separate : separate_copies true ex_blocks ex_apart /\ no_collect_in_copy true ex_blocks ex_apart.
Proof. apply checked_separate. vm_compute. reflexivity. Qed.

(* the first thread enables the collector while the second one copies *)
Lemma ex_together_not_separate : ~ separate_copies true ex_blocks ex_together.
Proof.
  intros H. eapply (H 0 _ [0] 1 (Copying false [true; true] [1])).
  - exists (firstn 9 ex_together), (skipn 10 ex_together). split; [reflexivity|]. vm_compute. reflexivity.
  - eexists. split; reflexivity.
  - discriminate.
  - eexists. split; reflexivity.
  - exact I.
Qed.
