(* Facts about the C API *)
From Coq Require Import Permutation.
From Verif Require Import Base Labels Array Block Tensor Npy Io Origin CApi Spec SpecTensor SpecIo SpecApi
  BaseFacts LabelsFacts BlockFacts TensorFacts NpyFacts.
Local Open Scope string_scope.
Local Open Scope list_scope.
Local Open Scope nat_scope.

(** * Programs *)

Lemma run_cons p w thread c rest :
  run p w ((thread, c) :: rest) =
  let '(w1, v, result) := run_call p thread w c in
  match result with
  | Returned _ => let '(w2, results) := run p w1 rest in (w2, (v, result) :: results)
  | _ => (w1, [(v, result)])
  end.
Proof. reflexivity. Qed.

Lemma state_at_0 p w calls : state_at p w calls 0 = w.
Proof. reflexivity. Qed.

Lemma state_at_S p w thread c rest w1 v status i :
  run_call p thread w c = (w1, v, Returned status) ->
  state_at p w ((thread, c) :: rest) (S i) = state_at p w1 rest i.
Proof.
  intros H. unfold state_at. cbn [firstn]. rewrite run_cons, H. destruct (run p w1 (firstn i rest)). reflexivity.
Qed.

Lemma state_at_stop p w thread c rest w1 v result i :
  run_call p thread w c = (w1, v, result) -> (forall status, result <> Returned status) ->
  state_at p w ((thread, c) :: rest) (S i) = w1.
Proof.
  intros H Hr. unfold state_at. cbn [firstn]. rewrite run_cons, H.
  destruct result as [s| |]; [exfalso; apply (Hr s); reflexivity|reflexivity|reflexivity].
Qed.

(* the state before and after each call *)
Lemma called_step p calls : forall w i thread c v result,
  called p w calls i thread c v result ->
  run_call p thread (state_at p w calls i) c = (state_at p w calls (S i), v, result).
Proof.
  induction calls as [|[t0 c0] rest IH]; intros w i thread c v result [Hc Hr].
  { destruct i; discriminate Hc. }
  rewrite run_cons in Hr. destruct (run_call p t0 w c0) as [[w1 v0] r0] eqn:E0.
  destruct i as [|i].
  - cbn [nth_error] in Hc. injection Hc as <- <-. rewrite state_at_0.
    assert (Hs : state_at p w ((t0, c0) :: rest) 1 = w1).
    { destruct r0 as [s| |].
      - rewrite (state_at_S _ _ _ _ _ _ _ _ 0 E0). reflexivity.
      - apply (state_at_stop _ _ _ _ _ _ _ _ 0 E0). discriminate.
      - apply (state_at_stop _ _ _ _ _ _ _ _ 0 E0). discriminate. }
    rewrite Hs, E0. destruct r0 as [s| |]; [destruct (run p w1 rest)|..]; cbn [snd nth_error] in Hr; injection Hr as <- <-; reflexivity.
  - cbn [nth_error] in Hc. destruct r0 as [s| |].
    + rewrite !(state_at_S _ _ _ _ _ _ _ _ _ E0). apply IH. split; [assumption|].
      destruct (run p w1 rest) as [w2 rs]. exact Hr.
    + cbn [snd nth_error] in Hr. destruct i; discriminate Hr.
    + cbn [snd nth_error] in Hr. destruct i; discriminate Hr.
Qed.

Lemma run_invariant p (I : world -> Prop) :
  (forall w thread c w' v result, I w -> run_call p thread w c = (w', v, result) -> I w') ->
  forall calls w, I w -> I (fst (run p w calls)).
Proof.
  intros Hstep. induction calls as [|[t c] rest IH]; intros w Hw; [exact Hw|].
  rewrite run_cons. destruct (run_call p t w c) as [[w1 v] r] eqn:E. pose proof (Hstep _ _ _ _ _ _ Hw E) as H1.
  destruct r as [s| |]; [|exact H1|exact H1]. specialize (IH w1 H1). destruct (run p w1 rest). exact IH.
Qed.

Lemma state_at_invariant p (I : world -> Prop) :
  (forall w thread c w' v result, I w -> run_call p thread w c = (w', v, result) -> I w') ->
  forall calls w i, I w -> I (state_at p w calls i).
Proof. intros Hstep calls w i Hw. unfold state_at. apply (run_invariant p I Hstep). assumption. Qed.

(* invariants which depend on the calls *)
Lemma run_invariant_calls p (I : world -> Prop) (C : nat * c_call -> Prop) :
  (forall w thread c w' v result, I w -> C (thread, c) -> run_call p thread w c = (w', v, result) -> I w') ->
  forall calls w, Forall C calls -> I w -> I (fst (run p w calls)).
Proof.
  intros Hstep. induction calls as [|[t c] rest IH]; intros w Hc Hw; [exact Hw|].
  apply Forall_cons_iff in Hc as [Hc Hrest].
  rewrite run_cons. destruct (run_call p t w c) as [[w1 v] r] eqn:E. pose proof (Hstep _ _ _ _ _ _ Hw Hc E) as H1.
  destruct r as [s| |]; [|exact H1|exact H1]. specialize (IH w1 Hrest H1). destruct (run p w1 rest). exact IH.
Qed.

(* going from a state to a later one *)
Lemma state_at_steps p calls : forall w i j,
  i <= j -> exists between, state_at p w calls j = fst (run p (state_at p w calls i) between).
Proof.
  induction calls as [|[t c] rest IH]; intros w i j Hij.
  - exists []. unfold state_at. rewrite !firstn_nil. reflexivity.
  - destruct i as [|i].
    + rewrite state_at_0. exists (firstn j ((t, c) :: rest)). reflexivity.
    + destruct j as [|j]; [lia|]. destruct (run_call p t w c) as [[w1 v] r] eqn:E. destruct r as [s|m|m].
      * rewrite !(state_at_S _ _ _ _ _ _ _ _ _ E). apply IH. lia.
      * exists []. rewrite !(state_at_stop _ _ _ _ _ _ _ _ _ E) by discriminate. reflexivity.
      * exists []. rewrite !(state_at_stop _ _ _ _ _ _ _ _ _ E) by discriminate. reflexivity.
Qed.

(* a relation kept by all calls holds between two states *)
Lemma state_at_relation p (R : world -> world -> Prop) :
  (forall w, R w w) -> (forall w1 w2 w3, R w1 w2 -> R w2 w3 -> R w1 w3) ->
  (forall w thread c w' v result, run_call p thread w c = (w', v, result) -> R w w') ->
  forall calls w i j, i <= j -> R (state_at p w calls i) (state_at p w calls j).
Proof.
  intros Hrefl Htrans Hstep calls w i j Hij. destruct (state_at_steps p calls w i j Hij) as [between ->].
  apply (run_invariant p (fun w' => R (state_at p w calls i) w')); [|apply Hrefl].
  intros w1 t c w2 v r H1 H2. eapply Htrans; [exact H1|]. eapply Hstep. exact H2.
Qed.

Lemma run_call_body p thread w c w' v result :
  run_call p thread w c = (w', v, result) ->
  exists w1 o, call_body p thread w c = (w1, v, o)
    /\ snd (catch_unwind thread (w_errors w1) o) = result
    /\ w' = set_errors w1 (fst (catch_unwind thread (w_errors w1) o)).
Proof.
  unfold run_call. destruct (call_body p thread w c) as [[w1 v1] o]. destruct (catch_unwind thread (w_errors w1) o) as [e r] eqn:E.
  intros H. injection H as <- <- <-. exists w1, o. rewrite E. auto.
Qed.

Lemma catch_unwind_success thread errors o :
  snd (catch_unwind thread errors o) = Returned 0 ->
  o = Ok tt \/ exists e, error_of o e /\ error_code e = 0%Z.
Proof.
  destruct o as [[]|e|m|r]; cbn [catch_unwind].
  - auto.
  - unfold from_error. destruct (cstring_new (error_text e)); cbn [snd]; intros H; [|discriminate H].
    injection H as H. right. exists e. split; [left; reflexivity|assumption].
  - unfold from_error. destruct (cstring_new _); cbn [snd]; intros H; [|discriminate H]. discriminate H.
  - intros H. discriminate H.
Qed.

(** * Data origins *)

Lemma find_origin_some names name : forall i k, find_origin i names name = Some k ->
  i <= k /\ nth_error names (k - i) = Some name.
Proof.
  induction names as [|n names IH]; intros i k H; [discriminate H|]. cbn [find_origin] in H.
  destruct (String.eqb_spec n name) as [->|Hn].
  - injection H as <-. split; [lia|]. rewrite Nat.sub_diag. reflexivity.
  - apply IH in H as [H1 H2]. split; [lia|]. replace (k - i) with (S (k - (i + 1))) by lia. exact H2.
Qed.

Lemma find_origin_none names name : forall i, find_origin i names name = None -> ~ In name names.
Proof.
  induction names as [|n names IH]; intros i H; [auto|]. cbn [find_origin] in H.
  destruct (String.eqb_spec n name) as [->|Hn]; [discriminate H|]. intros [Hc|Hc]; [congruence|]. eapply IH; eauto.
Qed.

Lemma register_spec r name r' id : register_data_origin r name = (r', id) -> NoDup r ->
  NoDup r' /\ nth_error r' id = Some name /\ (r' = r \/ (r' = r ++ [name] /\ id = length r /\ ~ In name r)).
Proof.
  unfold register_data_origin. intros H Hnd. destruct (find_origin 0 r name) as [k|] eqn:E; injection H as <- <-.
  - apply find_origin_some in E as [_ E]. rewrite Nat.sub_0_r in E. auto.
  - apply find_origin_none in E. rewrite app_length. cbn [length]. replace (length r + 1 - 1) with (length r) by lia.
    split; [|split; [rewrite nth_error_app2 by lia; rewrite Nat.sub_diag; reflexivity|auto]].
    apply NoDup_snoc. auto.
Qed.

(* nothing else changes the origins *)
Ltac break := match goal with |- context [match ?x with _ => _ end] => destruct x eqn:? end.

Lemma new_blocks_arrays_origins blocks : forall w, w_origins (fst (new_blocks_arrays w blocks)) = w_origins w.
Proof.
  induction blocks as [|b blocks IH]; intros w; [reflexivity|]. cbn [new_blocks_arrays new_arrays].
  specialize (IH (fst (new_arrays w (arrays_count b)))). cbn [new_arrays fst] in IH.
  destruct (new_blocks_arrays _ blocks) as [w' others]. exact IH.
Qed.

Lemma take_blocks_origins blocks : forall w, w_origins (fst (take_blocks w blocks)) = w_origins w.
Proof.
  induction blocks as [|b blocks IH]; intros w; [reflexivity|]. cbn [take_blocks].
  destruct (get_block w b) as [[h ob]|e|m|r]; [|reflexivity|reflexivity|reflexivity].
  specialize (IH (set_blocks w (remove_handle h (w_blocks w)))).
  destruct (take_blocks _ blocks) as [w' others]. exact IH.
Qed.

Ltac steps := unfold reading, move_keys, temporary_arrays, new_arrays, box_block, box_tensor, destroy, write_file;
  repeat break; repeat match goal with H : (_, _) = (_, _) |- _ => injection H as <- <- end.

Lemma call_body_origins p thread w c : (forall name origin, c <> RegisterDataOrigin name origin) ->
  w_origins (fst (fst (call_body p thread w c))) = w_origins w.
Proof.
  intros Hc. destruct c; cbn [call_body]; try reflexivity.
  - exfalso. eapply Hc. reflexivity.
  - unfold eqs_get_data_origin. steps; reflexivity.
  - unfold eqs_labels_position. steps; reflexivity.
  - unfold eqs_block. steps; reflexivity.
  - unfold eqs_block_free. steps; reflexivity.
  - unfold eqs_block_copy. steps; reflexivity.
  - unfold eqs_block_labels. steps; reflexivity.
  - unfold eqs_block_data. steps; reflexivity.
  - unfold eqs_block_add_gradient. steps; reflexivity.
  - unfold eqs_block_gradients_list. steps; reflexivity.
  - unfold eqs_tensormap. pose proof (take_blocks_origins blocks w) as H.
    destruct (take_blocks w blocks) as [w1 o]. steps; exact H || reflexivity.
  - unfold eqs_tensormap_free. steps; reflexivity.
  - unfold eqs_tensormap_keys. steps; reflexivity.
  - unfold eqs_tensormap_block_by_id. steps; reflexivity.
  - unfold eqs_tensormap_blocks_matching. steps; reflexivity.
  - unfold eqs_tensormap_keys_to_properties. steps; try reflexivity.
    match goal with H : new_blocks_arrays ?w ?bs = _ |- _ =>
      pose proof (new_blocks_arrays_origins bs w) as Hn; rewrite H in Hn end. exact Hn.
  - unfold eqs_tensormap_components_to_properties. steps; reflexivity.
  - unfold eqs_tensormap_keys_to_samples. steps; try reflexivity.
    match goal with H : new_blocks_arrays ?w ?bs = _ |- _ =>
      pose proof (new_blocks_arrays_origins bs w) as Hn; rewrite H in Hn end. exact Hn.
  - unfold eqs_tensormap_load. steps; try reflexivity.
    match goal with H : new_blocks_arrays ?w ?bs = _ |- _ =>
      pose proof (new_blocks_arrays_origins bs w) as Hn; rewrite H in Hn end. exact Hn.
  - unfold eqs_tensormap_save. steps; reflexivity.
Qed.

Lemma state_at_next p calls : forall w i,
  (exists thread c v result, called p w calls i thread c v result) \/ state_at p w calls (S i) = state_at p w calls i.
Proof.
  induction calls as [|[t c] rest IH]; intros w i.
  - right. unfold state_at. rewrite !firstn_nil. reflexivity.
  - destruct (run_call p t w c) as [[w1 v] r] eqn:E. destruct i as [|i].
    + left. exists t, c, v, r. split; [reflexivity|]. rewrite run_cons, E.
      destruct r as [s| |]; [destruct (run p w1 rest)|..]; reflexivity.
    + destruct r as [s|m|m].
      * rewrite !(state_at_S _ _ _ _ _ _ _ _ _ E). destruct (IH w1 i) as [(t' & c' & v' & r' & H1 & H2)|H]; [left|auto].
        exists t', c', v', r'. split; [exact H1|]. rewrite run_cons, E. destruct (run p w1 rest). exact H2.
      * right. rewrite !(state_at_stop _ _ _ _ _ _ _ _ _ E) by discriminate. reflexivity.
      * right. rewrite !(state_at_stop _ _ _ _ _ _ _ _ _ E) by discriminate. reflexivity.
Qed.

(* one call and the origins *)
Definition origins_wf (w : world) : Prop := NoDup (w_origins w) /\ nth_error (w_origins w) 0 = Some "unregistered origin".

Lemma run_call_origins p thread w c w' v result :
  run_call p thread w c = (w', v, result) -> NoDup (w_origins w) ->
  w_origins w' = w_origins w
  \/ exists memory id, c = RegisterDataOrigin (Some memory) out /\ v = VOrigin id /\ result = Returned 0
       /\ NoDup (w_origins w') /\ w_origins w' = w_origins w ++ [c_str memory] /\ id = length (w_origins w).
Proof.
  intros H Hnd. apply run_call_body in H as (w1 & o & H & <- & ->). cbn [set_errors w_origins].
  destruct c; try (left; match type of H with call_body _ ?t ?w ?c = _ =>
    pose proof (call_body_origins p t w c) as Ho; rewrite H in Ho; apply Ho; discriminate end).
  cbn [call_body] in H. unfold eqs_register_data_origin in H. destruct name as [memory|]; cbn [check_pointer bind] in H;
    [|injection H as <- <- <-; left; reflexivity].
  destruct origin as [[]|]; cbn [check_pointer bind] in H; [|injection H as <- <- <-; left; reflexivity].
  unfold c_str_to_str in H. destruct (is_utf8 _ _) eqn:Eu; [|injection H as <- <- <-; left; reflexivity].
  destruct (register_data_origin (w_origins w) (c_str memory)) as [r id] eqn:Er. injection H as <- <- <-.
  apply register_spec in Er as (Hr1 & Hr2 & [Hr3|(Hr3 & Hr4 & _)]); [left; exact Hr3|right|assumption].
  exists memory, id. auto 10.
Qed.

Lemma registered_step p w calls i name id :
  registered p w calls i name id -> NoDup (w_origins (state_at p w calls i)) ->
  nth_error (w_origins (state_at p w calls (S i))) id = Some name.
Proof.
  intros (t & memory & Hc & ->) Hnd. apply called_step in Hc. apply run_call_body in Hc as (w1 & o & H & _ & ->).
  cbn [set_errors w_origins]. cbn [call_body] in H. unfold eqs_register_data_origin in H. cbn [check_pointer bind out] in H.
  unfold c_str_to_str in H. destruct (is_utf8 _ _) eqn:Eu; [|discriminate H].
  destruct (register_data_origin _ (c_str memory)) as [r id'] eqn:Er. injection H as <- <- <-.
  apply register_spec in Er as (_ & Hr & _); assumption.
Qed.

Lemma origins_state p w calls i : origins_wf w -> origins_wf (state_at p w calls i).
Proof.
  apply state_at_invariant. clear. intros w t c w' v r [H1 H2] H. apply run_call_origins in H; [|assumption].
  destruct H as [H|(memory & id & _ & _ & _ & H3 & H & _)].
  - unfold origins_wf. rewrite H. auto.
  - split; [assumption|]. rewrite H. rewrite nth_error_app1; [assumption|]. apply nth_error_Some. congruence.
Qed.

Lemma origins_grow p w calls i j : origins_wf w -> i <= j ->
  exists more, w_origins (state_at p w calls j) = w_origins (state_at p w calls i) ++ more.
Proof.
  intros Hw Hij.
  assert (Hrel := state_at_relation p (fun w1 w2 => origins_wf w1 -> exists more, w_origins w2 = w_origins w1 ++ more)).
  cut (origins_wf (state_at p w calls i) ->
       exists more, w_origins (state_at p w calls j) = w_origins (state_at p w calls i) ++ more);
    [intros H; apply H, origins_state; assumption|].
  assert (Hstep : forall w thread c w' v result, run_call p thread w c = (w', v, result) -> origins_wf w ->
    origins_wf w' /\ exists more, w_origins w' = w_origins w ++ more).
  { clear. intros w t c w' v r H [H1 H2]. apply run_call_origins in H; [|assumption].
    destruct H as [H|(memory & id & _ & _ & _ & H3 & H & _)].
    - unfold origins_wf. rewrite H. split; [auto|]. exists []. rewrite app_nil_r. reflexivity.
    - split; [|eauto]. split; [assumption|]. rewrite H, nth_error_app1; [assumption|]. apply nth_error_Some. congruence. }
  pose proof (state_at_relation p
    (fun w1 w2 => origins_wf w1 -> origins_wf w2 /\ exists more, w_origins w2 = w_origins w1 ++ more)) as Hr.
  intros H. apply (fun A B C => proj2 (Hr A B C calls w i j Hij H)).
  - intros w0 H0. split; [assumption|]. exists []. rewrite app_nil_r. reflexivity.
  - intros w1 w2 w3 H12 H23 H1. destruct (H12 H1) as (H2 & m1 & E1). destruct (H23 H2) as (H3 & m2 & E2).
    split; [assumption|]. exists (m1 ++ m2). rewrite E2, E1, app_assoc. reflexivity.
  - intros w0 t c w' v r E H0. eapply Hstep; eauto.
Qed.

Lemma registered_later p w calls i j name id : origins_wf w ->
  registered p w calls i name id -> i < j -> nth_error (w_origins (state_at p w calls j)) id = Some name.
Proof.
  intros Hw Hr Hij. destruct (origins_grow p w calls (S i) j Hw) as [more ->]; [lia|].
  apply registered_step in Hr; [|apply origins_state; assumption]. rewrite nth_error_app1; [assumption|].
  apply nth_error_Some. congruence.
Qed.

Lemma registered_same p w calls i j n1 id1 n2 id2 : origins_wf w ->
  registered p w calls i n1 id1 -> registered p w calls j n2 id2 -> (n1 = n2 <-> id1 = id2).
Proof.
  intros Hw H1 H2.
  apply (registered_later p w calls i (S (Nat.max i j))) in H1; [|assumption|lia].
  apply (registered_later p w calls j (S (Nat.max i j))) in H2; [|assumption|lia].
  destruct (origins_state p w calls (S (Nat.max i j)) Hw) as [Hnd _].
  split; [intros ->|intros ->; congruence]. eapply NoDup_nth_error_inj; eauto.
Qed.

(* every identifier except the first one was given to someone *)
Lemma registered_before p files calls : forall i id name,
  nth_error (w_origins (state_at p (world_start files) calls i)) id = Some name -> id <> 0 ->
  exists k, k < i /\ registered p (world_start files) calls k name id.
Proof.
  set (w := world_start files).
  assert (Hw : origins_wf w).
  { split; [|reflexivity]. repeat constructor. auto. }
  induction i as [|i IH]; intros id name H Hid.
  - rewrite state_at_0 in H. destruct id as [|[|id]]; [congruence| |]; discriminate H.
  - destruct (state_at_next p calls w i) as [(t & c & v & r & Hc)|Hs].
    + pose proof (called_step _ _ _ _ _ _ _ _ Hc) as Hstep.
      apply run_call_origins in Hstep; [|apply origins_state; assumption].
      destruct Hstep as [Hs|(memory & id' & -> & -> & -> & _ & Hs & ->)].
      * rewrite Hs in H. destruct (IH id name H Hid) as (k & Hk & Hr). eauto.
      * rewrite Hs in H. destruct (Nat.lt_ge_cases id (length (w_origins (state_at p w calls i)))) as [Hlt|Hge].
        -- rewrite nth_error_app1 in H by assumption. destruct (IH id name H Hid) as (k & Hk & Hr). eauto.
        -- rewrite nth_error_app2 in H by assumption. 
           assert (Hlen : id = length (w_origins (state_at p w calls i))).
           { enough (id - length (w_origins (state_at p w calls i)) < 1) by lia.
             apply (proj1 (nth_error_Some [c_str memory] _)). congruence. }
           rewrite <- Hlen, Nat.sub_diag in H. injection H as <-.
           exists i. split; [lia|]. exists t, memory. rewrite Hlen. auto.
    + rewrite Hs in H. destruct (IH id name H Hid) as (k & Hk & Hr). eauto.
Qed.

(* copying a text *)
Lemma text_bytes_length s : length (text_bytes s) = String.length s.
Proof. unfold text_bytes. induction s as [|c s IH]; cbn; [reflexivity|]. rewrite IH. reflexivity. Qed.

Lemma copy_str_to_c_ok p s buffer buffer' :
  copy_str_to_c p s buffer = (buffer', Ok tt) <->
  String.length s < length buffer /\ buffer' = text_bytes s ++ nul :: skipn (S (String.length s)) buffer.
Proof.
  unfold copy_str_to_c. destruct (length buffer) as [|last] eqn:El.
  - split; [destruct p; discriminate|intros [H _]; lia].
  - destruct (Nat.ltb_spec (Nat.min (String.length s) last) (String.length s)) as [H|H].
    + split; [discriminate|]. intros [H1 _]. lia.
    + replace (Nat.min (String.length s) last) with (String.length s) by lia. split.
      * intros E. injection E as <-. split; [lia|reflexivity].
      * intros [_ ->]. reflexivity.
Qed.

Lemma copy_str_to_c_small p s buffer : 0 < length buffer -> length buffer <= String.length s ->
  exists m, copy_str_to_c p s buffer = (buffer, Err (InvalidParameter m)).
Proof.
  intros H0 H. unfold copy_str_to_c. destruct (length buffer) as [|last] eqn:El; [lia|].
  replace (Nat.min (String.length s) last) with last by lia.
  destruct (Nat.ltb_spec last (String.length s)); [eauto|lia].
Qed.

Lemma copy_str_to_c_length p s buffer : length (fst (copy_str_to_c p s buffer)) = length buffer.
Proof.
  unfold copy_str_to_c. destruct (length buffer) as [|last] eqn:El; [destruct p; exact El|].
  destruct (Nat.ltb_spec (Nat.min (String.length s) last) (String.length s)) as [H|H]; [exact El|].
  cbn [fst]. rewrite app_length, text_bytes_length. cbn [length]. rewrite skipn_length, El. lia.
Qed.

(* what the registry gives *)
Lemma get_data_origin_ok w id : origins_wf w -> exists name, get_data_origin (w_origins w) id = Ok name
  /\ (nth_error (w_origins w) id = Some name \/ (nth_error (w_origins w) id = None /\ name = "unregistered origin")).
Proof.
  intros [_ H0]. unfold get_data_origin. destruct (Nat.ltb_spec id (length (w_origins w))) as [H|H].
  - destruct (nth_error (w_origins w) id) as [name|] eqn:E; [|apply nth_error_None in E; lia].
    exists name. unfold index_slice. rewrite E. auto.
  - exists "unregistered origin". unfold index_slice. rewrite H0. split; [reflexivity|right].
    split; [apply nth_error_None; assumption|reflexivity].
Qed.

Lemma origins_start files : origins_wf (world_start files).
Proof. split; [|reflexivity]. repeat constructor. auto. Qed.

Lemma get_data_origin_named p files calls j id : exists name,
  get_data_origin (w_origins (state_at p (world_start files) calls j)) id = Ok name
  /\ (forall i n, i < j -> registered p (world_start files) calls i n id -> n = name)
  /\ ((forall i n, i < j -> ~ registered p (world_start files) calls i n id) -> name = "unregistered origin").
Proof.
  pose proof (origins_state p _ calls j (origins_start files)) as Hw.
  destruct (get_data_origin_ok _ id Hw) as (name & Hn & Hcase). exists name. split; [assumption|]. split.
  - intros i n Hi Hr. apply (registered_later p _ calls i j) in Hr; [|apply origins_start|assumption].
    destruct Hcase as [H|[H _]]; congruence.
  - intros Hno. destruct Hcase as [H|[_ H]]; [|assumption].
    destruct id as [|id]; [destruct Hw as [_ Hw]; congruence|].
    apply registered_before in H; [|discriminate]. destruct H as (k & Hk & Hr). exfalso. eapply Hno; eauto.
Qed.

Lemma get_data_origin_call p thread w id buffer w' v result :
  run_call p thread w (GetDataOrigin id (Some buffer)) = (w', v, result) ->
  forall name, get_data_origin (w_origins w) id = Ok name ->
  v = VText (fst (copy_str_to_c p name buffer))
  /\ result = snd (catch_unwind thread (w_errors w) (snd (copy_str_to_c p name buffer))).
Proof.
  intros H name Hn. apply run_call_body in H as (w1 & o & H & <- & ->). cbn [call_body] in H.
  unfold eqs_get_data_origin in H. rewrite Hn in H. destruct (copy_str_to_c p name buffer) as [b' o'].
  injection H as <- <- <-. auto.
Qed.

Lemma get_data_origin_success p files calls j thread id buffer v result :
  called p (world_start files) calls j thread (GetDataOrigin id (Some buffer)) v result -> result = Returned 0 ->
  exists name buffer', v = VText buffer' /\ holds_text buffer' name /\ length buffer' = length buffer
  /\ (forall i n, i < j -> registered p (world_start files) calls i n id -> n = name)
  /\ ((forall i n, i < j -> ~ registered p (world_start files) calls i n id) -> name = "unregistered origin").
Proof.
  intros Hc Hres. destruct (get_data_origin_named p files calls j id) as (name & Hn & H1 & H2).
  apply called_step in Hc. destruct (get_data_origin_call _ _ _ _ _ _ _ _ Hc _ Hn) as [-> Hr].
  exists name. eexists. split; [reflexivity|]. split; [|split; [apply copy_str_to_c_length|auto]].
  destruct (copy_str_to_c p name buffer) as [b' o] eqn:Ec. cbn [fst snd] in *.
  assert (o = Ok tt) as ->.
  { rewrite Hres in Hr. symmetry in Hr. apply catch_unwind_success in Hr as [Hr|(e & He & He0)]; [assumption|exfalso].
    unfold copy_str_to_c in Ec. destruct (length buffer); [destruct p|destruct (_ <? _)]; injection Ec as <- <-;
      destruct He as [He|(m & He & Hm)]; try discriminate He; [|injection He as <-; discriminate He0].
    rewrite Hm in He0. discriminate He0. }
  apply copy_str_to_c_ok in Ec as [_ ->]. eexists. reflexivity.
Qed.

Lemma registered_start p files calls i j n1 id1 n2 id2 :
  registered p (world_start files) calls i n1 id1 -> registered p (world_start files) calls j n2 id2 -> (n1 = n2 <-> id1 = id2).
Proof. apply registered_same. apply origins_start. Qed.
