(* Facts about Library.v *)
From Verif Require Import Base Labels Array Strided Block Tensor Npy Io Origin CApi Spec SpecTensor SpecIo SpecExact SpecApi SpecPy
  Library SpecLibrary BaseFacts ArrayFacts StridedFacts LabelsFacts ApiFacts FileApiFacts PyWriteFacts ReadableAnyFacts.
Local Open Scope string_scope.
Local Open Scope list_scope.
Local Open Scope nat_scope.

(** * Programs *)

Lemma library_run_cons b p w thread c rest :
  library_run b p w ((thread, c) :: rest) =
  let '(w1, v, result) := library_run_call b p thread w c in
  match result with
  | Returned _ => let '(w2, results) := library_run b p w1 rest in (w2, (v, result) :: results)
  | _ => (w1, [(v, result)])
  end.
Proof. reflexivity. Qed.

Lemma library_state_0 b p w calls : library_state b p w calls 0 = w.
Proof. reflexivity. Qed.

Lemma library_state_S b p w thread c rest w1 v status i :
  library_run_call b p thread w c = (w1, v, Returned status) ->
  library_state b p w ((thread, c) :: rest) (S i) = library_state b p w1 rest i.
Proof.
  intros H. unfold library_state. cbn [firstn]. rewrite library_run_cons, H. destruct (library_run b p w1 (firstn i rest)). reflexivity.
Qed.

Lemma library_state_stop b p w thread c rest w1 v result i :
  library_run_call b p thread w c = (w1, v, result) -> (forall status, result <> Returned status) ->
  library_state b p w ((thread, c) :: rest) (S i) = w1.
Proof.
  intros H Hr. unfold library_state. cbn [firstn]. rewrite library_run_cons, H.
  destruct result as [s| |]; [exfalso; apply (Hr s); reflexivity|reflexivity|reflexivity].
Qed.

Lemma library_called_step b p calls : forall w i thread c v result,
  library_called b p w calls i thread c v result ->
  library_run_call b p thread (library_state b p w calls i) c = (library_state b p w calls (S i), v, result).
Proof.
  induction calls as [|[t0 c0] rest IH]; intros w i thread c v result [Hc Hr].
  { destruct i; discriminate Hc. }
  rewrite library_run_cons in Hr. destruct (library_run_call b p t0 w c0) as [[w1 v0] r0] eqn:E0.
  destruct i as [|i].
  - cbn [nth_error] in Hc. injection Hc as <- <-. rewrite library_state_0.
    assert (Hs : library_state b p w ((t0, c0) :: rest) 1 = w1).
    { destruct r0 as [s| |].
      - rewrite (library_state_S _ _ _ _ _ _ _ _ _ 0 E0). reflexivity.
      - apply (library_state_stop _ _ _ _ _ _ _ _ _ 0 E0). discriminate.
      - apply (library_state_stop _ _ _ _ _ _ _ _ _ 0 E0). discriminate. }
    rewrite Hs, E0. destruct r0 as [s| |]; [destruct (library_run b p w1 rest)|..]; cbn [snd nth_error] in Hr; injection Hr as <- <-; reflexivity.
  - cbn [nth_error] in Hc. destruct r0 as [s| |].
    + rewrite !(library_state_S _ _ _ _ _ _ _ _ _ _ E0). apply IH. split; [assumption|].
      destruct (library_run b p w1 rest) as [w2 rs]. exact Hr.
    + cbn [snd nth_error] in Hr. destruct i; discriminate Hr.
    + cbn [snd nth_error] in Hr. destruct i; discriminate Hr.
Qed.

(* the next state is the result of a call, or the same one *)
Lemma library_state_next b p calls : forall w i,
  (exists thread c v result, library_called b p w calls i thread c v result)
  \/ library_state b p w calls (S i) = library_state b p w calls i.
Proof.
  induction calls as [|[t c] rest IH]; intros w i.
  - right. unfold library_state. rewrite !firstn_nil. reflexivity.
  - destruct (library_run_call b p t w c) as [[w1 v] r] eqn:E. destruct i as [|i].
    + left. exists t, c, v, r. split; [reflexivity|]. rewrite library_run_cons, E.
      destruct r; [destruct (library_run b p w1 rest)|..]; reflexivity.
    + destruct r as [s| |].
      * rewrite !(library_state_S _ _ _ _ _ _ _ _ _ _ E). destruct (IH w1 i) as [(t' & c' & v' & r' & Hc & Hr)|H]; [left|right; exact H].
        exists t', c', v', r'. split; [exact Hc|]. rewrite library_run_cons, E. destruct (library_run b p w1 rest). exact Hr.
      * right. rewrite !(library_state_stop _ _ _ _ _ _ _ _ _ _ E) by discriminate. reflexivity.
      * right. rewrite !(library_state_stop _ _ _ _ _ _ _ _ _ _ E) by discriminate. reflexivity.
Qed.

Lemma library_state_invariant b p (I : world -> Prop) calls w :
  (forall i thread c v result, I (library_state b p w calls i) -> library_called b p w calls i thread c v result ->
     I (library_state b p w calls (S i))) ->
  I w -> forall i, I (library_state b p w calls i).
Proof.
  intros Hstep Hw i. induction i as [|i IH]; [exact Hw|].
  destruct (library_state_next b p calls w i) as [(t & c & v & r & Hc)|Hs]; [|rewrite Hs; exact IH].
  eapply Hstep; eauto.
Qed.

Lemma library_run_call_body b p thread w c w' v result :
  library_run_call b p thread w c = (w', v, result) ->
  exists w1 o, library_body b p thread w c = (w1, v, o)
    /\ snd (catch_unwind thread (w_errors w1) o) = result
    /\ w' = set_errors w1 (fst (catch_unwind thread (w_errors w1) o)).
Proof.
  unfold library_run_call. destruct (library_body b p thread w c) as [[w1 v1] o].
  destruct (catch_unwind thread (w_errors w1) o) as [e r] eqn:E.
  intros H. injection H as <- <- <-. exists w1, o. rewrite E. auto.
Qed.

(** * Origins *)

Lemma as_ndarray_origins r a r' o : as_ndarray r a = (r', o) ->
  NoDup r -> NoDup r' /\ exists more, r' = r ++ more /\ (forall name, In name more -> name = ndarray_name \/ name = empty_name).
Proof.
  unfold as_ndarray. intros H Hnd.
  assert (G : forall name r0 r1 id, register_data_origin r0 name = (r1, id) -> NoDup r0 ->
    (name = ndarray_name \/ name = empty_name) ->
    NoDup r1 /\ exists more, r1 = r0 ++ more /\ (forall n, In n more -> n = ndarray_name \/ n = empty_name)).
  { intros name r0 r1 id E Hn Hname. apply register_spec in E as (H1 & _ & H2); [|assumption]. split; [assumption|].
    destruct H2 as [->|(-> & _)]; [exists []; rewrite app_nil_r; split; [reflexivity|intros n []]|].
    exists [name]. split; [reflexivity|]. intros n [<-|[]]. assumption. }
  unfold origin_of in H. destruct (a_kind a) as [| |origin] eqn:Ek.
  - destruct (register_data_origin r ndarray_name) as [r1 id1] eqn:E1. destruct (register_data_origin r1 ndarray_name) as [r2 id2] eqn:E2.
    injection H as <- _. apply G in E1 as (N1 & m1 & -> & M1); [|assumption|auto]. apply G in E2 as (N2 & m2 & -> & M2); [|assumption|auto].
    split; [assumption|]. exists (m1 ++ m2). rewrite app_assoc. split; [reflexivity|]. intros n Hin. apply in_app_or in Hin as [Hin|Hin]; auto.
  - destruct (register_data_origin r empty_name) as [r1 id1] eqn:E1. destruct (register_data_origin r1 ndarray_name) as [r2 id2] eqn:E2.
    injection H as <- _. apply G in E1 as (N1 & m1 & -> & M1); [|assumption|auto]. apply G in E2 as (N2 & m2 & -> & M2); [|assumption|auto].
    split; [assumption|]. exists (m1 ++ m2). rewrite app_assoc. split; [reflexivity|]. intros n Hin. apply in_app_or in Hin as [Hin|Hin]; auto.
  - destruct (call a OpOrigin (Ok origin)) as [id|e|m|u].
    + destruct (register_data_origin r ndarray_name) as [r1 id1] eqn:E1. injection H as <- _. eapply G; eauto.
    + destruct (register_data_origin r ndarray_name) as [r1 id1] eqn:E1. injection H as <- _. eapply G; eauto.
    + injection H as <- _. split; [assumption|]. exists []. rewrite app_nil_r. split; [reflexivity|intros n []].
    + injection H as <- _. split; [assumption|]. exists []. rewrite app_nil_r. split; [reflexivity|intros n []].
Qed.

(* one call: nothing new, a name given by the program, or names of the library *)
Lemma library_call_origins b p thread w c w' v result :
  library_run_call b p thread w c = (w', v, result) -> origins_wf w ->
  origins_wf w' /\ exists more, w_origins w' = w_origins w ++ more
    /\ forall name, In name more ->
         name = ndarray_name \/ name = empty_name
         \/ exists memory id, c = Call (RegisterDataOrigin (Some memory) out) /\ v = Plain (VOrigin id) /\ result = Returned 0
              /\ more = [name] /\ id = length (w_origins w) /\ name = c_str memory.
Proof.
  intros H [Hnd H0]. apply library_run_call_body in H as (w1 & o & H & <- & ->). cbn [set_errors w_origins].
  assert (Hwf : forall more, NoDup (w_origins w ++ more) -> NoDup (w_origins w ++ more) /\ nth_error (w_origins w ++ more) 0 = Some "unregistered origin").
  { intros more Hn. split; [assumption|]. rewrite nth_error_app1; [assumption|]. apply nth_error_Some. congruence. }
  assert (Hsame : w_origins w1 = w_origins w -> origins_wf (set_errors w1 (fst (catch_unwind thread (w_errors w1) o)))
    /\ exists more, w_origins w1 = w_origins w ++ more /\ forall name, In name more -> name = ndarray_name \/ name = empty_name
         \/ exists memory id, c = Call (RegisterDataOrigin (Some memory) out) /\ v = Plain (VOrigin id)
              /\ snd (catch_unwind thread (w_errors w1) o) = Returned 0
              /\ more = [name] /\ id = length (w_origins w) /\ name = c_str memory).
  { intros E. split; [unfold origins_wf; cbn [set_errors w_origins]; rewrite E; auto|]. exists []. rewrite app_nil_r. split; [assumption|intros n []]. }
  destruct c as [c|array memory data shape shape_count|array]; cbn [library_body] in H.
  - assert (Hnr : (forall name origin, c <> RegisterDataOrigin name origin) -> w_origins w1 = w_origins w).
    { intros Hc. destruct c; try (match type of H with context [call_body ?p ?t ?w ?c] =>
        pose proof (call_body_origins p t w c Hc) as Ho; destruct (call_body p t w c) as [[? ?] ?]; injection H as <- <- <-; exact Ho end).
      - destruct (has_serialization b).
        + match type of H with context [call_body ?p ?t ?w ?c] =>
            pose proof (call_body_origins p t w c Hc) as Ho; destruct (call_body p t w c) as [[? ?] ?]; injection H as <- <- <-; exact Ho end.
        + injection H as <- <- <-. reflexivity.
      - destruct (has_serialization b).
        + match type of H with context [call_body ?p ?t ?w ?c] =>
            pose proof (call_body_origins p t w c Hc) as Ho; destruct (call_body p t w c) as [[? ?] ?]; injection H as <- <- <-; exact Ho end.
        + unfold save_without in H. cbv zeta in H. match type of H with context [match ?x with Ok _ => _ | Err _ => _ | Panic _ => _ | Undefined _ => _ end] => destruct x end;
            injection H as <- <- <-; reflexivity. }
    destruct c; try (apply Hsame, Hnr; discriminate).
    cbn [call_body] in H. unfold eqs_register_data_origin in H. destruct name as [memory|]; cbn [check_pointer bind] in H;
      [|injection H as <- <- <-; apply Hsame; reflexivity].
    destruct origin as [[]|]; cbn [check_pointer bind] in H; [|injection H as <- <- <-; apply Hsame; reflexivity].
    unfold c_str_to_str in H. destruct (is_utf8 _ _) eqn:Eu; [|injection H as <- <- <-; apply Hsame; reflexivity].
    destruct (register_data_origin (w_origins w) (c_str memory)) as [r id] eqn:Er. injection H as <- <- <-.
    apply register_spec in Er as (Hr1 & Hr2 & Hr3); [|assumption]. destruct Hr3 as [->|(-> & -> & _)]; [apply Hsame; reflexivity|].
    split; [unfold origins_wf; cbn [set_errors set_origins w_origins]; apply Hwf; assumption|].
    exists [c_str memory]. split; [reflexivity|]. intros name [<-|[]]. right. right. exists memory, (length (w_origins w)). auto 10.
  - unfold eqs_get_rust_array in H. cbv zeta in H.
    match type of H with context [match ?x with Ok _ => _ | Err _ => _ | Panic _ => _ | Undefined _ => _ end] => destruct x as [a|e|m|r] end;
      [|injection H as <- <- <-; apply Hsame; reflexivity..].
    destruct (has_ndarray b); [|injection H as <- <- <-; apply Hsame; reflexivity].
    destruct (as_ndarray (w_origins w) a) as [origins res] eqn:Ea. apply as_ndarray_origins in Ea as (Hn & more & -> & Hm); [|assumption].
    assert (Hw1 : w_origins w1 = w_origins w ++ more).
    { destruct res as [u|e|m|r]; [destruct (is_standard_layout _ _)|..]; injection H as <- <- <-; reflexivity. }
    split; [unfold origins_wf; cbn [set_errors w_origins]; rewrite Hw1; apply Hwf; assumption|].
    exists more. split; [assumption|]. intros name Hin. destruct (Hm name Hin); auto.
  - unfold origin_of in H. destruct (a_kind array) as [| |origin].
    + destruct (register_data_origin (w_origins w) ndarray_name) as [r id] eqn:Er. injection H as <- <- <-.
      apply register_spec in Er as (Hr1 & Hr2 & Hr3); [|assumption]. destruct Hr3 as [->|(-> & -> & _)]; [apply Hsame; reflexivity|].
      split; [unfold origins_wf; cbn [set_errors set_origins w_origins]; apply Hwf; assumption|].
      exists [ndarray_name]. split; [reflexivity|]. intros name [<-|[]]. auto.
    + destruct (register_data_origin (w_origins w) empty_name) as [r id] eqn:Er. injection H as <- <- <-.
      apply register_spec in Er as (Hr1 & Hr2 & Hr3); [|assumption]. destruct Hr3 as [->|(-> & -> & _)]; [apply Hsame; reflexivity|].
      split; [unfold origins_wf; cbn [set_errors set_origins w_origins]; apply Hwf; assumption|].
      exists [empty_name]. split; [reflexivity|]. intros name [<-|[]]. auto.
    + injection H as <- <- <-. apply Hsame. reflexivity.
Qed.

Lemma library_origins_state b p w calls i : origins_wf w -> origins_wf (library_state b p w calls i).
Proof.
  intros Hw. apply library_state_invariant; [|assumption]. clear i. intros i t c v r Hi Hc. apply library_called_step in Hc.
  apply library_call_origins in Hc; [|assumption]. tauto.
Qed.

Lemma library_origins_grow b p w calls i j : origins_wf w -> i <= j ->
  exists more, w_origins (library_state b p w calls j) = w_origins (library_state b p w calls i) ++ more.
Proof.
  intros Hw Hij. induction Hij as [|j Hij [m1 IH]]; [exists []; rewrite app_nil_r; reflexivity|].
  destruct (library_state_next b p calls w j) as [(t & c & v & r & Hc)|Hs]; [|rewrite Hs; eauto].
  apply library_called_step in Hc. apply library_call_origins in Hc as (_ & m2 & E & _); [|apply library_origins_state; assumption].
  exists (m1 ++ m2). rewrite E, IH, app_assoc. reflexivity.
Qed.

Lemma library_registered_later b p w calls i j name id : origins_wf w ->
  library_registered b p w calls i name id -> i < j -> nth_error (w_origins (library_state b p w calls j)) id = Some name.
Proof.
  intros Hw Hr Hij. destruct (library_origins_grow b p w calls (S i) j Hw) as [more ->]; [lia|].
  enough (H : nth_error (w_origins (library_state b p w calls (S i))) id = Some name).
  { rewrite nth_error_app1; [assumption|]. apply nth_error_Some. congruence. }
  destruct (library_origins_state b p w calls i Hw) as [Hnd _].
  destruct Hr as [(t & memory & Hc & ->)|(t & a & Hc & Ha)]; apply library_called_step, library_run_call_body in Hc as (w1 & o & H & _ & ->);
    cbn [set_errors w_origins library_body] in *.
  - cbn [call_body] in H. unfold eqs_register_data_origin in H. cbn [check_pointer bind out] in H.
    unfold c_str_to_str in H. destruct (is_utf8 _ _) eqn:Eu; [|discriminate H].
    destruct (register_data_origin _ (c_str memory)) as [r id'] eqn:Er. injection H as <- <- <-.
    apply register_spec in Er as (_ & Hr & _); assumption.
  - unfold origin_of in H. destruct Ha as [[Hk ->]|[Hk ->]]; rewrite Hk in H.
    + destruct (register_data_origin _ ndarray_name) as [r id'] eqn:Er. injection H as <- <- <-.
      apply register_spec in Er as (_ & Hr & _); assumption.
    + destruct (register_data_origin _ empty_name) as [r id'] eqn:Er. injection H as <- <- <-.
      apply register_spec in Er as (_ & Hr & _); assumption.
Qed.

Lemma library_registered_same b p files calls i j n1 id1 n2 id2 :
  library_registered b p (world_start files) calls i n1 id1 -> library_registered b p (world_start files) calls j n2 id2 ->
  (n1 = n2 <-> id1 = id2).
Proof.
  intros H1 H2. pose proof (origins_start files) as Hw.
  apply (library_registered_later b p _ calls i (S (Nat.max i j))) in H1; [|assumption|lia].
  apply (library_registered_later b p _ calls j (S (Nat.max i j))) in H2; [|assumption|lia].
  destruct (library_origins_state b p _ calls (S (Nat.max i j)) Hw) as [Hnd _].
  split; [intros ->|intros ->; congruence]. eapply NoDup_nth_error_inj; eauto.
Qed.

Lemma library_registered_before b p files calls : forall i id name,
  nth_error (w_origins (library_state b p (world_start files) calls i)) id = Some name ->
  name = "unregistered origin" \/ name = "rust.ndarray" \/ name = "rust.EmptyArray"
  \/ exists k, k < i /\ library_registered b p (world_start files) calls k name id.
Proof.
  set (w := world_start files). pose proof (origins_start files : origins_wf w) as Hw.
  induction i as [|i IH]; intros id name H.
  - rewrite library_state_0 in H. destruct id as [|[|id]]; cbn in H; [|discriminate H..]. injection H as <-. auto.
  - assert (Hprev : nth_error (w_origins (library_state b p w calls i)) id = Some name ->
      name = "unregistered origin" \/ name = "rust.ndarray" \/ name = "rust.EmptyArray"
      \/ exists k, k < S i /\ library_registered b p w calls k name id).
    { intros Hp. destruct (IH id name Hp) as [?|[?|[?|(k & Hk & Hr)]]]; auto. right. right. right. exists k. auto. }
    destruct (library_state_next b p calls w i) as [(t & c & v & r & Hc)|Hs]; [|rewrite Hs in H; auto].
    pose proof (library_called_step _ _ _ _ _ _ _ _ _ Hc) as Hstep.
    apply library_call_origins in Hstep as (_ & more & E & Hm); [|apply library_origins_state; assumption].
    rewrite E in H. destruct (Nat.lt_ge_cases id (length (w_origins (library_state b p w calls i)))) as [Hlt|Hge].
    { rewrite nth_error_app1 in H by assumption. auto. }
    rewrite nth_error_app2 in H by assumption. pose proof (nth_error_In _ _ H) as Hin.
    destruct (Hm name Hin) as [->|[->|(memory & id' & -> & -> & -> & -> & -> & ->)]]; [auto|auto|].
    right. right. right. exists i. split; [lia|]. left. exists t, memory. split; [|reflexivity].
    replace id with (length (w_origins (library_state b p w calls i))); [assumption|].
    destruct (id - length (w_origins (library_state b p w calls i))) as [|[|n]] eqn:En; [lia|discriminate H|discriminate H].
Qed.

Lemma library_names b p files calls j thread id buffer v :
  library_called b p (world_start files) calls j thread (Call (GetDataOrigin id (Some buffer))) v (Returned 0) ->
  exists name buffer', v = Plain (VText buffer') /\ holds_text buffer' name
  /\ (forall i n, i < j -> library_registered b p (world_start files) calls i n id -> n = name)
  /\ ((forall i n, i < j -> ~ library_registered b p (world_start files) calls i n id) ->
      name = "unregistered origin" \/ name = "rust.ndarray" \/ name = "rust.EmptyArray").
Proof.
  intros Hc. pose proof (library_origins_state b p _ calls j (origins_start files)) as Hw.
  destruct (get_data_origin_ok _ id Hw) as (name & Hn & Hcase). exists name.
  apply library_called_step in Hc. apply library_run_call_body in Hc as (w1 & o & H & Hr & _).
  cbn [library_body call_body] in H. unfold eqs_get_data_origin in H. rewrite Hn in H.
  destruct (copy_str_to_c p name buffer) as [b' o'] eqn:Ec. injection H as <- <- <-.
  exists b'. split; [reflexivity|]. split; [|split].
  - assert (o' = Ok tt) as ->.
    { apply catch_unwind_success in Hr as [Hr|(e & He & He0)]; [assumption|exfalso].
      unfold copy_str_to_c in Ec. destruct (length buffer); [destruct p|destruct (_ <? _)]; injection Ec as <- <-;
        destruct He as [He|(m & He & Hm)]; try discriminate He; [|injection He as <-; discriminate He0].
      rewrite Hm in He0. discriminate He0. }
    apply copy_str_to_c_ok in Ec as [_ ->]. eexists. reflexivity.
  - intros i n Hi Hr'. apply (library_registered_later b p _ calls i j) in Hr'; [|apply origins_start|assumption].
    destruct Hcase as [H|[H _]]; congruence.
  - intros Hno. destruct Hcase as [H|[_ H]]; [|auto].
    apply library_registered_before in H as [H|[H|[H|(k & Hk & Hr')]]]; auto. exfalso. eapply Hno; eauto.
Qed.
