(* Python frees objects (C81 to C84) *)
From Coq Require Import Lia Permutation.
From Verif Require Import Base BaseFacts Labels Array Block Tensor Npy Io Origin CApi Spec SpecTensor SpecIo SpecApi
  ApiFacts ReportFacts OwnerFacts ReachFacts HandleFacts SafeFacts CallFacts PyIo PyObjects SpecPyObjects PyObjectsFacts PyCallFacts
  PyStatementFacts PyMoveFacts.
Local Open Scope string_scope.
Local Open Scope list_scope.
Local Open Scope nat_scope.

Lemma free_call next p s w c w1 v : safe_with next s -> owners w -> plain_world w ->
  (forall a o, In a (arrays_called w c) -> wrapper_of s a = Some o -> exists_in s o) -> arrays_read w c = [] ->
  call_body p 0 w c = (w1, v, Ok tt) ->
  exists errors, py_call p (with_world s w) c = (with_world s (set_errors w1 errors), Ok v) /\ owners (set_errors w1 errors) /\ plain_world (set_errors w1 errors).
Proof.
  intros Hs Hw Hp Ha Hr Hb. unfold py_call. cbn [with_world py_world]. rewrite Hr.
  assert (Hcall : forall a, In a (arrays_called w c) -> call_array (with_world s w) a = Ok tt).
  { intros a Hin. unfold call_array. cbn [with_world py_wrapped]. destruct (hm_get Nat.eqb (py_wrapped s) a) as [o|] eqn:E; [|reflexivity].
    destruct (Ha a o Hin E) as [x Hx]. apply (safe_find Hs) in Hx. change (find_object (with_world s w) o) with (find_object s o). rewrite Hx. reflexivity. }
  rewrite (each_ok _ _ Hcall). cbn [bind each mapM].
  destruct (run_call p 0 w c) as [[w' v'] result] eqn:E.
  assert (Hz : result = Returned 0 /\ v' = v).
  { pose proof (run_call_body _ _ _ _ _ _ _ E) as (w2 & o2 & Hb2 & _ & _). rewrite Hb in Hb2. injection Hb2 as <- <- <-. split; [|reflexivity].
    apply (run_call_zero _ _ _ _ _ _ _ Hp E). exists w1. exact Hb. }
  destruct Hz as [-> ->].
  pose proof (owners_call _ _ _ _ _ _ _ Hw E ltac:(discriminate)) as Hown. pose proof (run_call_plain _ _ _ _ _ _ _ Hp E) as Hplain.
  apply run_call_body in E as (w2 & o2 & Hb2 & _ & Ew). rewrite Hb in Hb2. injection Hb2 as <- <-.
  exists (w_errors w'). assert (Ew' : set_errors w1 (w_errors w') = w') by (rewrite Ew; reflexivity). rewrite Ew'. split; [|auto].
  f_equal. change (after_call (with_world s w) w') with (after_call s w'). apply (after_call_world Hs).
Qed.

(* some of the objects were finalized *)
Record finalized (s : py_state) (l : list nat) (w : world) : Prop := mk_finalized {
  fz_owners : owners w;
  fz_plain : plain_world w;
  fz_next : w_next_array w = w_next_array (py_world s);
  fz_files : w_files w = w_files (py_world s);
  fz_blocks : forall h b, block_at w h b <-> block_at (py_world s) h b /\ forall o, In o l -> ~ frees_block s o h;
  fz_tensors : forall h t, tensor_at w h t <-> tensor_at (py_world s) h t /\ forall o, In o l -> ~ frees_tensor s o h;
}.

Lemma finalized_skip s l w o : (forall h, ~ frees_block s o h) -> (forall h, ~ frees_tensor s o h) -> finalized s l w -> finalized s (o :: l) w.
Proof.
  intros Hb Ht [F1 F2 F3 F4 F5 F6]. split; try assumption.
  - intros h b. rewrite F5. split; intros [H1 H2]; (split; [exact H1|]).
    + intros o' [<-|Hin]; auto.
    + intros o' Hin. apply H2. right. exact Hin.
  - intros h b. rewrite F6. split; intros [H1 H2]; (split; [exact H1|]).
    + intros o' [<-|Hin]; auto.
    + intros o' Hin. apply H2. right. exact Hin.
Qed.

Lemma finalize_one p s l w o : safe s -> finalized s l w -> ~ In o l ->
  exists w', finalize p (with_world s w) o = (with_world s w', Ok tt) /\ finalized s (o :: l) w'.
Proof.
  intros Hs F Hn. pose proof F as [F1 F2 F3 F4 F5 F6]. unfold finalize. change (find_object (with_world s w) o) with (find_object s o).
  assert (Hnone : forall x, find_object s o = Some x -> (forall h n ws p, x <> PyBlock (BlockAt h) n true ws p) -> (forall t l, x <> PyTensor t l) ->
    finalized s (o :: l) w).
  { intros x Hx H1 H2. apply (safe_find Hs) in Hx. apply finalized_skip; [| |exact F].
    - intros h (n & ws & parent & Ho). apply (H1 h n ws parent). eapply (safe_one Hs); eassumption.
    - intros h (l0 & Ho). apply (H2 h l0). eapply (safe_one Hs); eassumption. }
  destruct (find_object s o) as [x|] eqn:Ex.
  2: { exists w. split; [reflexivity|]. apply finalized_skip; [| |exact F].
       - intros h (n & ws & parent & Ho). apply (safe_find Hs) in Ho. congruence.
       - intros h (l0 & Ho). apply (safe_find Hs) in Ho. congruence. }
  destruct x as [a view children|ptr n owning ws parent|items|t l0|m parent];
    try (exists w; split; [reflexivity|]; eapply Hnone; [reflexivity|discriminate|discriminate]).
  - apply (safe_find Hs) in Ex. pose proof (st_local _ _ Hs _ _ Ex) as Hl. destruct ptr as [|h|t i]; cbn [local_ok] in Hl.
    + (* the block was moved to a tensor map *)
      rewrite Hl in *. destruct (free_call _ p s w (BlockFree BlockNull) w VNone Hs F1 F2) as (errors & -> & W1 & W2); [intros a o' []|reflexivity|reflexivity|].
      exists (set_errors w errors). split; [reflexivity|].
      assert (F' : finalized s (o :: l) w).
      { apply finalized_skip; [| |exact F].
        - intros h (n0 & ws0 & p0 & Ho). pose proof (safe_one Hs _ _ _ Ho Ex). discriminate.
        - intros h (l0 & Ho). pose proof (safe_one Hs _ _ _ Ho Ex). discriminate. }
      destruct F' as [G1 G2 G3 G4 G5 G6]. split; assumption.
    + destruct Hl as (-> & b & Hb & Hc).
      assert (Hbw : block_at w h b).
      { apply F5. split; [exact Hb|]. intros o' Hin Ho'. apply Hn. replace o with o'; [exact Hin|].
        eapply (st_block_owner _ _ Hs); [exact Ho'|]. exists n, ws, parent. exact Ex. }
      pose proof (own_blocks _ _ F1) as [Hnd _]. pose proof (BaseFacts.In_hm_get _ Nat.eqb_eq _ _ _ Hnd Hbw) as Hget.
      assert (Hbody : call_body p 0 w (BlockFree (BlockAt h)) = (destroy (set_blocks w (remove_handle h (w_blocks w))) (ob_arrays b), VNone, Ok tt)).
      { cbn [call_body]. unfold eqs_block_free, get_block. rewrite Hget. reflexivity. }
      destruct (fun H1 H2 => free_call _ p s w (BlockFree (BlockAt h)) _ _ Hs F1 F2 H1 H2 Hbody) as (errors & -> & W1 & W2); [|reflexivity|].
      * cbn [arrays_called]. unfold arrays_at. rewrite (points_to_read _ _ b F1); [|left; exists h; auto]. intros a o' Ha Hw.
        eapply (block_wrappers Hs); eassumption.
      * eexists. split; [reflexivity|]. split; try assumption.
        -- intros h' b'. unfold block_at. cbn [set_errors destroy set_blocks w_blocks]. rewrite remove_In.
           change (In (h', b') (w_blocks w)) with (block_at w h' b'). rewrite F5. split.
           ++ intros [[H1 H2] Hne]. split; [exact H1|]. intros o' [<-|Hin]; [|auto]. intros (n1 & ws1 & p1 & Ho'). pose proof (safe_one Hs _ _ _ Ho' Ex) as E.
              injection E as -> _ _ _. congruence.
           ++ intros [H1 H2]. split; [split; [exact H1|intros o' Hin; apply H2; right; exact Hin]|]. intros ->.
              apply (H2 o (or_introl eq_refl)). exists n, ws, parent. exact Ex.
        -- intros h' t'. unfold tensor_at. cbn [set_errors destroy set_blocks w_tensors]. change (In (h', t') (w_tensors w)) with (tensor_at w h' t'). rewrite F6. split.
           ++ intros [H1 H2]. split; [exact H1|]. intros o' [<-|Hin]; [|auto]. intros (l1 & Ho'). pose proof (safe_one Hs _ _ _ Ho' Ex). discriminate.
           ++ intros [H1 H2]. split; [exact H1|]. intros o' Hin. apply H2. right. exact Hin.
    + destruct Hl as (-> & _). exists w. split; [reflexivity|]. apply finalized_skip; [| |exact F].
      * intros h (n0 & ws0 & p0 & Ho). pose proof (safe_one Hs _ _ _ Ho Ex). discriminate.
      * intros h (l0 & Ho). pose proof (safe_one Hs _ _ _ Ho Ex). discriminate.
  - apply (safe_find Hs) in Ex. pose proof (st_local _ _ Hs _ _ Ex) as (ot & Ht & Hc).
    assert (Htw : tensor_at w t ot).
    { apply F6. split; [exact Ht|]. intros o' Hin Ho'. apply Hn. replace o with o'; [exact Hin|].
      eapply (st_tensor_owner _ _ Hs); [exact Ho'|]. exists l0. exact Ex. }
    pose proof (own_tensors _ _ F1) as [Hnd _]. pose proof (BaseFacts.In_hm_get _ Nat.eqb_eq _ _ _ Hnd Htw) as Hget.
    assert (Hbody : call_body p 0 w (TensorFree (Some t)) = (destroy (set_tensors w (remove_handle t (w_tensors w))) (concat (ot_arrays ot)), VNone, Ok tt)).
    { cbn [call_body]. unfold eqs_tensormap_free, get_tensor. rewrite Hget. reflexivity. }
    destruct (fun H1 H2 => free_call _ p s w (TensorFree (Some t)) _ _ Hs F1 F2 H1 H2 Hbody) as (errors & -> & W1 & W2); [|reflexivity|].
    + cbn [arrays_called]. unfold tensor_arrays. rewrite Hget. intros a o' Ha Hw. eapply (tensor_wrappers Hs); eassumption.
    + eexists. split; [reflexivity|]. split; try assumption.
      * intros h' b'. unfold block_at. cbn [set_errors destroy set_tensors w_blocks]. change (In (h', b') (w_blocks w)) with (block_at w h' b'). rewrite F5. split.
        -- intros [H1 H2]. split; [exact H1|]. intros o' [<-|Hin]; [|auto]. intros (n1 & ws1 & p1 & Ho'). pose proof (safe_one Hs _ _ _ Ho' Ex). discriminate.
        -- intros [H1 H2]. split; [exact H1|]. intros o' Hin. apply H2. right. exact Hin.
      * intros h' t'. unfold tensor_at. cbn [set_errors destroy set_tensors w_tensors]. rewrite remove_In.
        change (In (h', t') (w_tensors w)) with (tensor_at w h' t'). rewrite F6. split.
        -- intros [[H1 H2] Hne]. split; [exact H1|]. intros o' [<-|Hin]; [|auto]. intros (l1 & Ho'). pose proof (safe_one Hs _ _ _ Ho' Ex) as E.
           injection E as -> _. congruence.
        -- intros [H1 H2]. split; [split; [exact H1|intros o' Hin; apply H2; right; exact Hin]|]. intros ->.
           apply (H2 o (or_introl eq_refl)). exists l0. exact Ex.
Qed.

Lemma finalize_every p s rest : forall l w, safe s -> finalized s l w -> NoDup rest -> (forall o, In o rest -> ~ In o l) ->
  exists w' l', finalize_all p (with_world s w) rest = (with_world s w', Ok tt) /\ finalized s l' w' /\ forall o, In o l' <-> In o rest \/ In o l.
Proof.
  induction rest as [|o rest IH]; intros l w Hs F Hnd Hn; cbn [finalize_all].
  - exists w, l. split; [reflexivity|]. split; [exact F|]. intros o. split; [auto|]. intros [[]|H]; exact H.
  - apply NoDup_cons_iff in Hnd as [Hno Hnd]. destruct (finalize_one p s l w o Hs F (Hn o (or_introl eq_refl))) as (w1 & -> & F1). cbn [and_then].
    destruct (IH (o :: l) w1 Hs F1 Hnd) as (w' & l' & E & F' & Hl').
    + intros o' Hin [->|Hl]; [contradiction|]. exact (Hn o' (or_intror Hin) Hl).
    + exists w', l'. split; [exact E|]. split; [exact F'|]. intros o'. rewrite Hl'. cbn [In]. tauto.
Qed.

Lemma finalized_list s l l' w : (forall o, In o l <-> In o l') -> finalized s l w -> finalized s l' w.
Proof.
  intros H [F1 F2 F3 F4 F5 F6]. split; try assumption.
  - intros h b. rewrite F5. split; intros [H1 H2]; (split; [exact H1|]); intros o Ho; apply H2; apply H; exact Ho.
  - intros h b. rewrite F6. split; intros [H1 H2]; (split; [exact H1|]); intros o Ho; apply H2; apply H; exact Ho.
Qed.

Definition keep_objects (s : py_state) (w : world) (objects : list nat) : py_state :=
  with_objects (with_world s w) (filter (fun ox => negb (mem Nat.eqb (fst ox) objects)) (py_objects s)).

Lemma keep_is s w objects o x : object_is (keep_objects s w objects) o x <-> object_is s o x /\ ~ In o objects.
Proof.
  unfold keep_objects, object_is. cbn [with_objects with_world py_objects]. rewrite filter_In. cbn [fst]. rewrite negb_true_iff, (mem_false _ Nat.eqb_eq). reflexivity.
Qed.

Lemma collect_true p s objects : safe s -> unreachable s objects = true ->
  exists w, py_collect p s objects = nothing (keep_objects s w objects) /\ finalized s objects w
       /\ (forall o, In o (py_variables s) -> ~ In o objects)
       /\ (forall o x r, object_is s o x -> ~ In o objects -> In r (references x) -> ~ In r objects).
Proof.
  intros Hs Eu. unfold py_collect. rewrite Eu.
  destruct (finalize_every p s (nodup Nat.eq_dec objects) [] (py_world s) Hs) as (w & l & E & F & Hl).
  { split; try reflexivity; [apply (st_owners _ _ Hs)|apply (st_plain _ _ Hs)|..]; intros h b; split; [intros H; split; [exact H|intros o []]|intros [H _]; exact H|intros H; split; [exact H|intros o []]|intros [H _]; exact H]. }
  { apply NoDup_nodup. }
  { intros o _ []. }
  exists w. assert (Es : with_world s (py_world s) = s) by (destruct s; reflexivity). rewrite Es in E. rewrite E. cbn [and_then].
  unfold unreachable in Eu. apply andb_true_iff in Eu as [U1 U2]. rewrite forallb_forall in U1, U2.
  split; [reflexivity|]. split; [|split].
  - eapply finalized_list; [|exact F]. intros o. rewrite Hl, nodup_In. cbn [In]. tauto.
  - intros o Hv Hin. specialize (U1 _ Hin). apply negb_true_iff in U1. apply (mem_false _ Nat.eqb_eq) in U1. contradiction.
  - intros o x r Ho Hn Hr Hin. specialize (U2 _ Ho). cbn [fst snd] in U2. apply orb_true_iff in U2 as [U2|U2].
    + apply (mem_spec _ Nat.eqb_eq) in U2. contradiction.
    + rewrite forallb_forall in U2. specialize (U2 _ Hr). apply negb_true_iff in U2. apply (mem_false _ Nat.eqb_eq) in U2. contradiction.
Qed.

Lemma collect_cases p s objects : safe s ->
  (py_collect p s objects = nothing s)
  \/ exists w, py_collect p s objects = nothing (keep_objects s w objects) /\ finalized s objects w
       /\ (forall o, In o (py_variables s) -> ~ In o objects)
       /\ (forall o x r, object_is s o x -> ~ In o objects -> In r (references x) -> ~ In r objects).
Proof.
  intros Hs. destruct (unreachable s objects) eqn:Eu; [right; apply collect_true; assumption|]. left. unfold py_collect. rewrite Eu. reflexivity.
Qed.

Section Keep.
  Variables (s : py_state) (w : world) (objects : list nat).
  Hypothesis Hs : safe s.
  Hypothesis F : finalized s objects w.
  Hypothesis Hv : forall o, In o (py_variables s) -> ~ In o objects.
  Hypothesis Hr : forall o x r, object_is s o x -> ~ In o objects -> In r (references x) -> ~ In r objects.
  Let s' := keep_objects s w objects.

  Lemma keep_exists r : exists_in s r -> ~ In r objects -> exists_in s' r.
  Proof. intros [x Hx] Hn. exists x. apply keep_is. auto. Qed.

  Lemma keep_keeps o o' : keeps s o o' -> ~ In o objects -> keeps s' o o'.
  Proof.
    induction 1 as [o|o a view children c o' Ho Hc Hk IH]; intros Hn; [constructor|]. econstructor; [apply keep_is; split; [exact Ho|exact Hn]|exact Hc|].
    apply IH. eapply Hr; [exact Ho|exact Hn|]. cbn [references]. apply in_or_app. auto.
  Qed.

  Lemma keep_chain lo o : chain s (Some lo) o -> ~ In lo objects -> chain s' (Some lo) o.
  Proof.
    intros (lo' & items & b & ptr & n & owning & ws & parent & first & E & C1 & C2 & C3 & C4 & C5) Hn. injection E as <-.
    assert (Hb : ~ In b objects) by (eapply Hr; [exact C1|exact Hn|exact C2]).
    assert (Hf : ~ In first objects) by (eapply Hr; [exact C3|exact Hb|cbn [references]; apply in_or_app; auto]).
    exists lo, items, b, ptr, n, owning, ws, parent, first. split; [reflexivity|]. split; [apply keep_is; auto|]. split; [exact C2|].
    split; [apply keep_is; auto|]. split; [exact C4|]. apply keep_keeps; assumption.
  Qed.

  Lemma keep_block o h b : frees_block s o h -> ~ In o objects -> block_at (py_world s) h b -> block_at w h b.
  Proof.
    intros Ho Hn Hb. apply (fz_blocks _ _ _ F). split; [exact Hb|]. intros o' Hin Ho'. apply Hn. replace o with o'; [exact Hin|].
    eapply (st_block_owner _ _ Hs); eassumption.
  Qed.

  Lemma keep_tensor o h b : frees_tensor s o h -> ~ In o objects -> tensor_at (py_world s) h b -> tensor_at w h b.
  Proof.
    intros Ho Hn Hb. apply (fz_tensors _ _ _ F). split; [exact Hb|]. intros o' Hin Ho'. apply Hn. replace o with o'; [exact Hin|].
    eapply (st_tensor_owner _ _ Hs); eassumption.
  Qed.

  Lemma keep_points ptr b : points_to w ptr b -> points_to (py_world s) ptr b.
  Proof.
    intros [(h & -> & Hb)|(t & i & ot & -> & Ht & H1 & H2)].
    - left. exists h. split; [reflexivity|]. apply (fz_blocks _ _ _ F) in Hb. apply Hb.
    - right. exists t, i, ot. split; [reflexivity|]. apply (fz_tensors _ _ _ F) in Ht. destruct Ht as [Ht _]. auto.
  Qed.

  Lemma safe_keep : safe s'.
  Proof.
    split.
    - apply (fz_owners _ _ _ F).
    - apply (fz_plain _ _ _ F).
    - pose proof (st_ids _ _ Hs) as [H1 H2]. unfold s', keep_objects. cbn [with_objects with_world py_objects py_next]. split.
      + clear -H1. induction (py_objects s) as [|[o x] l IH]; cbn [filter map]; [constructor|]. cbn [map fst] in H1. apply NoDup_cons_iff in H1 as [H1 H1'].
        cbn [fst]. destruct (negb _); [|auto]. cbn [map fst]. constructor; [|auto]. intros Hin. apply H1. apply in_map_iff in Hin as (y & E & Hin).
        apply filter_In in Hin as [Hin _]. rewrite <- E. apply in_map. exact Hin.
      + rewrite Forall_forall in *. intros x Hx. apply filter_In in Hx as [Hx _]. auto.
    - intros o x r Ho Hin. apply keep_is in Ho as [Ho Hn]. apply keep_exists; [eapply (st_references _ _ Hs); eassumption|eapply Hr; eassumption].
    - intros r Hin. apply keep_exists; [apply (st_variables _ _ Hs); exact Hin|apply Hv; exact Hin].
    - intros a o Ha. destruct (st_wrapped _ _ Hs a o Ha) as (A1 & A2 & A3). unfold s'. cbn [keep_objects with_objects with_world py_world py_next].
      rewrite (fz_next _ _ _ F). split; [exact A1|]. split; [exact A2|]. intros x Hx. apply keep_is in Hx as [Hx _]. auto.
    - intros o x Ho. apply keep_is in Ho as [Ho Hn]. pose proof (st_local _ _ Hs _ _ Ho) as Hl.
      destruct x as [a view children|ptr n owning ws parent|items|t l|m parent]; try exact Hl.
      + destruct ptr as [|h|t i]; try exact Hl; cbn [local_ok] in *.
        * destruct Hl as (-> & b & Hb & Hc). split; [reflexivity|]. exists b. split; [|exact Hc]. eapply keep_block; [|exact Hn|exact Hb].
          exists n, ws, parent. exact Ho.
        * destruct Hl as (-> & po & l & -> & Hpo & Hle & Hi). split; [reflexivity|]. exists po, l.
          assert (Hnp : ~ In po objects) by (eapply Hr; [exact Ho|exact Hn|cbn [references optional]; apply in_or_app; right; left; reflexivity]).
          split; [reflexivity|]. split; [apply keep_is; auto|]. split; [exact Hle|]. intros E. destruct (Hi E) as (ot & Ht & Hlt). exists ot.
          split; [|exact Hlt]. eapply keep_tensor; [exists l; exact Hpo|exact Hnp|exact Ht].
      + cbn [local_ok] in *. destruct Hl as (ot & Ht & Hc). exists ot. split; [eapply keep_tensor; [exists l; exact Ho|exact Hn|exact Ht]|].
        intros a wr Ha Hw. pose proof (Hc a wr Ha Hw) as Hch. pose proof Hch as (lo & rest). destruct rest as (i1 & i2 & i3 & i4 & i5 & i6 & i7 & i8 & El & _). subst l.
        apply keep_chain; [exact Hch|]. eapply Hr; [exact Ho|exact Hn|]. left. reflexivity.
      + destruct parent as [po|]; [|exact Hl]. assert (Hnp : ~ In po objects) by (eapply Hr; [exact Ho|exact Hn|left; reflexivity]).
        destruct m as [a n|t n]; cbn [local_ok] in *.
        * destruct Hl as (ptr & n' & owning & ws & parent & Hpo & Hb). exists ptr, n', owning, ws, parent. split; [apply keep_is; auto|].
          intros b Hf Hp. apply Hb; [exact Hf|]. apply keep_points. exact Hp.
        * destruct Hl as (l & Hpo). exists l. apply keep_is. auto.
    - intros o o' h (n & ws & parent & H1) (n' & ws' & parent' & H2). apply keep_is in H1 as [H1 _]. apply keep_is in H2 as [H2 _].
      eapply (st_block_owner _ _ Hs); eexists _, _, _; eassumption.
    - intros o o' h (l & H1) (l' & H2). apply keep_is in H1 as [H1 _]. apply keep_is in H2 as [H2 _].
      eapply (st_tensor_owner _ _ Hs); eexists; eassumption.
  Qed.

  Lemma tidy_keep : tidy s -> tidy s'.
  Proof.
    intros [T1 T2]. split.
    - intros h b Hb. apply (fz_blocks _ _ _ F) in Hb as [Hb Hf]. destruct (T1 h b Hb) as [o Ho]. exists o.
      assert (Hn : ~ In o objects) by (intros Hin; exact (Hf o Hin Ho)). destruct Ho as (n & ws & parent & Ho). exists n, ws, parent. apply keep_is. auto.
    - intros h b Hb. apply (fz_tensors _ _ _ F) in Hb as [Hb Hf]. destruct (T2 h b Hb) as [o Ho]. exists o.
      assert (Hn : ~ In o objects) by (intros Hin; exact (Hf o Hin Ho)). destruct Ho as (l & Ho). exists l. apply keep_is. auto.
  Qed.
End Keep.

Lemma fine_collect p s objects : safe s -> fine s (py_collect p s objects).
Proof.
  intros Hs. destruct (collect_cases p s objects Hs) as [->|(w & -> & F & Hv & Hr)]; [apply fine_nothing; exact Hs|].
  split; [apply safe_keep; assumption|]. split; [discriminate|]. apply tidy_keep. exact F.
Qed.

(** * All statements *)

Lemma fine_weaken {A} s (r : py_state * outcome A) : fine s r -> fine_made s r.
Proof. intros (H1 & H2 & H3). split; [exact H1|]. split; [exact H2|]. auto. Qed.

Lemma step_fine p s st : safe s -> careful_statement s st ->
  fine_made s (py_step p s st) /\ ((forall keys labels blocks, st <> NewTensor keys labels blocks) -> fine s (py_step p s st)).
Proof.
  intros Hs Hc. assert (Hw : fine s (py_step p s st) -> fine_made s (py_step p s st) /\ ((forall keys labels blocks, st <> NewTensor keys labels blocks) -> fine s (py_step p s st))).
  { intros H. split; [apply fine_weaken; exact H|auto]. }
  destruct st; cbn [py_step careful_statement] in *.
  - apply Hw. destruct Hc as (-> & R1 & R2 & R3 & Hl). apply fine_new_block; assumption.
  - apply Hw. apply fine_copy; assumption.
  - apply Hw. destruct Hc as (-> & R1 & R2 & Hl & Ho). apply fine_add_gradient; assumption.
  - apply Hw. apply fine_part; assumption.
  - apply Hw. apply fine_part_labels; assumption.
  - apply Hw. apply fine_gradients_list; assumption.
  - apply Hw. apply fine_new_list; assumption.
  - apply Hw. apply fine_set_list; assumption.
  - apply Hw. apply fine_list_item; assumption.
  - destruct Hc as (R1 & Hl & Hf). split; [apply fine_new_tensor; assumption|]. intros H. destruct (H _ _ _ eq_refl).
  - apply Hw. apply fine_keys; assumption.
  - apply Hw. apply fine_block_at; assumption.
  - apply Hw. destruct Hc as (R1 & Hl). apply fine_matching; assumption.
  - apply Hw. destruct Hc as (R1 & Hl & Ho). apply fine_move; [exact Hs|exact Hl|]. intros t l Ht. split; [|split; [reflexivity|]].
    + split; [|split; [exact R1|exact (Ho _ _ Ht)]]. intros h E. injection E as <-. pose proof (st_local _ _ Hs _ _ Ht) as (ot & Hot & _). exists ot. exact Hot.
    + exists keys, temporary, (fun t keys => keys_to_properties p t keys sort). split; [apply keys_to_properties_keeps|]. cbn [call_body]. unfold eqs_tensormap_keys_to_properties. reflexivity.
  - apply Hw. destruct Hc as (R1 & Hl & Ho). apply fine_move; [exact Hs|exact Hl|]. intros t l Ht. split; [|split; [reflexivity|]].
    + split; [|split; [exact R1|exact (Ho _ _ Ht)]]. intros h E. injection E as <-. pose proof (st_local _ _ Hs _ _ Ht) as (ot & Hot & _). exists ot. exact Hot.
    + exists keys, temporary, (fun t keys => keys_to_samples p t keys sort). split; [apply keys_to_samples_keeps|]. cbn [call_body]. unfold eqs_tensormap_keys_to_samples. reflexivity.
  - apply Hw. apply fine_components; assumption.
  - apply Hw. apply fine_load; assumption.
  - apply Hw. apply fine_save; assumption.
  - apply Hw. apply fine_py_read; assumption.
  - apply Hw. apply fine_as_array; assumption.
  - apply Hw. apply fine_forget; assumption.
  - apply Hw. apply fine_collect; assumption.
Qed.
