(* Python programs (C81 to C84) *)
From Coq Require Import Lia Permutation.
From Verif Require Import Base BaseFacts Labels Array Block Tensor Npy Io Origin CApi Spec SpecTensor SpecIo SpecApi
  ApiFacts ReportFacts OwnerFacts ReachFacts HandleFacts SafeFacts CallFacts PyIo PyObjects SpecPyObjects PyObjectsFacts PyCallFacts
  PyStatementFacts PyMoveFacts PyCollectFacts.
Local Open Scope string_scope.
Local Open Scope list_scope.
Local Open Scope nat_scope.

Lemma py_run_app p before : forall s after,
  py_run p s (before ++ after) = let? s' := py_run p s before in py_run p s' after.
Proof.
  induction before as [|st before IH]; intros s after; [reflexivity|]. cbn [app py_run].
  destruct (py_step p s st) as [s1 [v|e|m|r]]; try apply IH; reflexivity.
Qed.

(* the state after each statement *)
Lemma program_safe p files program : careful p files program ->
  forall before after, program = before ++ after ->
  defined (py_run p (py_start files) before) /\ forall s, py_run p (py_start files) before = Ok s -> safe s.
Proof.
  intros Hc before. induction before as [|st before IH] using rev_ind; intros after E.
  - cbn [py_run]. split; [discriminate|]. intros s H. injection H as <-. apply safe_start.
  - rewrite <- app_assoc in E. cbn [app] in E. destruct (IH _ E) as [Hd Hs]. rewrite py_run_app.
    destruct (py_run p (py_start files) before) as [s|e|m|r] eqn:Er; cbn [bind]; [|split; discriminate|split; discriminate|destruct (Hd r eq_refl)].
    specialize (Hs s eq_refl). pose proof (Hc _ _ _ _ E Er) as Hst. destruct (step_fine p s st Hs Hst) as [(F1 & F2 & _) _]. cbn [py_run].
    destruct (py_step p s st) as [s' o]; cbn [fst snd] in F1, F2. destruct o as [v|e|m|r]; [..|destruct (F2 r eq_refl)];
      (split; [discriminate|]); intros s0 H; try discriminate H; injection H as <-; exact F1.
Qed.

Lemma program_end p files program s : careful p files program -> py_run p (py_start files) program = Ok s -> safe s.
Proof. intros Hc E. destruct (program_safe p files program Hc program []) as [_ H]; [symmetry; apply app_nil_r|]. exact (H s E). Qed.

(** * C81 *)

Lemma careful_defined p files program : careful p files program ->
  forall reason, py_run p (py_start files) program <> Undefined reason.
Proof. intros Hc. destruct (program_safe p files program Hc program []) as [H _]; [symmetry; apply app_nil_r|]. exact H. Qed.

(** * C82 *)

Lemma tidy_start files : tidy (py_start files).
Proof. split; intros h b []. Qed.

Lemma program_tidy p files program : careful p files program -> tensors_made p files program ->
  forall before after s, program = before ++ after -> py_run p (py_start files) before = Ok s -> tidy s.
Proof.
  intros Hc Hm before. induction before as [|st before IH] using rev_ind; intros after s E Hr.
  - injection Hr as <-. apply tidy_start.
  - rewrite <- app_assoc in E. cbn [app] in E. rewrite py_run_app in Hr. apply bind_ok in Hr as (s0 & Hr0 & Hr).
    destruct (program_safe p files program Hc _ _ E) as [_ Hs]. specialize (Hs s0 Hr0). specialize (IH _ s0 E Hr0).
    destruct (step_fine p s0 st Hs (Hc _ _ _ _ E Hr0)) as [(_ & _ & F3) F]. cbn [py_run] in Hr.
    assert (Ht : tidy (fst (py_step p s0 st))).
    { destruct st; try (apply F; [discriminate|exact IH]). apply F3; [exact IH|]. destruct (Hm _ _ _ _ _ _ E Hr0) as (s' & v & ->). exists v. reflexivity. }
    destruct (py_step p s0 st) as [s1 [v|e|m|r]]; try discriminate Hr; injection Hr as <-; exact Ht.
Qed.

Lemma owners_in_python p files program s : careful p files program -> tensors_made p files program ->
  py_run p (py_start files) program = Ok s ->
  (forall h, (exists b, block_at (py_world s) h b) <-> exists o, frees_block s o h /\ forall o', frees_block s o' h -> o' = o)
  /\ (forall h, (exists t, tensor_at (py_world s) h t) <-> exists o, frees_tensor s o h /\ forall o', frees_tensor s o' h -> o' = o).
Proof.
  intros Hc Hm E. pose proof (program_end _ _ _ _ Hc E) as Hs.
  destruct (program_tidy _ _ _ Hc Hm program [] s) as [T1 T2]; [symmetry; apply app_nil_r|exact E|]. split; intros h; split.
  - intros [b Hb]. destruct (T1 h b Hb) as [o Ho]. exists o. split; [exact Ho|]. intros o' Ho'. eapply (st_block_owner _ _ Hs); eassumption.
  - intros (o & Ho & _). apply (frees_block_at Hs) in Ho. exact Ho.
  - intros [b Hb]. destruct (T2 h b Hb) as [o Ho]. exists o. split; [exact Ho|]. intros o' Ho'. eapply (st_tensor_owner _ _ Hs); eassumption.
  - intros (o & Ho & _). apply (frees_tensor_at Hs) in Ho. exact Ho.
Qed.

Lemma empty_list {A} (l : list A) : (forall a, ~ In a l) -> l = [].
Proof. destruct l as [|a l]; [reflexivity|]. intros H. destruct (H a (or_introl eq_refl)). Qed.

Lemma forget_variables (l : list nat) : filter (fun o => negb (mem Nat.eqb o l)) l = [].
Proof.
  apply empty_list. intros a Ha. apply filter_In in Ha as [H1 H2]. apply negb_true_iff in H2. apply (mem_false _ Nat.eqb_eq) in H2. contradiction.
Qed.

Lemma end_collects p s : safe s -> exists s', py_run p s (at_end s) = Ok s' /\ py_objects s' = []
  /\ w_next_array (py_world s') = w_next_array (py_world s) /\ w_files (py_world s') = w_files (py_world s)
  /\ owners (py_world s') /\ (tidy s -> w_blocks (py_world s') = [] /\ w_tensors (py_world s') = []).
Proof.
  intros Hs. unfold at_end. cbn [py_run py_step]. unfold py_forget, nothing. rewrite forget_variables.
  set (s1 := with_variables s []). assert (Hs1 : safe s1).
  { pose proof (fine_forget s (py_variables s) Hs) as (H & _). unfold py_forget, nothing in H. rewrite forget_variables in H. exact H. }
  assert (Hu : unreachable s1 (all_objects s) = true).
  { unfold unreachable. apply andb_true_iff. split; apply forallb_forall.
    - intros o _. reflexivity.
    - intros [o x] Hx. cbn [fst]. apply orb_true_iff. left. apply (mem_spec _ Nat.eqb_eq). apply (in_map fst) in Hx. exact Hx. }
  assert (Hkeep : forall w, py_objects (keep_objects s1 w (all_objects s)) = []).
  { intros w. apply empty_list. intros [o x] Hx. change (object_is (keep_objects s1 w (all_objects s)) o x) in Hx. apply keep_is in Hx as [Hx Hn]. apply Hn.
    apply (in_map fst) in Hx. exact Hx. }
  destruct (collect_true p s1 (all_objects s) Hs1 Hu) as (w & -> & F & _). cbn [nothing]. eexists. split; [reflexivity|]. split; [apply Hkeep|].
  split; [apply (fz_next _ _ _ F)|]. split; [apply (fz_files _ _ _ F)|]. split; [apply (fz_owners _ _ _ F)|]. cbn [keep_objects with_objects with_world py_world].
  intros [T1 T2]. split; apply empty_list; intros [h b] Hb.
  - apply (fz_blocks _ _ _ F) in Hb as [Hb Hn]. destruct (T1 h b Hb) as [o Ho]. apply (Hn o); [|exact Ho]. destruct Ho as (n & ws & parent & Ho).
    apply (in_map fst) in Ho. exact Ho.
  - apply (fz_tensors _ _ _ F) in Hb as [Hb Hn]. destruct (T2 h b Hb) as [o Ho]. apply (Hn o); [|exact Ho]. destruct Ho as (l & Ho).
    apply (in_map fst) in Ho. exact Ho.
Qed.

Lemma all_freed p files program s : careful p files program -> tensors_made p files program ->
  py_run p (py_start files) program = Ok s ->
  exists s', py_run p s (at_end s) = Ok s' /\ py_objects s' = [] /\ w_blocks (py_world s') = [] /\ w_tensors (py_world s') = []
    /\ w_files (py_world s') = w_files (py_world s)
    /\ Permutation (w_destroyed (py_world s')) (seq 0 (w_next_array (py_world s'))).
Proof.
  intros Hc Hm E. pose proof (program_end _ _ _ _ Hc E) as Hs.
  pose proof (program_tidy _ _ _ Hc Hm program [] s (eq_sym (app_nil_r _)) E) as Ht.
  destruct (end_collects p s Hs) as (s' & Er & Eo & _ & Ef & Hown & Htidy). destruct (Htidy Ht) as [Eb Et]. exists s'.
  split; [exact Er|]. split; [exact Eo|]. split; [exact Eb|]. split; [exact Et|]. split; [exact Ef|].
  destruct (arrays_once _ Hown) as (H1 & _ & _ & H4 & H5). apply NoDup_Permutation; [exact H1|apply seq_NoDup|]. intros a. rewrite in_seq. split.
  - intros Ha. split; [apply Nat.le_0_l|]. apply H4. right. exact Ha.
  - intros [_ Ha]. apply (H5 Eb Et). exact Ha.
Qed.

(** * C83 *)

Lemma reachable_kept s objects o : (forall o, In o (py_variables s) -> ~ In o objects) ->
  (forall o x r, object_is s o x -> ~ In o objects -> In r (references x) -> ~ In r objects) -> reachable s o -> ~ In o objects.
Proof. intros Hv Hr. induction 1 as [o Ho|o x r _ IH Hx Hin]; [auto|]. eapply Hr; eassumption. Qed.

Lemma collect_unobservable p files program s objects : careful p files program -> py_run p (py_start files) program = Ok s ->
  exists s', py_step p s (Collect objects) = (s', Ok None)
    /\ py_variables s' = py_variables s /\ w_files (py_world s') = w_files (py_world s)
    /\ (forall o x, reachable s o -> (object_is s' o x <-> object_is s o x))
    /\ (forall o ptr before owning wrappers parent, reachable s o -> current_block s o ->
          object_is s o (PyBlock ptr before owning wrappers parent) ->
          current_block s' o /\ forall b, points_to (py_world s') ptr b <-> points_to (py_world s) ptr b)
    /\ (forall o ptr blocks, reachable s o -> object_is s o (PyTensor ptr blocks) ->
          forall t, tensor_at (py_world s') ptr t <-> tensor_at (py_world s) ptr t)
    /\ (forall o, In o (py_variables s) -> current_view s o ->
          current_view s' o /\ snd (py_step p s' (Read o)) = snd (py_step p s (Read o))).
Proof.
  intros Hc E. pose proof (program_end _ _ _ _ Hc E) as Hs. cbn [py_step].
  destruct (collect_cases p s objects Hs) as [->|(w & -> & F & Hv & Hr)].
  { exists s. split; [reflexivity|]. split; [reflexivity|]. split; [reflexivity|]. split; [reflexivity|].
    split; [split; [assumption|reflexivity]|]. split; [reflexivity|]. split; [assumption|reflexivity]. }
  pose proof (safe_keep s w objects Hs F Hv Hr) as Hs'. set (s' := keep_objects s w objects) in *.
  assert (Hkeep : forall o, reachable s o -> ~ In o objects) by (intros o; apply reachable_kept; assumption).
  assert (Hobj : forall o x, reachable s o -> (object_is s' o x <-> object_is s o x)).
  { intros o x Ho. unfold s'. rewrite keep_is. pose proof (Hkeep o Ho). tauto. }
  assert (Hcur : forall o, reachable s o -> current_block s o -> current_block s' o).
  { intros o Ho H t i before owning wrappers parent Hx. apply (Hobj _ _ Ho) in Hx. exact (H _ _ _ _ _ _ Hx). }
  assert (Hten : forall o t l, reachable s o -> object_is s o (PyTensor t l) -> forall ot, tensor_at w t ot <-> tensor_at (py_world s) t ot).
  { intros o t l Ho Hx ot. split; [intros H; apply (fz_tensors _ _ _ F) in H; apply H|]. eapply keep_tensor; [exact Hs|exact F|exists l; exact Hx|exact (Hkeep o Ho)]. }
  assert (Hview : forall o, reachable s o -> current_view s o -> current_view s' o).
  { intros o Ho H m parent Hx. apply (Hobj _ _ Ho) in Hx. destruct (H m parent Hx) as (source & x & -> & Hsrc & Hm).
    assert (Hreach : reachable s source) by (eapply reachable_reference; [exact Ho|exact Hx|left; reflexivity]).
    exists source, x. split; [reflexivity|]. split; [apply (Hobj _ _ Hreach); exact Hsrc|]. destruct m, x; try exact Hm. destruct Hm as (H1 & H2 & H3). auto. }
  exists s'. split; [reflexivity|]. split; [reflexivity|]. split; [apply (fz_files _ _ _ F)|]. split; [exact Hobj|]. split; [|split].
  - intros o ptr before owning wrappers parent Ho Hcb Hx. split; [apply Hcur; assumption|]. intros b. split; [apply (keep_points s w objects F)|].
    intros Hb. pose proof (st_local _ _ Hs _ _ Hx) as Hl. destruct Hb as [(h & -> & Hb)|(t & i & ot & -> & Ht & H1 & H2)].
    + left. exists h. split; [reflexivity|]. destruct Hl as (-> & _). eapply keep_block; [exact Hs|exact F| |exact (Hkeep o Ho)|exact Hb]. eexists _, _, _. exact Hx.
    + right. exists t, i, ot. split; [reflexivity|]. split; [|auto]. destruct Hl as (-> & po & l & -> & Hpo & _).
      assert (Hreach : reachable s po) by (eapply reachable_reference; [exact Ho|exact Hx|cbn [references optional]; apply in_or_app; right; left; reflexivity]).
      apply (Hten po t l Hreach Hpo). exact Ht.
  - exact Hten.
  - intros o Ho Hcv. pose proof (Hview o (reachable_variable s o Ho) Hcv) as Hcv'. split; [exact Hcv'|]. cbn [py_step]. unfold py_read, read_view.
    destruct (st_variables _ _ Hs o Ho) as [x Hx]. pose proof (proj2 (Hobj o x (reachable_variable s o Ho)) Hx) as Hx'.
    unfold variable. change (py_variables s') with (py_variables s). rewrite (proj2 (mem_spec _ Nat.eqb_eq _ _) Ho).
    rewrite (proj2 (safe_find Hs o x) Hx), (proj2 (safe_find Hs' o x) Hx'). cbn [bind].
    destruct x; try reflexivity. unfold check_memory. rewrite (view_there Hs _ _ _ Hx Hcv), (view_there Hs' _ _ _ Hx' Hcv'). reflexivity.
Qed.

(** * C84 *)

Lemma read_part p files program s o ptr before owning wrappers parent :
  careful p files program -> py_run p (py_start files) program = Ok s ->
  In o (py_variables s) -> object_is s o (PyBlock ptr before owning wrappers parent) -> current_block s o -> ptr <> BlockNull ->
  exists b, points_to (py_world s) ptr b
    /\ forall name part, utf8_text name -> named_part (ob_block b) (c_str name) part ->
       exists s' v, py_step p s (PartOf o name) = (s', Ok v)
         /\ forall view, v = Some view -> current_view s' view /\ snd (py_step p s' (Read view)) = Ok None.
Proof.
  intros Hc E Hvar Ho Hcur Hnull. pose proof (program_end _ _ _ _ Hc E) as Hs. cbn [py_step]. unfold py_part.
  assert (Eptr : block_pointer_of s o = Ok ptr).
  { unfold block_pointer_of, variable. rewrite (proj2 (mem_spec _ Nat.eqb_eq _ _) Hvar), (proj2 (safe_find Hs o _) Ho). cbn [bind].
    destruct ptr as [|h|t i]; try reflexivity. rewrite (Hcur _ _ _ _ _ _ Ho). unfold moves, times. rewrite Nat.eqb_refl. reflexivity. }
  destruct (block_pointer_ok Hs _ _ Hcur Eptr) as [Hg _]. destruct Hg as [[Hg|[b Hp]] Hg']; [contradiction|]. exists b. split; [exact Hp|].
  intros name part Hu Hpart. rewrite Eptr. cbn [and_then]. pose proof (points_to_read _ _ _ (st_owners _ _ Hs) Hp) as Hread.
  destruct (read_block_owned _ _ _ (st_owners _ _ Hs) Hread) as [Harr _].
  destruct (select_array_ok b _ _ Harr Hpart) as (a & Ha & Hin).
  assert (Hsel : exists part', select_basic_block (ob_block b) (c_str name) = Ok part').
  { unfold select_basic_block. destruct (String.eqb_spec (c_str name) "values") as [En|En]; [eexists; reflexivity|].
    destruct Hpart as [[H _]|[_ H]]; [contradiction|]. unfold tensor_block_gradient. destruct (hm_get String.eqb (tb_gradients (ob_block b)) (c_str name)) as [g|] eqn:Eg; [eexists; reflexivity|].
    apply (BaseFacts.hm_get_None _ String.eqb_eq) in Eg. exfalso. apply Eg. apply (in_map fst) in H. exact H. }
  destruct Hsel as [part' Hsel].
  assert (Hbody : call_body p 0 (py_world s) (BlockData ptr (Some name) out) = (py_world s, VArray (mk_given (bb_data part') a false), Ok tt)).
  { cbn [call_body]. unfold eqs_block_data. apply reading_ok. rewrite (read_block_pointer _ _ _ Hread). cbn [bind check_pointer]. rewrite (utf8_str _ _ Hu). cbn [bind].
    rewrite Hread. cbn [bind]. rewrite Hsel. cbn [bind]. rewrite Ha. reflexivity. }
  destruct (fun H1 H2 => free_call _ p s (py_world s) (BlockData ptr (Some name) out) _ _ Hs (st_owners _ _ Hs) (st_plain _ _ Hs) H1 H2 Hbody) as (errors & Ecall & _ & _); [intros x y []|reflexivity|].
  assert (Es : with_world s (py_world s) = s) by (destruct s; reflexivity). rewrite Es in Ecall. rewrite Ecall. cbn [and_then]. cbv zeta. cbn [ga_id].
  set (s1 := with_world s (set_errors (py_world s) errors)).
  assert (Hw : forall wr, wrapper_of s a = Some wr -> exists children, find_object s wr = Some (PyWrapper a None children)).
  { intros wr Hwr. destruct (Hg' a wr) as [x Hx]; [unfold arrays_at; rewrite Hread; exact Hin|exact Hwr|].
    destruct (st_wrapped _ _ Hs a wr Hwr) as (_ & _ & H3). destruct (H3 x Hx) as [children ->]. exists children. apply (safe_find Hs). exact Hx. }
  unfold call_array. change (py_wrapped s1) with (py_wrapped s). fold (wrapper_of s a).
  destruct (wrapper_of s a) as [wr|] eqn:Ew.
  { destruct (Hw wr eq_refl) as [children Hx]. change (find_object s1 wr) with (find_object s wr). rewrite Hx. cbn [and_then].
    exists s1, None. split; [reflexivity|]. discriminate. }
  cbn [and_then]. unfold give. eexists _, _. split; [reflexivity|]. intros view Hview. injection Hview as <-.
  set (v := PyView (PartMemory a (times a (py_changed s1))) (Some o)). set (s2 := with_variables (new_object s1 v) (py_next s1 :: py_variables (new_object s1 v))).
  assert (Hfind : find_object s2 (py_next s1) = Some v) by (unfold find_object; cbn; rewrite Nat.eqb_refl; reflexivity).
  assert (Hs2 : object_is s2 (py_next s1) v) by (left; reflexivity).
  split.
  - intros m parent0 Hm. destruct Hm as [Hm|Hm]; [|apply (object_lt s _ _ (st_ids _ _ Hs)) in Hm; unfold s1 in Hm; cbn [with_world py_next] in Hm; lia].
    injection Hm as <- <-. exists o, (PyBlock ptr before owning wrappers parent). split; [reflexivity|]. split; [right; exact Ho|]. split; [exact Hnull|]. split; [|reflexivity].
    intros t i before0 owning0 wrappers0 parent1 [H|H]; [discriminate H|]. exact (Hcur _ _ _ _ _ _ H).
  - change (snd (py_step p s2 (Read (py_next s1))) = Ok None). cbn [py_step]. unfold py_read, read_view.
    assert (Evar : variable s2 (py_next s1) = Ok v).
    { unfold variable. rewrite Hfind. replace (mem Nat.eqb (py_next s1) (py_variables s2)) with true; [reflexivity|].
      symmetry. apply (mem_spec _ Nat.eqb_eq). left. reflexivity. }
    rewrite Evar. cbn [bind]. unfold v, check_memory.
    assert (Hthere : memory_there s2 (PartMemory a (times a (py_changed s1))) = true).
    { unfold memory_there. apply andb_true_iff. split; [|apply Nat.eqb_refl]. apply negb_true_iff. apply (mem_false _ Nat.eqb_eq).
      destruct (arrays_once _ (st_owners _ _ Hs)) as (_ & _ & H & _). apply H.
      destruct (read_block_owned _ _ _ (st_owners _ _ Hs) Hread) as [_ Hincl]. apply Hincl. exact Hin. }
    rewrite Hthere. reflexivity.
Qed.
