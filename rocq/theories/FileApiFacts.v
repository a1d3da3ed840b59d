(* Saving and loading through the C API (C59) *)
From Coq Require Import Lia Permutation.
From Verif Require Import Base BaseFacts Labels Array Block Tensor Npy Io Origin CApi Spec SpecTensor SpecIo SpecApi
  LabelsFacts TensorFacts IoFacts LoadFacts ApiFacts QuietFacts ReportFacts OwnerFacts LabelsApiFacts ReachFacts HandleFacts.
Local Open Scope string_scope.
Local Open Scope list_scope.
Local Open Scope nat_scope.

Lemma new_blocks_arrays_files bs : forall w, w_files (fst (new_blocks_arrays w bs)) = w_files w.
Proof.
  induction bs as [|b bs IH]; intros w; cbn [new_blocks_arrays]; [reflexivity|].
  destruct (new_arrays w (arrays_count b)) as [w1 a] eqn:E. specialize (IH w1). destruct (new_blocks_arrays w1 bs) as [w2 l].
  cbn [fst] in *. rewrite IH. unfold new_arrays in E. injection E as <- <-. reflexivity.
Qed.

Lemma take_blocks_files bs : forall w, w_files (fst (take_blocks w bs)) = w_files w.
Proof.
  induction bs as [|b bs IH]; intros w; cbn [take_blocks]; [reflexivity|]. destruct (get_block w b) as [[h ob]|e|m|r]; [|reflexivity..].
  specialize (IH (set_blocks w (remove_handle h (w_blocks w)))). destruct (take_blocks _ bs) as [w1 o]. exact IH.
Qed.

Lemma move_keys_files w tensor keys temporary move : w_files (fst (fst (move_keys w tensor keys temporary move))) = w_files w.
Proof.
  unfold move_keys. cbv zeta. match goal with |- context [match ?x with Ok _ => _ | Err _ => _ | Panic _ => _ | Undefined _ => _ end] =>
    destruct x as [[[h k] t]|e|m|r] end; [|reflexivity..].
  destruct (move (ot_tensor t) k) as [moved [[]|e|m|r]]; [|reflexivity..].
  pose proof (new_blocks_arrays_files (tm_blocks moved) w) as H. destruct (new_blocks_arrays w (tm_blocks moved)) as [w1 arrays].
  exact H.
Qed.

Lemma c_str_to_str_ok message memory s : c_str_to_str message memory = Ok s -> s = c_str memory.
Proof. unfold c_str_to_str. cbv zeta. destruct (is_utf8 _ _); [|discriminate]. intros H. injection H as <-. reflexivity. Qed.

Lemma hm_get_write w path content name : path <> name ->
  hm_get String.eqb (w_files (write_file w path content)) name = hm_get String.eqb (w_files w) name.
Proof.
  intros Hne. unfold write_file, set_files. cbn [w_files hm_get]. rewrite (proj2 (String.eqb_neq _ _)) by auto.
  induction (w_files w) as [|[n f] fs IH]; cbn [filter hm_get fst]; [reflexivity|].
  destruct (String.eqb_spec n path) as [->|Hn]; cbn [negb hm_get].
  - rewrite (proj2 (String.eqb_neq name path)) by auto. exact IH.
  - destruct (String.eqb name n); [reflexivity|exact IH].
Qed.

Lemma call_body_files p thread w c name : ~ writes_file c name ->
  hm_get String.eqb (w_files (fst (fst (call_body p thread w c)))) name = hm_get String.eqb (w_files w) name.
Proof.
  intros Hn. assert (Hsame : (forall path tensor system remains, c <> TensorSave path tensor system remains) ->
    w_files (fst (fst (call_body p thread w c))) = w_files w).
  { clear Hn name. intros Hc. destruct c; cbn [call_body]; try reflexivity.
    - unfold eqs_register_data_origin. steps; reflexivity.
    - unfold eqs_get_data_origin. steps; reflexivity.
    - unfold eqs_labels_position. steps; reflexivity.
    - unfold eqs_block. steps; reflexivity.
    - unfold eqs_block_free. steps; reflexivity.
    - unfold eqs_block_copy. steps; reflexivity.
    - unfold eqs_block_labels. steps; reflexivity.
    - unfold eqs_block_data. steps; reflexivity.
    - unfold eqs_block_add_gradient. steps; reflexivity.
    - unfold eqs_block_gradients_list. steps; reflexivity.
    - unfold eqs_tensormap. pose proof (take_blocks_files blocks w) as H. destruct (take_blocks w blocks) as [w1 o].
      cbn [fst] in H. steps; cbn; auto.
    - unfold eqs_tensormap_free. steps; reflexivity.
    - unfold eqs_tensormap_keys. steps; reflexivity.
    - unfold eqs_tensormap_block_by_id. steps; reflexivity.
    - unfold eqs_tensormap_blocks_matching. steps; reflexivity.
    - apply move_keys_files.
    - unfold eqs_tensormap_components_to_properties. steps; reflexivity.
    - apply move_keys_files.
    - unfold eqs_tensormap_load. cbv zeta. match goal with |- context [match ?x with Ok _ => _ | Err _ => _ | Panic _ => _ | Undefined _ => _ end] =>
        destruct x as [t|e|m|r] end; [|reflexivity..].
      pose proof (new_blocks_arrays_files (tm_blocks t) w) as H. destruct (new_blocks_arrays w (tm_blocks t)) as [w1 arrays]. exact H.
    - exfalso. eapply Hc. reflexivity. }
  destruct c; try (rewrite Hsame by discriminate; reflexivity). clear Hsame. cbn [call_body writes_file] in *.
  unfold eqs_tensormap_save. cbv zeta. match goal with |- context [match ?x with Ok _ => _ | Err _ => _ | Panic _ => _ | Undefined _ => _ end] =>
    destruct x as [[path' t]|e|m|r] eqn:E end; [|reflexivity..].
  destruct path as [path|]; [|discriminate E]. cbn [check_pointer bind] in E. apply bind_ok in E as (h & _ & E).
  apply bind_ok in E as (path1 & Hp & E). apply c_str_to_str_ok in Hp. apply bind_ok in E as (u & _ & E).
  apply bind_ok in E as (t1 & _ & E). injection E as -> ->. subst path'.
  destruct (save LittleEndian (ot_tensor t)); cbn [fst]; apply hm_get_write; exact Hn.
Qed.

(* the file stays the same until something else is saved *)
Lemma file_kept p w calls i j name : i <= j ->
  (forall k thread c v r, i <= k < j -> called p w calls k thread c v r -> ~ writes_file c name) ->
  hm_get String.eqb (w_files (state_at p w calls j)) name = hm_get String.eqb (w_files (state_at p w calls i)) name.
Proof.
  intros Hij. induction Hij as [|j Hij IH]; intros Hk; [reflexivity|]. rewrite <- IH by (intros k t c v r Hr; apply Hk; lia).
  destruct (state_at_next p calls w j) as [(t & c & v & r & Hc)|Hs]; [|rewrite Hs; reflexivity].
  pose proof (called_step _ _ _ _ _ _ _ _ Hc) as Hstep. apply run_call_fields in Hstep as (w1 & o & Hb & _ & _ & _ & _ & -> & _).
  pose proof (call_body_files p t (state_at p w calls j) c name) as Hf. rewrite Hb in Hf. cbn [fst] in Hf. apply Hf.
  eapply Hk; [|exact Hc]. lia.
Qed.

Lemma plain_parameters t : plain_tensor t -> c_parameters t.
Proof.
  intros [_ H] b q g Hb Hg Hz. rewrite Forall_forall in H. destruct (H b Hb) as [_ Hq]. rewrite Forall_forall in Hq.
  destruct (Hq _ Hg) as [Hn _]. cbn [fst] in Hn. unfold no_nul in Hn. clear - Hn Hz.
  induction q as [|c q IH]; [destruct Hz|]. cbn [has_nul list_ascii_of_string] in *. apply orb_false_iff in Hn as [Hc Hn].
  destruct Hz as [->|Hz]; [discriminate Hc|auto].
Qed.

Lemma save_then_load p files calls i j t1 t2 path tensor t system remains v1 path' names temporary v2 r2 :
  never_crashed p (world_start files) calls -> ordinary p (world_start files) calls ->
  called p (world_start files) calls i t1 (TensorSave (Some path) (Some tensor) system remains) v1 (Returned 0) ->
  tensor_at (state_at p (world_start files) calls i) tensor t -> tensor_in_memory (ot_tensor t) ->
  i < j ->
  (forall k thread c v r, i < k < j -> called p (world_start files) calls k thread c v r -> ~ writes_file c (c_str path)) ->
  called p (world_start files) calls j t2 (TensorLoad (Some path') names temporary) v2 r2 ->
  c_str path' = c_str path -> lists_archive (state_at p (world_start files) calls j) (c_str path) names ->
  r2 = Returned 0
  /\ exists handle loaded, v2 = VTensor (Some handle) []
     /\ tensor_at (state_at p (world_start files) calls (S j)) handle loaded
     /\ same_tensor (ot_tensor t) (ot_tensor loaded) /\ wf_tensor (ot_tensor loaded).
Proof.
  intros Hn Ho Hi Ht Hm Hij Hk Hj Hpath Hl. set (si := state_at p (world_start files) calls i) in *.
  set (sj := state_at p (world_start files) calls j) in *.
  pose proof (own_tensors _ _ (owners_state p files calls Hn i)) as [Hnd _]. fold si in Hnd.
  apply (BaseFacts.In_hm_get _ Nat.eqb_eq _ _ _ Hnd) in Ht. pose proof (valid_state p files calls Ho i) as Hval. fold si in Hval.
  destruct (valid_tensor _ _ _ Hval Ht) as [Hwf _].
  assert (Hcp : c_parameters (ot_tensor t)).
  { apply plain_parameters. destruct (state_plain p files calls i) as [_ Hpl]. fold si in Hpl. rewrite Forall_forall in Hpl.
    apply hm_get_at in Ht. apply (Hpl _ Ht). }
  pose proof (called_step _ _ _ _ _ _ _ _ Hi) as Hstep. fold si in Hstep.
  pose proof (proj1 (run_call_zero _ _ _ _ _ _ _ (state_plain p files calls i) Hstep) eq_refl) as [w1 Hb]. fold si in Hb.
  apply run_call_fields in Hstep as (w1' & o & Hb' & _ & _ & _ & _ & Hf & _). rewrite Hb in Hb'. injection Hb' as <- <-.
  cbn [call_body] in Hb. unfold eqs_tensormap_save in Hb. cbv zeta in Hb. cbn [check_pointer bind] in Hb.
  destruct (c_str_to_str "use UTF-8 for path" path) as [q|e|m|r] eqn:Eq; cbn [bind] in Hb; [|discriminate Hb..].
  pose proof (c_str_to_str_ok _ _ _ Eq) as ->.
  destruct system as [system|]; cbn [bind] in Hb; [discriminate Hb|]. rewrite (proj2 (get_tensor_ok _ _ _) Ht) in Hb. cbn [bind] in Hb.
  destruct (save LittleEndian (ot_tensor t)) as [content|e|m|r] eqn:Es; [|discriminate Hb..]. injection Hb as <- <-.
  assert (Hfile : hm_get String.eqb (w_files sj) (c_str path) = Some (Some content)).
  { subst sj. rewrite (file_kept p (world_start files) calls (S i) j (c_str path)).
    - rewrite Hf. unfold write_file, set_files. cbn [w_files hm_get]. rewrite String.eqb_refl. reflexivity.
    - lia.
    - intros k th c v r Hr. apply Hk. lia. }
  destruct (load_save p LittleEndian (ot_tensor t) content names Hwf Hm Hcp Es (Hl _ Hfile)) as (t' & Hload & Hsame & Hwf').
  pose proof (called_step _ _ _ _ _ _ _ _ Hj) as Hstep. fold sj in Hstep.
  destruct (new_blocks_arrays sj (tm_blocks t')) as [w2 arrays] eqn:En.
  assert (Hb : call_body p t2 sj (TensorLoad (Some path') names temporary)
    = (let '(w, handle) := box_tensor w2 (mk_owned_tensor t' arrays) in (w, VTensor (Some handle) [], Ok tt))).
  { cbn [call_body]. unfold eqs_tensormap_load. cbv zeta. cbn [check_pointer bind].
    assert (Eq' : c_str_to_str "use UTF-8 for path" path' = Ok (c_str path)).
    { unfold c_str_to_str in *. cbv zeta in *. rewrite Hpath. exact Eq. }
    rewrite Eq'. cbn [bind]. unfold open_file. rewrite Hfile. cbn [bind]. rewrite Hload, En. reflexivity. }
  unfold box_tensor in Hb. rewrite (run_call_ok _ _ _ _ _ _ Hb) in Hstep.
  remember (set_errors _ _) as sj' eqn:Esj. injection Hstep as Hs <- <-. split; [reflexivity|]. eexists. exists (mk_owned_tensor t' arrays).
  split; [reflexivity|]. rewrite <- Hs, Esj. split; [left; reflexivity|]. auto.
Qed.
