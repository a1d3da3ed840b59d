(* The blocks and tensor maps which a program can make with the C API *)
From Coq Require Import Permutation.
From Verif Require Import Base BaseFacts Labels Array Block Tensor Npy Io Origin CApi Spec SpecTensor SpecIo SpecApi
  LabelsFacts ArrayFacts BlockFacts TensorFacts KeysFacts MergeFacts GroupFacts BlocksFacts MergePropertiesFacts MovedFacts
  ComponentsFacts LoadFacts ApiFacts QuietFacts ReportFacts OwnerFacts LabelsApiFacts.
Local Open Scope string_scope.
Local Open Scope list_scope.
Local Open Scope nat_scope.

(** * Kinds of arrays *)

Definition value_kind (b : TensorBlock) : array_kind := a_kind (bb_data (tb_values b)).

Lemma add_gradient_values b q data s cs b' r : tensor_block_add_gradient b q data s cs = (b', r) -> tb_values b' = tb_values b.
Proof.
  unfold tensor_block_add_gradient. destruct (check_gradient _ _ _ _ _); [destruct (cstring_new q)|..];
    intros H; injection H as <- <-; reflexivity.
Qed.

Lemma move_kind o i ms start stop o' : array_move_samples_from o i ms start stop = Ok o' -> a_kind o' = a_kind o.
Proof. intros H. apply array_move_ok in H as (_ & nd & _ & ->). reflexivity. Qed.

Lemma create_kind a shape a' : array_create a shape = Ok a' -> a_kind a' = a_kind a.
Proof. intros H. apply array_create_ok in H. apply H. Qed.

Lemma block_new_kind data s cs ps b : tensor_block_new data s cs ps = Ok b -> value_kind b = a_kind data.
Proof.
  unfold tensor_block_new, basic_block_new. intros H. apply bind_ok in H as (u & Hu & H). injection H as <-.
  repeat (apply bind_ok in Hu as (? & _ & Hu)). injection Hu as <-. reflexivity.
Qed.

Lemma expect_ok {A} m (o : outcome A) a : expect m o = Ok a -> o = Ok a.
Proof. destruct o; cbn; intros H; try discriminate H; exact H. Qed.

Lemma add_merged_kind b q data s cs b' : add_merged_gradient b q data s cs = Ok b' -> value_kind b' = value_kind b.
Proof.
  unfold add_merged_gradient. destruct (tensor_block_add_gradient b q data s cs) as [b1 r] eqn:E. intros H.
  apply bind_ok in H as (u & _ & H). injection H as <-. apply add_gradient_values in E. unfold value_kind. rewrite E. reflexivity.
Qed.

Lemma merge_samples_kind p blocks names sort b : merge_blocks_along_samples p blocks names sort = Ok b ->
  exists k b0, In (k, b0) blocks /\ value_kind b = value_kind b0.
Proof.
  unfold merge_blocks_along_samples. destruct blocks as [|[k b0] blocks]; [discriminate|]. intros H. exists k, b0.
  split; [left; reflexivity|]. apply bind_ok in H as (u & _ & H). apply bind_ok in H as ([ms maps] & _ & H).
  apply bind_ok in H as (shape & _ & H). apply bind_ok in H as (n & _ & H). apply bind_ok in H as (shape' & _ & H).
  apply bind_ok in H as (d0 & Hd0 & H). apply bind_ok in H as (np & _ & H). apply bind_ok in H as (d1 & Hd1 & H).
  apply bind_ok in H as (nb & Hnb & H). apply expect_ok in Hnb. apply block_new_kind in Hnb. apply create_kind in Hd0.
  assert (E1 : a_kind d1 = a_kind d0).
  { eapply (foldM_inv _ (fun d => a_kind d = a_kind d0)); [|reflexivity|exact Hd1].
    intros s [[k' b'] m] s' _ Hs Hm. apply move_kind in Hm. congruence. }
  assert (E2 : value_kind b = value_kind nb).
  { eapply (foldM_inv _ (fun x => value_kind x = value_kind nb)); [|reflexivity|exact H].
    intros x [q g] x' _ Hx Hm. repeat (apply bind_ok in Hm as (? & _ & Hm)). apply add_merged_kind in Hm. congruence. }
  unfold value_kind in *. congruence.
Qed.

Lemma merge_properties_kind p blocks keys names sort b : merge_blocks_along_properties p blocks keys names sort = Ok b ->
  exists k b0, In (k, b0) blocks /\ value_kind b = value_kind b0.
Proof.
  unfold merge_blocks_along_properties. destruct blocks as [|[k b0] blocks]; [discriminate|]. intros H. exists k, b0.
  split; [left; reflexivity|]. apply bind_ok in H as (u & _ & H). apply bind_ok in H as ([ms maps] & _ & H).
  apply bind_ok in H as (nps & _ & H). apply bind_ok in H as (npl & _ & H). apply bind_ok in H as (npc & _ & H).
  apply bind_ok in H as (shape & _ & H). apply bind_ok in H as (n & _ & H). apply bind_ok in H as (shape' & _ & H).
  apply bind_ok in H as (shape2 & _ & H).
  apply bind_ok in H as (d0 & Hd0 & H). apply bind_ok in H as (np & _ & H). apply bind_ok in H as (d1 & Hd1 & H).
  apply bind_ok in H as (nb & Hnb & H). apply expect_ok in Hnb. apply block_new_kind in Hnb. apply create_kind in Hd0.
  assert (E1 : a_kind d1 = a_kind d0).
  { eapply (foldM_inv _ (fun d => a_kind d = a_kind d0)); [|reflexivity|exact Hd1].
    intros s [[[k' b'] m] [[start stop]|]] s' _ Hs Hm; [apply move_kind in Hm; congruence|]. injection Hm as <-. exact Hs. }
  assert (E2 : value_kind b = value_kind nb).
  { eapply (foldM_inv _ (fun x => value_kind x = value_kind nb)); [|reflexivity|exact H].
    intros x [q g] x' _ Hx Hm. repeat (apply bind_ok in Hm as (? & _ & Hm)). apply add_merged_kind in Hm. congruence. }
  unfold value_kind in *. congruence.
Qed.

Lemma merged_blocks_from t new_keys positions merge bs b : merged_blocks t new_keys positions merge = Ok bs -> In b bs ->
  exists group, merge group = Ok b /\ forall k b0, In (k, b0) group -> In b0 (tm_blocks t).
Proof.
  unfold merged_blocks. intros H Hb. apply bind_ok in H as (n & _ & H). destruct (n =? 1).
  - apply bind_ok in H as (group & Hg & H). apply bind_ok in H as (b' & Hm & H). injection H as <-.
    destruct Hb as [<-|[]]. exists group. split; [exact Hm|]. intros k b0 Hin. unfold all_blocks_to_merge in Hg.
    apply bind_ok in Hg as (ks & _ & Hg). destruct (mapM_In _ _ _ _ Hg Hin) as ([k1 b1] & Hc & E).
    apply bind_ok in E as (mk & _ & E). injection E as _ <-. apply in_combine_r in Hc. exact Hc.
  - apply bind_ok in H as (es & _ & H). destruct (mapM_In _ _ _ _ H Hb) as (e & _ & He).
    apply bind_ok in He as (group & Hg & Hm). exists group. split; [exact Hm|]. intros k b0 Hin.
    unfold blocks_to_merge_for in Hg. apply bind_ok in Hg as (sel & _ & Hg). apply bind_ok in Hg as (m & _ & Hg).
    destruct (mapM_In _ _ _ _ Hg Hin) as (i & _ & E). apply bind_ok in E as (b1 & Hi & E).
    apply bind_ok in E as (key & _ & E). apply bind_ok in E as (mk & _ & E). injection E as _ <-.
    unfold index_slice in Hi. destruct (nth_error (tm_blocks t) i) eqn:En; [|discriminate Hi]. injection Hi as <-.
    eapply nth_error_In. exact En.
Qed.

Lemma keys_to_samples_kind p t keys sort t' b : keys_to_samples p t keys sort = (t', Ok tt) -> In b (tm_blocks t') ->
  exists b0, In b0 (tm_blocks t) /\ value_kind b = value_kind b0.
Proof.
  unfold keys_to_samples. destruct (keys_to_samples_compute p t keys sort) as [[nk bs]|e|m|r] eqn:E; try discriminate.
  intros H Hb. injection H as <-. cbn [tm_blocks] in Hb. unfold keys_to_samples_compute in E.
  apply bind_ok in E as (n & _ & E). destruct (0 <? n); [discriminate E|]. apply bind_ok in E as ([nk' vp] & _ & E).
  apply bind_ok in E as (bs' & Hm & E). injection E as <- <-. destruct (merged_blocks_from _ _ _ _ _ _ Hm Hb) as (group & Hg & Hin).
  apply merge_samples_kind in Hg as (k & b0 & H0 & Hk). eauto.
Qed.

Lemma keys_to_properties_kind p t keys sort t' b : keys_to_properties p t keys sort = (t', Ok tt) -> In b (tm_blocks t') ->
  exists b0, In b0 (tm_blocks t) /\ value_kind b = value_kind b0.
Proof.
  unfold keys_to_properties. destruct (keys_to_properties_compute p t keys sort) as [[nk bs]|e|m|r] eqn:E; try discriminate.
  intros H Hb. injection H as <-. cbn [tm_blocks] in Hb. unfold keys_to_properties_compute in E.
  apply bind_ok in E as ([nk' vp] & _ & E). apply bind_ok in E as (n & _ & E).
  apply bind_ok in E as (bs' & Hm & E). injection E as <- <-. destruct (merged_blocks_from _ _ _ _ _ _ Hm Hb) as (group & Hg & Hin).
  apply merge_properties_kind in Hg as (k & b0 & H0 & Hk). eauto.
Qed.

Lemma basic_components_kind b vs b' : basic_block_components_to_properties b vs = (b', Ok tt) -> a_kind (bb_data b') = a_kind (bb_data b).
Proof.
  unfold basic_block_components_to_properties. destruct (find_component vs (bb_components b)); [|discriminate].
  destruct (nth_error _ _); [|discriminate]. cbv zeta.
  match goal with |- (match ?x with _ => _ end) = _ -> _ => destruct x as [[[np ax] shape]|e|m|r] end; try discriminate.
  destruct (array_swap_axes (bb_data b) (n + 1) (ax - 1)) as [d1 [[]|e|m|r]] eqn:E1; try discriminate.
  destruct (array_reshape d1 shape) as [d2 [[]|e|m|r]] eqn:E2; try discriminate.
  intros H. injection H as <-. cbn [bb_data]. apply array_swap_ok in E1 as [E1 _]. apply array_reshape_ok in E2 as [E2 _]. congruence.
Qed.

Lemma components_kind t vs t' b : components_to_properties t vs = (t', Ok tt) -> In b (tm_blocks t') ->
  exists b0, In b0 (tm_blocks t) /\ value_kind b = value_kind b0.
Proof.
  unfold components_to_properties. destruct vs as [|v vs]; [intros H Hb; injection H as <-; eauto|].
  destruct (blocks_components_to_properties (v :: vs) (tm_blocks t)) as [bs r] eqn:E. intros H. injection H as <- ->. cbn [tm_blocks].
  revert bs E. induction (tm_blocks t) as [|b1 rest IH]; intros bs E Hb; cbn [blocks_components_to_properties] in E.
  - injection E as <-. destruct Hb.
  - destruct (tensor_block_components_to_properties b1 (v :: vs)) as [b1' o] eqn:Eb. destruct o as [[]|e|m|r]; try discriminate E.
    destruct (blocks_components_to_properties (v :: vs) rest) as [rest' r'] eqn:Er. injection E as <- ->.
    destruct Hb as [<-|Hb].
    + exists b1. split; [left; reflexivity|]. unfold tensor_block_components_to_properties in Eb.
      destruct (basic_block_components_to_properties (tb_values b1) (v :: vs)) as [values [[]|e|m|r]] eqn:Ev; try discriminate Eb.
      destruct (gradients_components_to_properties _ _). injection Eb as <- _. apply basic_components_kind in Ev. exact Ev.
    + destruct (IH _ eq_refl Hb) as (b0 & H0 & Hk). exists b0. split; [right; exact H0|exact Hk].
Qed.

(** * Valid blocks and tensor maps *)

Definition good_block (b : TensorBlock) : Prop := wf_block b /\ value_kind b <> RustEmptyArray.
Definition good_tensor (t : TensorMap) : Prop :=
  wf_tensor t /\ forall b, In b (tm_blocks t) -> value_kind b <> RustEmptyArray.

Definition valid (w : world) : Prop :=
  Forall (fun hb => good_block (ob_block (snd hb))) (w_blocks w)
  /\ Forall (fun ht => good_tensor (ot_tensor (snd ht))) (w_tensors w).

Lemma valid_block w h b : valid w -> hm_get Nat.eqb (w_blocks w) h = Some b -> good_block (ob_block b).
Proof. intros [H _] E. apply hm_get_at in E. rewrite Forall_forall in H. apply (H _ E). Qed.

Lemma valid_tensor w h t : valid w -> hm_get Nat.eqb (w_tensors w) h = Some t -> good_tensor (ot_tensor t).
Proof. intros [_ H] E. apply hm_get_at in E. rewrite Forall_forall in H. apply (H _ E). Qed.

Lemma valid_read w block b : valid w -> read_block w block = Ok b -> good_block (ob_block b).
Proof.
  intros Hw H. unfold read_block in H. destruct block as [|h|t i].
  - discriminate H.
  - apply bind_ok in H as ([h' b'] & Hg & H). injection H as <-. apply get_block_ok in Hg as [_ Hg]. eapply valid_block; eassumption.
  - destruct (hm_get Nat.eqb (w_tensors w) t) as [ot|] eqn:Et; [|discriminate H].
    destruct (nth_error (tm_blocks (ot_tensor ot)) i) as [b1|] eqn:Eb; [|discriminate H].
    destruct (nth_error (ot_arrays ot) i); [|discriminate H]. injection H as <-. cbn [ob_block].
    destruct (valid_tensor _ _ _ Hw Et) as [H1 H2]. apply nth_error_In in Eb. split; [|auto].
    destruct H1 as (_ & H1 & _). rewrite Forall_forall in H1. auto.
Qed.

Lemma Forall_remove {A} (P : A -> Prop) h (l : list (nat * A)) :
  Forall (fun ha => P (snd ha)) l -> Forall (fun ha => P (snd ha)) (remove_handle h l).
Proof. intros H. rewrite Forall_forall in *. intros x Hx. apply filter_In in Hx as [Hx _]. auto. Qed.

Lemma take_blocks_valid bs : forall w w' o, valid w -> take_blocks w bs = (w', o) ->
  valid w' /\ forall owned, o = Ok owned -> Forall (fun b => good_block (ob_block b)) owned.
Proof.
  induction bs as [|b bs IH]; intros w w' o Hw H; cbn [take_blocks] in H.
  - injection H as <- <-. split; [exact Hw|]. intros owned E. injection E as <-. constructor.
  - destruct (get_block w b) as [[h ob]|e|m|r] eqn:Eg.
    + apply get_block_ok in Eg as [-> Eg]. destruct (take_blocks _ bs) as [w1 o1] eqn:Et. injection H as <- <-.
      apply IH in Et as [H1 H2].
      * split; [exact H1|]. intros owned E. apply bind_ok in E as (others & E1 & E). injection E as <-.
        constructor; [exact (valid_block _ _ _ Hw Eg)|]. apply H2. exact E1.
      * destruct Hw as [H1 H2]. split; [|exact H2]. apply (Forall_remove (fun b => good_block (ob_block b))). exact H1.
    + injection H as <- <-. split; [exact Hw|discriminate].
    + injection H as <- <-. split; [exact Hw|discriminate].
    + injection H as <- <-. split; [exact Hw|discriminate].
Qed.

Lemma new_blocks_arrays_handles bs : forall w w' arrays, new_blocks_arrays w bs = (w', arrays) ->
  w_blocks w' = w_blocks w /\ w_tensors w' = w_tensors w /\ w_next_handle w' = w_next_handle w.
Proof.
  induction bs as [|b bs IH]; intros w w' arrays H; cbn [new_blocks_arrays] in H; [injection H as <- <-; auto|].
  remember (arrays_count b) as n eqn:En. clear En. unfold new_arrays in H.
  match type of H with context [new_blocks_arrays ?x bs] => destruct (new_blocks_arrays x bs) as [w2 a2] eqn:E2 end.
  injection H as <- <-. apply IH in E2. exact E2.
Qed.

Lemma load_real p names a t b : load p names a = Ok t -> In b (tm_blocks t) -> value_kind b = RustNdarray.
Proof.
  unfold load. intros H Hb. apply bind_ok in H as (f & _ & H). apply bind_ok in H as (keys & Hk & H).
  apply bind_ok in H as (qs & _ & H). apply bind_ok in H as (n & _ & H). apply bind_ok in H as (blocks & Hbs & H).
  assert (tm_blocks t = blocks) as E.
  { unfold tensor_map_new in H. apply bind_ok in H as (? & _ & H). destruct (negb _); [discriminate H|].
    apply bind_ok in H as (? & _ & H). injection H as <-. reflexivity. }
  rewrite E in Hb. destruct (mapM_In _ _ _ _ Hbs Hb) as (i & _ & Hi). apply load_block_reachable in Hi as [_ [nd Hnd]].
  unfold value_kind. rewrite Hnd. reflexivity.
Qed.

Lemma tensor_new_valid keys bs t : wf_labels keys -> Forall good_block bs -> tensor_map_new keys bs = Ok t -> good_tensor t.
Proof.
  intros Hk Hb H. assert (Hax : axis_labels keys).
  { split; [exact Hk|]. intros E. unfold tensor_map_new in H. apply bind_ok in H as (n & Hn & _).
    unfold labels_count, labels_size in Hn. unfold labels_names in E. rewrite E in Hn. discriminate Hn. }
  assert (Hwf : Forall wf_block bs) by (eapply Forall_impl; [|exact Hb]; intros b [Hb1 _]; exact Hb1).
  apply tensor_map_new_ok in H as [Hh ->]; [|assumption|assumption]. split; [split; [assumption|split; assumption]|].
  intros b Hin. cbn [tm_blocks] in Hin. rewrite Forall_forall in Hb. apply Hb. exact Hin.
Qed.

Lemma move_keys_valid w tensor keys temporary move w' v o : valid w ->
  (forall t k t', good_tensor t -> wf_labels k -> move t k = (t', Ok tt) -> good_tensor t') -> keeps_on_failure move ->
  move_keys w tensor keys temporary move = (w', v, o) -> valid w'.
Proof.
  intros Hw Hm Hk H. unfold move_keys in H. cbv zeta in H.
  match type of H with match ?x with _ => _ end = _ => destruct x as [[[h k] t]|e|m|r] eqn:E end;
    [|injection H as <- <- <-; exact Hw..].
  apply bind_ok in E as (h1 & _ & E). apply bind_ok in E as (k1 & Ek & E). apply bind_ok in E as (t1 & Et & E).
  injection E as -> -> ->. apply get_tensor_ok in Et. pose proof (valid_tensor _ _ _ Hw Et) as Ht.
  destruct (move (ot_tensor t) k) as [moved r] eqn:Em. pose proof (Hk _ _ _ _ Em) as Hcase.
  assert (Hg : good_tensor moved).
  { destruct Hcase as [->| ->]; [|exact Ht]. apply (Hm _ _ _ Ht (labels_from_c_wf _ _ Ek) Em). }
  destruct r as [[]|e|m|r].
  - destruct (new_blocks_arrays w (tm_blocks moved)) as [w1 arrays] eqn:En. injection H as <- <- <-.
    apply new_blocks_arrays_handles in En as (E1 & E2 & _). split; cbn; [rewrite E1; apply Hw|]. rewrite E2.
    apply (Forall_update (fun t => good_tensor (ot_tensor t))); [exact Hg|apply Hw].
  - injection H as <- <- <-. split; cbn; [apply Hw|]. apply (Forall_update (fun t => good_tensor (ot_tensor t))); [exact Hg|apply Hw].
  - injection H as <- <- <-. split; cbn; [apply Hw|]. apply (Forall_update (fun t => good_tensor (ot_tensor t))); [exact Hg|apply Hw].
  - injection H as <- <- <-. split; cbn; [apply Hw|]. apply (Forall_update (fun t => good_tensor (ot_tensor t))); [exact Hg|apply Hw].
Qed.

Lemma wf_labels_mapM cs ls : mapM labels_from_c cs = Ok ls -> Forall wf_labels ls.
Proof.
  intros H. apply Forall_forall. intros l Hl. destruct (mapM_In _ _ _ _ H Hl) as (c & _ & Hc). eapply labels_from_c_wf. exact Hc.
Qed.

Lemma call_body_valid p thread w c w' v o : valid w -> ordinary_call c ->
  (forall tensor variables, c = TensorComponentsToProperties tensor variables -> o = Ok tt) ->
  call_body p thread w c = (w', v, o) -> valid w'.
Proof.
  intros Hw Hord Hcomp H. destruct c; cbn [call_body] in H.
  - unfold eqs_register_data_origin in H. cbv zeta in H. match type of H with match ?x with _ => _ end = _ => destruct x end.
    + destruct (register_data_origin _ _). injection H as <- <- <-. exact Hw.
    + injection H as <- <- <-. exact Hw.
    + injection H as <- <- <-. exact Hw.
    + injection H as <- <- <-. exact Hw.
  - unfold eqs_get_data_origin in H. destruct buffer; [|injection H as <- <- <-; exact Hw].
    destruct (get_data_origin _ _); [|injection H as <- <- <-; exact Hw..]. destruct (copy_str_to_c _ _ _).
    injection H as <- <- <-. exact Hw.
  - apply reading_world in H as ->. exact Hw.
  - (* BlockCreate *)
    unfold eqs_block in H. destruct (new_arrays w 1) as [w1 arrays] eqn:E. cbv zeta in H.
    unfold new_arrays in E. injection E as <- <-.
    match type of H with match ?x with _ => _ end = _ => destruct x as [b|e|m|r] eqn:Eb end;
      [|injection H as <- <- <-; exact Hw..].
    apply bind_ok in Eb as (s & Hs & Eb). apply bind_ok in Eb as (cs & Hcs & Eb). apply bind_ok in Eb as (ps & Hps & Eb).
    injection H as <- <- <-. split; cbn; [|apply Hw]. constructor; [|apply Hw]. cbn [snd ob_block]. destruct Hord as [Ho1 Ho2].
    split.
    + apply (block_new_wf data s cs ps b); eauto using labels_from_c_wf, wf_labels_mapM.
    + apply block_new_kind in Eb. rewrite Eb. exact Ho2.
  - (* BlockFree *)
    unfold eqs_block_free in H. destruct block as [|h|t i]; [injection H as <- <- <-; exact Hw| |].
    + destruct (get_block w (BlockAt h)) as [[h' b]|e|m|r] eqn:Eg; [|injection H as <- <- <-; exact Hw..].
      injection H as <- <- <-. split; cbn; [|apply Hw].
      apply (Forall_remove (fun b => good_block (ob_block b))). apply Hw.
    + injection H as <- <- <-. exact Hw.
  - (* BlockCopy *)
    unfold eqs_block_copy in H. match type of H with match ?x with _ => _ end = _ => destruct x as [b|e|m|r] eqn:Eb end;
      [|injection H as <- <- <-; exact Hw..].
    apply bind_ok in Eb as (ptr & _ & Eb). apply valid_read in Eb; [|exact Hw].
    destruct (clone_arrays (block_arrays (ob_block b))) as [n r] eqn:Ec. destruct (new_arrays w n) as [w1 arrays] eqn:E.
    unfold new_arrays in E. injection E as <- <-.
    destruct r as [[]|e|m|r]; [|injection H as <- <- <-; exact Hw..].
    injection H as <- <- <-. split; cbn; [|apply Hw]. constructor; [exact Eb|apply Hw].
  - apply reading_world in H as ->. exact Hw.
  - apply reading_world in H as ->. exact Hw.
  - (* BlockAddGradient *)
    unfold eqs_block_add_gradient in H. destruct (new_arrays w 1) as [w1 arrays] eqn:E. cbv zeta in H.
    unfold new_arrays in E. injection E as <- <-.
    match type of H with match ?x with _ => _ end = _ => destruct x as [[[[[h b] q] s] cs]|e|m|r] eqn:Eb end;
      [|injection H as <- <- <-; exact Hw..].
    apply bind_ok in Eb as (b0 & _ & Eb). apply bind_ok in Eb as (q0 & _ & Eb). apply bind_ok in Eb as (q1 & Hq & Eb).
    apply bind_ok in Eb as (s0 & Hs & Eb). apply bind_ok in Eb as (cs0 & Hcs & Eb). apply bind_ok in Eb as ([h0 b1] & Eg & Eb).
    injection Eb as -> -> -> -> ->. apply get_block_ok in Eg as [_ Eg]. cbn [w_blocks] in Eg.
    pose proof (valid_block _ _ _ Hw Eg) as [Hb1 Hb2]. destruct Hord as [Ho1 Ho2].
    destruct (tensor_block_add_gradient (ob_block b) q data s cs) as [b' r] eqn:Ea.
    assert (Hq' : has_nul q = false).
    { unfold c_str_to_str in Hq. destruct (is_utf8 _ _); [|discriminate Hq]. injection Hq as <-. apply no_nul_c_str. }
    assert (Hb' : good_block b').
    { pose proof (add_gradient_values _ _ _ _ _ _ _ Ea) as Hv. split; [|unfold value_kind; rewrite Hv; exact Hb2].
      destruct r as [[]|e|m|r].
      - eapply add_gradient_wf; [exact Hb1|exact Ho1|eapply labels_from_c_wf; exact Hs|eapply wf_labels_mapM; exact Hcs|exact Ea|discriminate].
      - destruct (add_gradient_frame _ _ _ _ _ _ _ Hq' Ea) as [Hf _]. rewrite Hf by discriminate. exact Hb1.
      - destruct (add_gradient_frame _ _ _ _ _ _ _ Hq' Ea) as [Hf _]. rewrite Hf by discriminate. exact Hb1.
      - destruct (add_gradient_frame _ _ _ _ _ _ _ Hq' Ea) as [Hf _]. rewrite Hf by discriminate. exact Hb1. }
    destruct (_ <? _); injection H as <- <- <-; [|exact Hw]. split; cbn; [|apply Hw].
    apply (Forall_update (fun b => good_block (ob_block b))); [exact Hb'|apply Hw].
  - apply reading_world in H as ->. exact Hw.
  - (* TensorCreate *)
    unfold eqs_tensormap in H. destruct (labels_from_c keys) as [k|e|m|r] eqn:Ek; [|injection H as <- <- <-; exact Hw..].
    destruct (negb _); [injection H as <- <- <-; exact Hw|]. destruct (take_blocks w blocks) as [w1 o1] eqn:Et.
    apply take_blocks_valid in Et as [H1 H2]; [|exact Hw].
    destruct o1 as [owned|e|m|r]; [|injection H as <- <- <-; exact H1..]. specialize (H2 _ eq_refl). cbv zeta in H.
    destruct (tensor_map_new k (map ob_block owned)) as [t|e|m|r] eqn:En; [|injection H as <- <- <-; exact H1..].
    injection H as <- <- <-. split; cbn; [apply H1|]. constructor; [|apply H1]. cbn [snd ot_tensor].
    apply (tensor_new_valid k (map ob_block owned)); [eapply labels_from_c_wf; exact Ek| |exact En].
    apply Forall_map. exact H2.
  - (* TensorFree *)
    unfold eqs_tensormap_free in H. destruct tensor as [h|]; [|injection H as <- <- <-; exact Hw].
    destruct (get_tensor w h) as [t|e|m|r] eqn:Eg; [|injection H as <- <- <-; exact Hw..].
    injection H as <- <- <-. split; cbn; [apply Hw|].
    apply (Forall_remove (fun t => good_tensor (ot_tensor t))). apply Hw.
  - apply reading_world in H as ->. exact Hw.
  - apply reading_world in H as ->. exact Hw.
  - (* TensorBlocksMatching *)
    unfold eqs_tensormap_blocks_matching in H. cbv zeta in H.
    match type of H with match ?x with _ => _ end = _ => destruct x as [[b idx]|e|m|r] end; [|injection H as <- <- <-; exact Hw..].
    destruct (write_indexes 0 b idx). injection H as <- <- <-. exact Hw.
  - eapply move_keys_valid; [exact Hw| |apply keys_to_properties_keeps|exact H]. clear. cbn beta.
    intros t k t' [H1 H2] Hk H. split.
    + apply keys_to_properties_wf in H; [apply H|exact H1|exact Hk|right; exact H2].
    + intros b Hb. destruct (keys_to_properties_kind _ _ _ _ _ _ H Hb) as (b0 & Hb0 & ->). auto.
  - (* TensorComponentsToProperties *)
    specialize (Hcomp _ _ eq_refl). subst o. unfold eqs_tensormap_components_to_properties in H. cbv zeta in H.
    match type of H with match ?x with _ => _ end = _ => destruct x as [[[h vs] t]|e|m|r] eqn:E end; [|discriminate H..].
    apply bind_ok in E as (h1 & _ & E). apply bind_ok in E as (k1 & _ & E). apply bind_ok in E as (k2 & _ & E).
    apply bind_ok in E as (t1 & Et & E). injection E as -> -> ->. apply get_tensor_ok in Et.
    destruct (valid_tensor _ _ _ Hw Et) as [H1 H2].
    destruct (components_to_properties (ot_tensor t) vs) as [moved r] eqn:Ec. injection H as <- <- Hr. subst r.
    split; cbn; [apply Hw|]. apply (Forall_update (fun t => good_tensor (ot_tensor t))); [|apply Hw]. cbn [ot_tensor]. split.
    + apply components_wf in Ec; [apply Ec|exact H1].
    + intros b Hb. destruct (components_kind _ _ _ _ Ec Hb) as (b0 & Hb0 & ->). auto.
  - eapply move_keys_valid; [exact Hw| |apply keys_to_samples_keeps|exact H]. clear. cbn beta.
    intros t k t' [H1 H2] Hk H. split.
    + apply keys_to_samples_wf in H; [apply H|exact H1].
    + intros b Hb. destruct (keys_to_samples_kind _ _ _ _ _ _ H Hb) as (b0 & Hb0 & ->). auto.
  - (* TensorLoad *)
    unfold eqs_tensormap_load in H. cbv zeta in H.
    match type of H with match ?x with _ => _ end = _ => destruct x as [t|e|m|r] eqn:E end; [|injection H as <- <- <-; exact Hw..].
    apply bind_ok in E as (p1 & _ & E). apply bind_ok in E as (p2 & _ & E). apply bind_ok in E as (a & _ & E).
    destruct (new_blocks_arrays w (tm_blocks t)) as [w1 arrays] eqn:En. injection H as <- <- <-.
    apply new_blocks_arrays_handles in En as (E1 & E2 & _). split; cbn; [rewrite E1; apply Hw|]. rewrite E2.
    constructor; [|apply Hw]. cbn [snd ot_tensor]. split; [eapply load_wf; exact E|].
    intros b Hb. rewrite (load_real _ _ _ _ _ E Hb). discriminate.
  - (* TensorSave *)
    unfold eqs_tensormap_save in H. cbv zeta in H.
    match type of H with match ?x with _ => _ end = _ => destruct x as [[path' t]|e|m|r] end; [|injection H as <- <- <-; exact Hw..].
    destruct (save LittleEndian (ot_tensor t)); injection H as <- <- <-; exact Hw.
  - injection H as <- <- <-. exact Hw.
Qed.

Lemma valid_state p files calls : ordinary p (world_start files) calls ->
  forall i, valid (state_at p (world_start files) calls i).
Proof.
  intros [H1 H2]. induction i as [|i IH]; [split; constructor|].
  destruct (state_at_next p calls (world_start files) i) as [(t & c & v & r & Hc)|Hs]; [|rewrite Hs; exact IH].
  pose proof (called_step _ _ _ _ _ _ _ _ Hc) as Hstep. apply run_call_body in Hstep as (w1 & o & Hb & Hr & ->).
  change (valid w1). eapply call_body_valid; [exact IH| | |exact Hb].
  - apply (H1 t). eapply nth_error_In. apply Hc.
  - intros tensor vs ->. pose proof (H2 _ _ _ _ _ _ Hc) as E. subst r. rewrite E in Hc. apply (status_zero p files calls i) in Hc.
    pose proof (proj1 Hc eq_refl) as Ho. rewrite Hb in Ho. exact Ho.
Qed.
