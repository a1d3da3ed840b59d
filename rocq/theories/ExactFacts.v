(* Lemmas for the exact forms of C08 and C26 *)
From Coq Require Import Permutation.
From Verif Require Import Base BaseFacts Labels Array Block Tensor Spec SpecTensor LabelsFacts BlockFacts TensorFacts KeysFacts MergeFacts GroupFacts BlocksFacts MergePropertiesFacts MovedFacts SpecExact.
Local Open Scope string_scope.
Local Open Scope list_scope.
Local Open Scope nat_scope.

(** * The builder after rejected rows *)

Lemma nub_snoc l r : nub (l ++ [r]) = if mem row_eqb r (nub l) then nub l else nub l ++ [r].
Proof.
  rewrite <- !is_insert_all_nub. unfold is_insert_all. rewrite fold_left_app. reflexivity.
Qed.

Definition sized (names : list string) (new : list (list Z)) : list (list Z) :=
  filter (fun r => length r =? length names) new.

Lemma add_catching_state names new : forall before,
  add_catching (mk_builder names (concat before) (combine (nub before) (seq 0 (length (nub before))))) new
  = mk_builder names (concat (before ++ sized names new))
      (combine (nub (before ++ sized names new)) (seq 0 (length (nub (before ++ sized names new))))).
Proof.
  induction new as [|r new IH]; intros before; simpl.
  - rewrite app_nil_r. reflexivity.
  - unfold builder_add_state, builder_size. cbn [lb_names lb_values lb_positions].
    rewrite (Nat.eqb_sym (length r)). destruct (length names =? length r) eqn:El; cbn [negb].
    + assert (Ea : before ++ r :: sized names new = (before ++ [r]) ++ sized names new) by (rewrite <- app_assoc; reflexivity).
      change (filter (fun r0 => length r0 =? length names) new) with (sized names new). rewrite Ea, <- IH.
      rewrite nub_snoc. destruct (hm_get row_eqb (combine (nub before) (seq 0 (length (nub before)))) r) as [pos|] eqn:Eg; cbn [fst].
      * apply (hm_get_In _ row_eqb_eq) in Eg. apply in_combine_l in Eg.
        apply (mem_spec _ row_eqb_eq) in Eg. rewrite Eg, concat_app. simpl. rewrite app_nil_r. reflexivity.
      * apply (hm_get_None _ row_eqb_eq) in Eg. rewrite map_fst_combine_seq in Eg.
        destruct (mem row_eqb r (nub before)) eqn:Em; [apply (mem_spec _ row_eqb_eq) in Em; contradiction|].
        rewrite combine_seq_snoc, concat_app. simpl. rewrite app_nil_r. unfold hm_insert_new.
        rewrite combine_length_eq by (rewrite seq_length; reflexivity). reflexivity.
    + apply IH.
Qed.

Lemma sized_lengths names new : Forall (fun r => length r = length names) (sized names new).
Proof. apply Forall_forall. intros r H. apply filter_In in H as [_ H]. apply Nat.eqb_eq. assumption. Qed.

Lemma index_concat names rs positions i r :
  names <> [] -> Forall (fun r => length r = length names) rs ->
  (labels_index (mk_labels names (concat rs) positions) i = Ok r <-> nth_error rs i = Some r).
Proof.
  intros Hne Hlen. pose proof (nonempty_length _ Hne) as Hn. unfold labels_index, labels_size. cbn [l_names l_values].
  rewrite (length_concat_const (length names)) by assumption.
  destruct ((i + 1) * length names <=? length rs * length names) eqn:E.
  - apply Nat.leb_le in E. assert (Hi : i < length rs) by nia.
    replace ((i + 1) * length names - i * length names) with (length names) by nia.
    destruct (nth_error rs i) as [r'|] eqn:Er.
    + rewrite (firstn_skipn_concat _ _ _ _ Hlen Er). split; congruence.
    + apply nth_error_None in Er. lia.
  - apply Nat.leb_gt in E. split; [discriminate|]. intros H.
    assert (i < length rs) by (apply nth_error_Some; congruence). nia.
Qed.

Lemma prefix_by_index {A} (a b : list A) :
  (forall i x, nth_error a i = Some x -> nth_error b i = Some x) -> exists rest, b = a ++ rest.
Proof.
  revert b; induction a as [|x a IH]; intros b H; [exists b; reflexivity|].
  destruct b as [|y b]; [specialize (H 0 x eq_refl); discriminate|].
  pose proof (H 0 x eq_refl) as E. inversion E; subst.
  destruct (IH b) as [rest ->]; [intros i z Hz; apply (H (S i) z Hz)|]. exists rest. reflexivity.
Qed.

Lemma after_rejections names new :
  good_names names -> names <> [] ->
  let accepted_size := filter (fun r => length r =? length names) new in
  exists b l distinct, builder_new names = Ok b /\ builder_finish (add_catching b new) = Ok l
    /\ first_appearance accepted_size distinct
    /\ labels_names l = names
    /\ labels_iter l = Ok accepted_size
    /\ labels_count l = Ok (length accepted_size)
    /\ (forall i r, labels_index l i = Ok r <-> nth_error accepted_size i = Some r)
    /\ (forall r, labels_contains l r = true <-> In r distinct)
    /\ (forall r i, labels_position l r = Ok (Some i) <-> nth_error distinct i = Some r)
    /\ (labels_iter l = Ok distinct <-> NoDup accepted_size)
    /\ ((forall r i, labels_position l r = Ok (Some i) -> labels_index l i = Ok r)
        <-> exists duplicates, accepted_size = distinct ++ duplicates).
Proof.
  intros Hn Hne rs. change rs with (sized names new). clear rs. pose proof (sized_lengths names new) as Hlen.
  set (rs := sized names new) in *.
  assert (Hgood : good_rows (length names) (nub rs)).
  { split; [|apply nub_NoDup]. rewrite Forall_forall in *. intros r Hr. apply Hlen. apply nub_In. assumption. }
  pose proof (built_is_labels _ _ Hn Hgood Hne) as Hl.
  exists (mk_builder names [] []), (mk_labels names (concat rs) (combine (nub rs) (seq 0 (length (nub rs))))), (nub rs).
  assert (Ep : l_positions (built names (nub rs)) = combine (nub rs) (seq 0 (length (nub rs)))).
  { destruct names; [contradiction|reflexivity]. }
  assert (Hpos : forall r i, labels_position (mk_labels names (concat rs) (combine (nub rs) (seq 0 (length (nub rs))))) r = Ok (Some i)
                             <-> nth_error (nub rs) i = Some r).
  { intros r i. rewrite <- (is_labels_position_some _ _ _ Hl). unfold labels_position, labels_size. rewrite Ep.
    cbn [l_names l_positions]. rewrite (is_labels_names _ _ _ Hl : l_names _ = _). reflexivity. }
  assert (Hindex : forall i r, labels_index (mk_labels names (concat rs) (combine (nub rs) (seq 0 (length (nub rs))))) i = Ok r
                               <-> nth_error rs i = Some r).
  { intros i r. apply index_concat; assumption. }
  assert (Hiter : labels_iter (mk_labels names (concat rs) (combine (nub rs) (seq 0 (length (nub rs))))) = Ok rs).
  { pose proof (nonempty_length _ Hne) as H0. unfold labels_iter, labels_size. cbn [l_names l_values].
    rewrite (proj2 (Nat.eqb_neq _ _)) by assumption. rewrite chunks_exact_concat by assumption. reflexivity. }
  split; [apply builder_new_ok; auto|]. split.
  { pose proof (add_catching_state names new []) as E. simpl in E. fold rs in E. rewrite E.
    unfold builder_finish. cbn [lb_names lb_values lb_positions]. destruct names as [|n names]; [contradiction|].
    rewrite mapM_cstring by apply Hn. reflexivity. }
  split; [apply nub_first_appearance|]. split; [reflexivity|]. split; [assumption|]. split.
  { pose proof (nonempty_length _ Hne) as H0. unfold labels_count, labels_size. cbn [l_names l_values].
    rewrite (proj2 (Nat.eqb_neq _ _)) by assumption.
    rewrite (length_concat_const (length names)) by assumption. rewrite Nat.div_mul by assumption. reflexivity. }
  split; [assumption|]. split.
  { intros r. rewrite <- (is_labels_contains _ _ _ Hl). unfold labels_contains. rewrite Ep. reflexivity. }
  split; [assumption|]. split.
  { rewrite Hiter. split.
    - intros H. inversion H as [E]. rewrite E. apply nub_NoDup.
    - intros H. rewrite (nub_NoDup_id _ H). reflexivity. }
  split.
  - intros H. apply prefix_by_index. intros i r Hr. apply Hindex. apply H. apply Hpos. assumption.
  - intros [rest E] r i Hr. apply Hpos in Hr. apply Hindex. rewrite E. rewrite nth_error_app1; [assumption|].
    apply nth_error_Some. congruence.
Qed.

(** * Variables which move in another order *)

Lemma named_nth names (key : list Z) i name v :
  nth_error (named names key) i = Some (name, v) <-> nth_error names i = Some name /\ nth_error key i = Some v.
Proof. apply nth_error_combine. Qed.

Lemma named_one names key name u v :
  NoDup names -> In (name, u) (named names key) -> In (name, v) (named names key) -> u = v.
Proof.
  intros Hnd H1 H2. apply In_nth_error in H1 as [i H1], H2 as [j H2].
  apply named_nth in H1 as [A1 B1], H2 as [A2 B2].
  assert (i = j) by (eapply (proj1 (NoDup_nth_error names) Hnd); [apply nth_error_Some; congruence|congruence]).
  congruence.
Qed.

Lemma named_some names (key : list Z) name :
  length key = length names -> In name names -> exists v, In (name, v) (named names key).
Proof.
  intros Hl H. apply In_nth_error in H as [i H].
  destruct (nth_error key i) as [v|] eqn:E.
  - exists v. apply (nth_error_In _ i). apply named_nth. auto.
  - apply nth_error_None in E. assert (i < length names) by (apply nth_error_Some; congruence). lia.
Qed.

Lemma moved_part_nth variables names key i v :
  length key = length names ->
  nth_error (moved_part variables names key) i = Some v ->
  exists name, nth_error (moved_names variables names) i = Some name /\ In (name, v) (named names key).
Proof.
  intros Hl H.
  assert (Hi : i < length (moved_names variables names)).
  { unfold moved_names. rewrite <- (moved_part_length _ _ _ Hl). apply nth_error_Some. congruence. }
  destruct (nth_error (moved_names variables names) i) as [name|] eqn:E; [|apply nth_error_None in E; lia].
  exists name. split; [reflexivity|].
  pose proof (named_filter (is_moved variables) names key Hl) as F.
  assert (Hin : In (name, v) (filter (fun nv => is_moved variables (fst nv)) (combine names key))).
  { rewrite <- F. apply (nth_error_In _ i). apply nth_error_combine. split; assumption. }
  apply filter_In in Hin. apply Hin.
Qed.

Lemma right_values_combine variables names key :
  NoDup names -> length key = length names -> (forall v, In v variables -> In v names) ->
  length variables = length (moved_names variables names) ->
  (right_values variables (combine variables (moved_part variables names key)) names key <-> same_values variables names key).
Proof.
  intros Hnd Hl Hincl Hlen. split.
  - intros H i requested ordered u v H1 H2 H3 H4.
    destruct (nth_error (moved_part variables names key) i) as [w|] eqn:E.
    + destruct (moved_part_nth _ _ _ _ _ Hl E) as (name & E1 & E2).
      assert (name = ordered) by congruence. subst name.
      assert (In (requested, w) (named names key)).
      { apply H; [eapply nth_error_In; eauto|]. apply (nth_error_In _ i). apply nth_error_combine. split; assumption. }
      transitivity w; [apply (named_one names key requested)|apply (named_one names key ordered)]; assumption.
    + apply nth_error_None in E. rewrite moved_part_length in E by assumption.
      fold (moved_names variables names) in E. assert (i < length (moved_names variables names)) by (apply nth_error_Some; congruence). lia.
  - intros H name w Hname Hin. apply In_nth_error in Hin as [i Hi]. apply nth_error_combine in Hi as [Hi Hw].
    destruct (moved_part_nth _ _ _ _ _ Hl Hw) as (ordered & E1 & E2).
    destruct (named_some names key name Hl (Hincl _ Hname)) as [u Hu].
    rewrite <- (H i name ordered u w Hi E1 Hu E2). assumption.
Qed.

Lemma moved_names_length variables names :
  NoDup variables -> NoDup names -> (forall v, In v variables -> In v names) ->
  length variables = length (moved_names variables names).
Proof.
  intros H1 H2 H3. apply Nat.le_antisymm; apply NoDup_incl_length.
  - assumption.
  - intros v Hv. apply filter_In. split; [auto|]. unfold is_moved. destruct (in_dec _ _ _); [reflexivity|contradiction].
  - apply NoDup_filter. assumption.
  - intros v Hv. apply filter_In in Hv as [_ Hv]. unfold is_moved in Hv. destruct (in_dec _ _ _); [assumption|discriminate].
Qed.

Lemma right_values_after variables a b names key :
  (forall name v, In (name, v) a -> ~ In name variables) ->
  (right_values variables (a ++ b) names key <-> right_values variables b names key).
Proof.
  intros Ha. split; intros H name v Hn Hin; apply H; auto; [apply in_or_app; auto|].
  apply in_app_or in Hin as [Hin|Hin]; [exfalso; eapply Ha; eauto|assumption].
Qed.

Lemma right_values_before variables a b names key :
  (forall name v, In (name, v) a -> ~ In name variables) ->
  (right_values variables (b ++ a) names key <-> right_values variables b names key).
Proof.
  intros Ha. split; intros H name v Hn Hin; apply H; auto; [apply in_or_app; auto|].
  apply in_app_or in Hin as [Hin|Hin]; [assumption|exfalso; eapply Ha; eauto].
Qed.

Lemma block_of_axes t e b :
  wf_tensor t -> block_of t e b ->
  NoDup (labels_names (bb_samples (tb_values b))) /\ NoDup (labels_names (bb_properties (tb_values b)))
  /\ wf_labels (bb_samples (tb_values b)) /\ wf_labels (bb_properties (tb_values b)).
Proof.
  intros Ht H. pose proof (wf_tensor_block _ _ Ht (block_of_In _ _ _ H)) as [Hv _].
  destruct (wf_basic_axes _ Hv) as ([Hs _] & _ & [Hp _]).
  repeat split; auto; apply wf_names_good; assumption.
Qed.

Lemma moved_names_of_samples p t keys sort t' :
  wf_tensor t -> keys_to_samples p t keys sort = (t', Ok tt) ->
  forall e b' key b s, block_of t' e b' -> block_of t key b -> In s (rows (bb_samples (tb_values b))) ->
    let read := named (labels_names (bb_samples (tb_values b')))
                      (s ++ moved_part (labels_names keys) (labels_names (tm_keys t)) key) in
    read = named (labels_names (bb_samples (tb_values b))) s
           ++ named (labels_names keys) (moved_part (labels_names keys) (labels_names (tm_keys t)) key)
    /\ (right_values (labels_names keys) read (labels_names (tm_keys t)) key
        <-> same_values (labels_names keys) (labels_names (tm_keys t)) key).
Proof.
  intros Ht H e b' key b s He Hkey Hs read.
  destruct (keys_to_samples_names _ _ _ _ _ Ht H e b' key b He Hkey) as (En & _).
  pose proof (proj1 (keys_to_samples_wf _ _ _ _ _ Ht H)) as Ht'.
  pose proof (proj1 (block_of_axes _ _ _ Ht' He)) as Hnd. rewrite En in Hnd.
  destruct (block_of_axes _ _ _ Ht Hkey) as (_ & _ & Hws & _).
  assert (E : read = named (labels_names (bb_samples (tb_values b))) s
           ++ named (labels_names keys) (moved_part (labels_names keys) (labels_names (tm_keys t)) key)).
  { unfold read. rewrite En. unfold named. rewrite combine_app; [reflexivity|]. symmetry. apply wf_rows_length; assumption. }
  split; [exact E|]. rewrite E.
  destruct (keys_to_samples_inv _ _ _ _ _ H) as (nk & pos & bs & Hrem & _).
  destruct (remove_variables_ok _ _ _ _ (proj1 Ht) Hrem) as (Hv & _).
  pose proof (proj2 (wf_names_good _ (proj1 (proj1 Ht)))) as Hk.
  rewrite right_values_after.
  - apply right_values_combine; auto.
    + apply wf_rows_length; [apply Ht|]. eapply block_of_key; eauto.
    + apply moved_names_length; auto. clear - Hnd. induction (labels_names (bb_samples (tb_values b))) as [|n l IH]; [assumption|].
      apply IH. inversion Hnd; assumption.
  - intros name v Hin Hn. apply in_combine_l in Hin.
    apply in_split in Hin as (l1 & l2 & Hsplit). rewrite Hsplit, <- app_assoc in Hnd. simpl in Hnd.
    apply NoDup_remove_2 in Hnd. apply Hnd. apply in_or_app. right. apply in_or_app. right. assumption.
Qed.

Lemma moved_names_of_properties p t keys sort t' :
  wf_tensor t -> wf_labels keys ->
  (rows keys = [] \/ forall b, In b (tm_blocks t) -> a_kind (bb_data (tb_values b)) <> RustEmptyArray) ->
  keys_to_properties p t keys sort = (t', Ok tt) ->
  forall e b' key b pr, block_of t' e b' -> block_of t key b -> In pr (rows (bb_properties (tb_values b))) ->
    let read := named (labels_names (bb_properties (tb_values b')))
                      (moved_part (labels_names keys) (labels_names (tm_keys t)) key ++ pr) in
    read = named (labels_names keys) (moved_part (labels_names keys) (labels_names (tm_keys t)) key)
           ++ named (labels_names (bb_properties (tb_values b))) pr
    /\ (right_values (labels_names keys) read (labels_names (tm_keys t)) key
        <-> same_values (labels_names keys) (labels_names (tm_keys t)) key).
Proof.
  intros Ht Hwk Hkind H e b' key b pr He Hkey Hpr read.
  destruct (keys_to_properties_names _ _ _ _ _ Ht Hwk Hkind H e b' key b He Hkey) as (_ & _ & En).
  pose proof (proj1 (keys_to_properties_wf _ _ _ _ _ Ht Hwk Hkind H)) as Ht'.
  pose proof (proj1 (proj2 (block_of_axes _ _ _ Ht' He))) as Hnd. rewrite En in Hnd.
  destruct (keys_to_properties_inv _ _ _ _ _ H) as (nk & pos & count & bs & Hrem & _).
  destruct (remove_variables_ok _ _ _ _ (proj1 Ht) Hrem) as (Hv & _).
  pose proof (proj2 (wf_names_good _ (proj1 (proj1 Ht)))) as Hk.
  pose proof (proj2 (wf_names_good _ Hwk)) as Hndk.
  assert (Hlk : length key = length (labels_names (tm_keys t))).
  { apply wf_rows_length; [apply Ht|]. eapply block_of_key; eauto. }
  assert (E : read = named (labels_names keys) (moved_part (labels_names keys) (labels_names (tm_keys t)) key)
           ++ named (labels_names (bb_properties (tb_values b))) pr).
  { unfold read. rewrite En. unfold named. rewrite combine_app; [reflexivity|].
    rewrite moved_part_length by assumption. apply moved_names_length; auto. }
  split; [exact E|]. rewrite E.
  rewrite right_values_before.
  - apply right_values_combine; auto. apply moved_names_length; auto.
  - intros name v Hin Hn. apply in_combine_l in Hin.
    apply in_split in Hn as (l1 & l2 & Hsplit). rewrite Hsplit, <- app_assoc in Hnd. simpl in Hnd.
    apply NoDup_remove_2 in Hnd. apply Hnd. apply in_or_app. right. apply in_or_app. right. assumption.
Qed.

(* variables in the order of the keys are always right *)
Lemma key_order_same_values variables names key :
  NoDup names -> in_key_order variables names -> same_values variables names key.
Proof.
  intros Hnd Ho i requested ordered u v H1 H2 H3 H4. unfold moved_names in H2. rewrite Ho in H2.
  assert (requested = ordered) by congruence. subst. eapply named_one; eauto.
Qed.
