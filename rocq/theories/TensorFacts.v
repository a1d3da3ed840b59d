(* Lemmas about Tensor.v: construction, selection and removal of key variables *)
From Coq Require Import Permutation Sorting.Sorted.
From Verif Require Import Base BaseFacts Labels Array Block Tensor Spec SpecTensor LabelsFacts ArrayFacts BlockFacts.
Local Open Scope string_scope.
Local Open Scope list_scope.
Local Open Scope nat_scope.

(** * TensorMap::new *)

Lemma check_components_names_ok components : forall names context,
  length components = length names ->
  (check_components_names components names context = Ok tt <-> map labels_names components = names).
Proof.
  induction components as [|c cs IH]; intros [|n names] context H; simpl in *; try discriminate.
  - split; reflexivity.
  - destruct (names_eqb (labels_names c) n) eqn:E; simpl.
    + apply names_eqb_eq in E. rewrite IH by lia. split; congruence.
    + split; [discriminate|]. intros H'; inversion H'; subst. rewrite names_eqb_refl in E. discriminate.
Qed.

Lemma check_labels_names_ok b sn cn context :
  check_labels_names b sn cn context = Ok tt <->
  labels_names (bb_samples b) = sn /\ map labels_names (bb_components b) = cn.
Proof.
  unfold check_labels_names.
  destruct (names_eqb (labels_names (bb_samples b)) sn) eqn:E; simpl.
  - apply names_eqb_eq in E.
    destruct (Nat.eqb_spec (length (bb_components b)) (length cn)) as [El|El]; simpl.
    + rewrite check_components_names_ok by assumption. tauto.
    + split; [discriminate|]. intros [_ <-]. rewrite map_length in El. congruence.
  - split; [discriminate|]. intros [<- _]. rewrite names_eqb_refl in E. discriminate.
Qed.

Lemma gradients_data_get b q :
  hm_get String.eqb (gradients_data_of b) q
  = option_map (fun g => (labels_names (bb_samples g), map labels_names (bb_components g)))
               (hm_get String.eqb (tb_gradients b) q).
Proof.
  unfold gradients_data_of. rewrite <- hm_get_map. reflexivity.
Qed.

Lemma check_gradients_names_ok gradients first :
  NoDup (map fst (tb_gradients first)) ->
  (check_gradients_names gradients (gradients_data_of first) = Ok tt <->
   forall q g, In (q, g) gradients -> exists g', In (q, g') (tb_gradients first)
     /\ labels_names (bb_samples g) = labels_names (bb_samples g')
     /\ map labels_names (bb_components g) = map labels_names (bb_components g')).
Proof.
  intros Hnd. induction gradients as [|[q g] gradients IH]; simpl.
  - split; [intros _ q g []|reflexivity].
  - rewrite gradients_data_get.
    destruct (hm_get String.eqb (tb_gradients first) q) as [g'|] eqn:E; simpl.
    + apply (hm_get_iff _ String.eqb_eq _ _ _ Hnd) in E. rewrite bind_ok. split.
      * intros ([] & H1 & H2). apply check_labels_names_ok in H1. rewrite IH in H2.
        intros q0 g0 [H|H]; [|auto]. inversion H; subst. exists g'. auto.
      * intros H. exists tt. split.
        -- apply check_labels_names_ok. destruct (H q g (or_introl eq_refl)) as (g'' & Hin & H').
           assert (g'' = g'); [|subst; assumption].
           apply (hm_get_iff _ String.eqb_eq _ _ _ Hnd) in E, Hin. congruence.
        -- apply IH. auto.
    + apply (hm_get_None _ String.eqb_eq) in E. split; [discriminate|]. intros H. exfalso. apply E.
      destruct (H q g (or_introl eq_refl)) as (g'' & Hin & _). change q with (fst (q, g'')).
      apply in_map. assumption.
Qed.

Lemma same_length_gradients b1 b2 :
  NoDup (map fst (tb_gradients b1)) -> NoDup (map fst (tb_gradients b2)) ->
  length (tb_gradients b1) = length (tb_gradients b2) ->
  same_gradient_names b1 b2 -> same_gradient_names b2 b1.
Proof.
  intros H1 H2 Hl H q g2 Hin.
  assert (Hincl : incl (map fst (tb_gradients b1)) (map fst (tb_gradients b2))).
  { intros x Hx. apply in_map_iff in Hx as ([q' g1] & <- & Hx). destruct (H _ _ Hx) as (g & Hg & _).
    change (fst (q', g1)) with (fst (q', g)). apply in_map. assumption. }
  assert (Hincl2 : incl (map fst (tb_gradients b2)) (map fst (tb_gradients b1))).
  { apply NoDup_length_incl; [assumption| rewrite !map_length; lia | assumption]. }
  assert (Hq : In q (map fst (tb_gradients b1))).
  { apply Hincl2. change q with (fst (q, g2)). apply in_map. assumption. }
  apply in_map_iff in Hq as ([q' g1] & E & Hg1). simpl in E; subst q'.
  destruct (H _ _ Hg1) as (g2' & Hg2' & Hn1 & Hn2).
  assert (g2' = g2).
  { apply (hm_get_iff _ String.eqb_eq _ _ _ H2) in Hin, Hg2'. congruence. }
  subst. exists g1. auto.
Qed.

Lemma same_gradients_length b1 b2 :
  NoDup (map fst (tb_gradients b1)) -> NoDup (map fst (tb_gradients b2)) ->
  same_gradient_names b1 b2 -> same_gradient_names b2 b1 ->
  length (tb_gradients b1) = length (tb_gradients b2).
Proof.
  intros H1 H2 H H'.
  assert (G : forall a b, same_gradient_names a b -> incl (map fst (tb_gradients a)) (map fst (tb_gradients b))).
  { intros a b Hab x Hx. apply in_map_iff in Hx as ([q' g1] & <- & Hx). destruct (Hab _ _ Hx) as (g & Hg & _).
    change (fst (q', g1)) with (fst (q', g)). apply in_map. assumption. }
  apply Nat.le_antisymm.
  - rewrite <- (map_length fst (tb_gradients b1)), <- (map_length fst (tb_gradients b2)).
    apply NoDup_incl_length; auto.
  - rewrite <- (map_length fst (tb_gradients b1)), <- (map_length fst (tb_gradients b2)).
    apply NoDup_incl_length; auto.
Qed.

Lemma check_block_names_ok first block :
  wf_block first -> wf_block block ->
  (check_block_names first block = Ok tt <-> same_names first block).
Proof.
  intros (_ & _ & Hnd1 & _) (_ & _ & Hnd2 & _). unfold check_block_names, same_names.
  rewrite bind_ok. split.
  - intros ([] & H1 & H). apply check_labels_names_ok in H1 as [Hs Hc].
    destruct (names_eqb _ _) eqn:En; simpl in H; [|discriminate]. apply names_eqb_eq in En.
    destruct (Nat.eqb_spec (length (tb_gradients block)) (length (gradients_data_of first))) as [El|]; simpl in H; [|discriminate].
    unfold gradients_data_of in El. rewrite map_length in El.
    pose proof (proj1 (check_gradients_names_ok _ _ Hnd1) H) as Hsg. fold (same_gradient_names block first) in Hsg.
    split; [congruence|]. split; [congruence|]. split; [congruence|]. split; [|assumption].
    apply same_length_gradients; assumption.
  - intros (Hs & Hc & Hp & Hg1 & Hg2). exists tt. split; [apply check_labels_names_ok; auto|].
    rewrite Hp, names_eqb_refl. simpl.
    rewrite (proj2 (Nat.eqb_eq _ _)).
    + simpl. apply check_gradients_names_ok; [assumption|]. exact Hg2.
    + unfold gradients_data_of. rewrite map_length. apply same_gradients_length; assumption.
Qed.

Lemma same_names_refl b : same_names b b.
Proof.
  assert (H : same_gradient_names b b) by (intros q g Hg; exists g; auto).
  unfold same_names. auto 10.
Qed.

Lemma same_names_sym b1 b2 : same_names b1 b2 -> same_names b2 b1.
Proof. unfold same_names. intros (H1 & H2 & H3 & H4 & H5). auto. Qed.

Lemma same_names_trans b1 b2 b3 : same_names b1 b2 -> same_names b2 b3 -> same_names b1 b3.
Proof.
  unfold same_names. intros (H1 & H2 & H3 & H4 & H5) (K1 & K2 & K3 & K4 & K5).
  split; [congruence|]. split; [congruence|]. split; [congruence|]. split.
  - intros q g Hg. destruct (H4 _ _ Hg) as (g2 & Hg2 & E1 & E2). destruct (K4 _ _ Hg2) as (g3 & Hg3 & F1 & F2).
    exists g3. repeat split; congruence.
  - intros q g Hg. destruct (K5 _ _ Hg) as (g2 & Hg2 & E1 & E2). destruct (H5 _ _ Hg2) as (g3 & Hg3 & F1 & F2).
    exists g3. repeat split; congruence.
Qed.

Lemma check_all_blocks_ok first blocks :
  wf_block first -> Forall wf_block blocks ->
  (check_all_blocks first blocks = Ok tt <-> Forall (same_names first) blocks).
Proof.
  intros Hf Hb. induction Hb as [|b blocks Hb0 Hb IH]; simpl.
  - split; [constructor|reflexivity].
  - rewrite bind_ok. split.
    + intros ([] & H1 & H2). apply check_block_names_ok in H1; auto. constructor; [assumption|]. apply IH; assumption.
    + intros H; inversion H; subst. exists tt. split; [apply check_block_names_ok; assumption|].
      apply IH; assumption.
Qed.

Lemma tensor_map_new_ok keys blocks t :
  axis_labels keys -> Forall wf_block blocks ->
  (tensor_map_new keys blocks = Ok t <-> homogeneous keys blocks /\ t = mk_tensor keys blocks).
Proof.
  intros [Hk Hne] Hb. unfold tensor_map_new, homogeneous.
  rewrite (proj2 (labels_count_ok keys _ Hk)) by auto. simpl bind.
  destruct (Nat.eqb_spec (length blocks) (length (rows keys))) as [El|El]; simpl negb; cbn iota.
  2:{ split; [discriminate|]. intros [[H _] _]. congruence. }
  rewrite bind_ok. destruct blocks as [|first blocks].
  - split.
    + intros (u & _ & H). inversion H; subst. split; [|reflexivity]. split; [assumption|]. intros b1 b2 [].
    + intros [_ ->]. exists tt. auto.
  - assert (Hf : wf_block first) by (inversion Hb; assumption).
    split.
    + intros ([] & H & H'). inversion H'; subst. split; [|reflexivity]. split; [assumption|].
      apply check_all_blocks_ok in H; auto. rewrite Forall_forall in H. intros b1 b2 H1 H2.
      eapply same_names_trans; [apply same_names_sym; apply H; exact H1 | apply H; exact H2].
    + intros [[_ H] ->]. exists tt. split; [|reflexivity].
      apply check_all_blocks_ok; auto. apply Forall_forall. intros b Hin. apply H; simpl; auto.
Qed.

Lemma check_labels_names_error b sn cn context :
  check_labels_names b sn cn context = Ok tt \/ exists m, check_labels_names b sn cn context = Err (InvalidParameter m).
Proof.
  unfold check_labels_names. destruct (negb _); [eauto|]. destruct (negb _); [eauto|].
  generalize (bb_components b) cn. intros l. induction l as [|c l IH]; intros [|n ns]; simpl; auto.
  destruct (negb _); [eauto|]. apply IH.
Qed.

Lemma check_gradients_names_error gradients data :
  check_gradients_names gradients data = Ok tt
  \/ exists m, check_gradients_names gradients data = Err (InvalidParameter m).
Proof.
  induction gradients as [|[q g] gradients IH]; cbn [check_gradients_names]; [auto|].
  destruct (hm_get _ _ _) as [[sn cn]|]; [|eauto].
  destruct (check_labels_names_error g sn cn (" for gradients with respect to " +++ q)) as [->|[m ->]];
    cbn [bind]; eauto.
Qed.

Lemma tensor_map_new_error keys blocks :
  axis_labels keys ->
  (exists t, tensor_map_new keys blocks = Ok t)
  \/ (exists m, tensor_map_new keys blocks = Err (InvalidParameter m)).
Proof.
  intros [Hk Hne]. unfold tensor_map_new.
  rewrite (proj2 (labels_count_ok keys _ Hk)) by auto. simpl bind.
  destruct (negb _); [eauto|].
  destruct blocks as [|first blocks]; [simpl; eauto|].
  assert (H : forall l, check_all_blocks first l = Ok tt
              \/ exists m, check_all_blocks first l = Err (InvalidParameter m)).
  { induction l as [|b l IH]; simpl; [auto|]. unfold check_block_names.
    match goal with |- context [check_labels_names ?a ?b ?c ?d] =>
      destruct (check_labels_names_error a b c d) as [->|[m ->]] end; cbn [bind]; [|eauto].
    destruct (negb _); cbn [bind]; [eauto|]. destruct (negb _); cbn [bind]; [eauto|].
    match goal with |- context [check_gradients_names ?a ?b] =>
      destruct (check_gradients_names_error a b) as [->|[m ->]] end; cbn [bind]; eauto. }
  destruct (H (first :: blocks)) as [->|[m ->]]; simpl; eauto.
Qed.

(** * Selections *)

Lemma name_position_some name names i :
  NoDup names -> (name_position name names = Some i <-> nth_error names i = Some name).
Proof.
  intros Hnd; revert i; induction Hnd as [|n names Hn Hnd IH]; intros i; simpl.
  - split; [discriminate|]. destruct i; discriminate.
  - destruct (String.eqb_spec name n) as [->|Hne].
    + split.
      * intros H; inversion H; reflexivity.
      * destruct i as [|i]; [reflexivity|]. simpl. intros H. apply nth_error_In in H. contradiction.
    + destruct i as [|i]; simpl.
      * destruct (name_position name names); split; simpl; congruence.
      * rewrite <- IH. destruct (name_position name names); simpl; split; congruence.
Qed.

Lemma name_position_none name names : name_position name names = None <-> ~ In name names.
Proof.
  induction names as [|n names IH]; simpl; [tauto|].
  destruct (String.eqb_spec name n) as [->|Hne].
  - split; [discriminate|]. intros H; exfalso; auto.
  - destruct (name_position name names) eqn:E; simpl.
    + split; [discriminate|]. intros H. exfalso.
      assert (Some n0 = None) by (apply IH; intros Hi; apply H; auto). discriminate.
    + split; [|reflexivity]. intros _ [H|H]; [congruence|]. apply (proj1 IH eq_refl H).
Qed.

Lemma selection_variables_ok requested names vs :
  NoDup names ->
  (selection_variables requested names = Ok vs <->
   Forall2 (fun r v => nth_error names v = Some r) requested vs).
Proof.
  intros Hnd; revert vs; induction requested as [|r requested IH]; intros vs; simpl.
  - split; [intros H; inversion H; constructor|]. intros H; inversion H; reflexivity.
  - destruct (name_position r names) as [i|] eqn:E.
    + apply (name_position_some _ _ _ Hnd) in E. rewrite bind_ok. split.
      * intros (vs' & H1 & H2). inversion H2; subst. constructor; [assumption|]. apply IH; assumption.
      * intros H. inversion H as [|? v ? vs' Hv Hvs]; subst. exists vs'. split; [apply IH; assumption|].
        f_equal. f_equal. eapply NoDup_nth_error_inj; eauto.
    + apply name_position_none in E. split; [discriminate|]. intros H. inversion H as [|? v ? vs' Hv Hvs]; subst.
      apply nth_error_In in Hv. contradiction.
Qed.

Lemma selection_variables_cases requested names :
  (exists vs, selection_variables requested names = Ok vs) /\ (forall n, In n requested -> In n names)
  \/ (exists m, selection_variables requested names = Err (InvalidParameter m))
     /\ (exists n, In n requested /\ ~ In n names).
Proof.
  induction requested as [|r requested IH]; simpl.
  - left. split; [eauto|]. intros n [].
  - destruct (name_position r names) as [i|] eqn:E.
    + assert (Hr : In r names).
      { destruct (in_dec string_dec r names) as [|Hn]; [assumption|].
        apply name_position_none in Hn. congruence. }
      destruct IH as [[[vs ->] H]|[[m ->] (n & H1 & H2)]]; simpl.
      * left. split; [eauto|]. intros n [->|Hn]; auto.
      * right. split; eauto.
    + apply name_position_none in E. right. split; eauto.
Qed.

Lemma key_matches_spec labels vs selection :
  Forall (fun v => v < length labels) vs ->
  exists b, key_matches labels vs selection = Ok b
    /\ (b = true <-> forall v x, In (v, x) (combine vs selection) -> nth_error labels v = Some x).
Proof.
  intros Hf. revert selection. induction Hf as [|v vs Hv Hf IH]; intros selection; simpl.
  - exists true. split; [destruct selection; reflexivity|]. split; [intros _ v x []|reflexivity].
  - destruct selection as [|x selection].
    + exists true. split; [reflexivity|]. split; [intros _ ? ? []|reflexivity].
    + unfold index_slice. destruct (nth_error labels v) as [z|] eqn:E; [|apply nth_error_None in E; lia].
      simpl. destruct (Z.eqb_spec z x) as [->|Hne]; simpl.
      * destruct (IH selection) as (b & Eb & Hb). exists b. split; [assumption|]. rewrite Hb. split.
        -- intros H v' x' [H'|H']; [inversion H'; subst; assumption|auto].
        -- intros H v' x' H'. apply H. auto.
      * exists false. split; [reflexivity|]. split; [discriminate|]. intros H. exfalso. apply Hne.
        assert (nth_error labels v = Some x) by (apply H; auto). congruence.
Qed.

Lemma matching_blocks_spec vs selection keys : forall start,
  Forall (fun k => Forall (fun v => v < length k) vs) keys ->
  exists l, matching_blocks start keys vs selection = Ok l
    /\ StronglySorted lt l
    /\ Forall (fun i => start <= i) l
    /\ forall i, In i l <-> start <= i /\ exists key, nth_error keys (i - start) = Some key
         /\ forall v x, In (v, x) (combine vs selection) -> nth_error key v = Some x.
Proof.
  induction keys as [|k keys IH]; intros start Hf; simpl.
  - exists []. split; [reflexivity|]. split; [constructor|]. split; [constructor|].
    intros i. split; [intros []|]. intros (_ & key & H & _). destruct (i - start); discriminate.
  - inversion Hf as [|? ? Hk Hks]; subst.
    destruct (key_matches_spec k vs selection Hk) as (b & Eb & Hb). rewrite Eb. cbn [bind].
    destruct (IH (start + 1) Hks) as (l & El & Hs & Hge & Hin). rewrite El. cbn [bind].
    eexists. split; [reflexivity|].
    assert (Hin' : forall i, In i l <-> start < i /\ exists key, nth_error (k :: keys) (i - start) = Some key
         /\ forall v x, In (v, x) (combine vs selection) -> nth_error key v = Some x).
    { intros i. rewrite Hin. split.
      - intros (H1 & key & H2 & H3). split; [lia|]. exists key. split; [|assumption].
        replace (i - start) with (S (i - (start + 1))) by lia. assumption.
      - intros (H1 & key & H2 & H3). split; [lia|]. exists key. split; [|assumption].
        replace (i - start) with (S (i - (start + 1))) in H2 by lia. assumption. }
    destruct b.
    + split; [constructor; [assumption|]; eapply Forall_impl; [|exact Hge]; simpl; intros; lia|].
      split; [constructor; [lia|]; eapply Forall_impl; [|exact Hge]; simpl; intros; lia|].
      intros i. simpl. rewrite Hin'. split.
      * intros [<-|(H1 & H2)]; [|split; [lia|assumption]]. split; [lia|].
        rewrite Nat.sub_diag. exists k. split; [reflexivity|]. apply Hb. reflexivity.
      * intros (H1 & H2). destruct (Nat.eq_dec start i) as [|Hne]; [auto|]. right. split; [lia|assumption].
    + split; [assumption|].
      split; [eapply Forall_impl; [|exact Hge]; simpl; intros; lia|].
      intros i. rewrite Hin'. split.
      * intros (H1 & H2). split; [lia|assumption].
      * intros (H1 & key & H2 & H3). split; [|eauto].
        destruct (Nat.eq_dec start i) as [<-|Hne]; [|lia]. exfalso.
        rewrite Nat.sub_diag in H2. simpl in H2. inversion H2; subst. apply Hb in H3. discriminate.
Qed.

Lemma in_named names row n v :
  In (n, v) (named names row) <-> exists i, nth_error names i = Some n /\ nth_error row i = Some v.
Proof.
  unfold named. split.
  - intros H. apply In_nth_error in H as [i Hi]. apply nth_error_combine in Hi. eauto.
  - intros (i & H). apply nth_error_combine in H. eapply nth_error_In; eauto.
Qed.

Lemma wf_single_row l : wf_labels l -> length (rows l) = 1 -> exists r, rows l = [r] /\ length r = length (labels_names l).
Proof.
  intros Hwf H. destruct (rows l) as [|r [|r' rs]] eqn:E; simpl in H; try discriminate.
  exists r. split; [reflexivity|]. apply wf_rows_length; [assumption|]. rewrite E. simpl; auto.
Qed.

Lemma blocks_matching_spec t selection :
  wf_tensor t -> wf_labels selection ->
  (valid_selection t selection ->
     exists l, blocks_matching t selection = Ok l /\ StronglySorted lt l
       /\ forall i, In i l <-> selected t selection i)
  /\ (~ valid_selection t selection -> exists m, blocks_matching t selection = Err (InvalidParameter m)).
Proof.
  intros ([Hk Hkn] & Hb & Hhom & _) Hs. unfold blocks_matching.
  pose proof (wf_names_good _ Hk) as [_ Hknd].
  unfold labels_size. change (l_names selection) with (labels_names selection).
  destruct (labels_names selection) as [|n ns] eqn:En.
  { simpl. split.
    - intros _. exists (seq 0 (length (tm_blocks t))). split; [reflexivity|]. split.
      + clear. generalize 0. induction (length (tm_blocks t)) as [|k IH]; intros s; simpl; constructor; [apply IH|].
        apply Forall_forall. intros x Hx. apply in_seq in Hx. lia.
      + intros i. rewrite in_seq. unfold selected. rewrite En. split.
        * intros [_ H]. simpl in H. rewrite Hhom in H. apply nth_error_Some in H.
          destruct (nth_error (rows (tm_keys t)) i) as [key|] eqn:Ek; [|congruence].
          exists key. split; [reflexivity|]. intros row name value _ [].
        * intros (key & Hkey & _). split; [lia|]. simpl. rewrite Hhom. apply nth_error_Some. congruence.
    - intros H. exfalso. apply H. left. assumption. }
  simpl (length (n :: ns) =? 0). cbn iota. rewrite <- En.
  rewrite (proj2 (labels_count_ok selection _ Hs)) by (split; [congruence|reflexivity]). cbn [bind].
  destruct (Nat.eqb_spec (length (rows selection)) 1) as [E1|E1]; simpl negb; cbn iota.
  2:{ split.
      - intros [H|[H _]]; congruence.
      - eauto. }
  destruct (wf_single_row _ Hs E1) as (r & Er & Hr).
  destruct (selection_variables_cases (labels_names selection) (labels_names (tm_keys t)))
    as [[[vs Hvs] Hall]|[[m ->] (n0 & Hn1 & Hn2)]].
  2:{ split.
      - intros [H|[_ H]]; [congruence|]. exfalso; auto.
      - simpl; eauto. }
  rewrite Hvs. cbn [bind]. pose proof Hvs as Hvs'. apply (selection_variables_ok _ _ _ Hknd) in Hvs'.
  rewrite (proj2 (labels_iter_ok selection _ Hs)) by (split; [congruence|reflexivity]). cbn [bind].
  rewrite Er. cbn [hd_error expect_some bind].
  rewrite (proj2 (labels_iter_ok (tm_keys t) _ Hk)) by (split; [assumption|reflexivity]). cbn [bind].
  split.
  2:{ intros H. exfalso. apply H. right. auto. }
  intros _. destruct (matching_blocks_spec vs r (rows (tm_keys t)) 0) as (l & El & Hsort & _ & Hin).
  { apply Forall_forall. intros key Hkey. apply Forall_forall. intros v Hv.
    rewrite (wf_rows_length _ _ Hk Hkey).
    destruct (Forall2_In_r _ _ _ _ Hvs' Hv) as (nm & _ & Hnm). apply nth_error_Some. congruence. }
  exists l. split; [assumption|]. split; [assumption|].
  intros i. rewrite Hin. unfold selected. rewrite Nat.sub_0_r. split.
  - intros (_ & key & Hkey & Hmatch). exists key. split; [assumption|].
    intros row name value Hrow Hnv. rewrite Er in Hrow. destruct Hrow as [<-|[]].
    apply in_named in Hnv as (j & Hj1 & Hj2).
    destruct (Forall2_nth_error_l _ _ _ _ _ Hvs' Hj1) as (v & Hv1 & Hv2).
    apply in_named. exists v. split; [assumption|]. apply Hmatch.
    apply (nth_error_In _ j). apply nth_error_combine. auto.
  - intros (key & Hkey & Hmatch). split; [lia|]. exists key. split; [assumption|].
    intros v x Hvx. apply In_nth_error in Hvx as [j Hj]. apply nth_error_combine in Hj as [Hj1 Hj2].
    destruct (Forall2_nth_error_r _ _ _ _ _ Hvs' Hj1) as (nm & Hn1 & Hn2).
    specialize (Hmatch r nm x). rewrite Er in Hmatch.
    assert (Hin2 : In (nm, x) (named (labels_names (tm_keys t)) key)).
    { apply Hmatch; [simpl; auto|]. apply in_named. eauto. }
    apply in_named in Hin2 as (v' & Hv1 & Hv2).
    assert (v' = v) by (eapply NoDup_nth_error_inj; eauto). subst. assumption.
Qed.

Lemma valid_selection_dec t selection : valid_selection t selection \/ ~ valid_selection t selection.
Proof.
  unfold valid_selection. destruct (labels_names selection) as [|n ns]; [auto|].
  destruct (Nat.eq_dec (length (rows selection)) 1) as [E|E].
  - destruct (Forall_Exists_dec (fun x => In x (labels_names (tm_keys t)))
                (fun x => in_dec string_dec x (labels_names (tm_keys t))) (n :: ns)) as [H|H].
    + left. right. split; [assumption|]. rewrite Forall_forall in H. assumption.
    + right. intros [H'|[_ H']]; [discriminate|]. apply Exists_exists in H as (x & Hx & Hnx). auto.
  - right. intros [H'|[H' _]]; [discriminate|]. contradiction.
Qed.

Lemma sorted_lt_unique l1 l2 :
  StronglySorted lt l1 -> StronglySorted lt l2 -> (forall i, In i l1 <-> In i l2) -> l1 = l2.
Proof.
  intros H1; revert l2; induction H1 as [|x s1 Hs IH Hx]; intros s2 H2 Heq.
  - destruct s2 as [|y s2]; [reflexivity|]. exfalso. apply (Heq y). simpl; auto.
  - destruct H2 as [|y s2 Hs2 Hy].
    + exfalso. apply (Heq x). simpl; auto.
    + rewrite Forall_forall in Hx, Hy.
      assert (x = y).
      { destruct (proj1 (Heq x) (or_introl eq_refl)) as [|Hin1]; [congruence|].
        destruct (proj2 (Heq y) (or_introl eq_refl)) as [|Hin2]; [congruence|].
        specialize (Hx _ Hin2). specialize (Hy _ Hin1). lia. }
      subst y. f_equal. apply IH; [assumption|]. intros z. split; intros Hz.
      * destruct (proj1 (Heq z) (or_intror Hz)) as [<-|]; [|assumption].
        specialize (Hx _ Hz). lia.
      * destruct (proj2 (Heq z) (or_intror Hz)) as [<-|]; [|assumption].
        specialize (Hy _ Hz). lia.
Qed.

Lemma block_matching_spec t selection :
  wf_tensor t -> wf_labels selection ->
  (forall i, block_matching t selection = Ok i <->
     valid_selection t selection /\ selected t selection i
     /\ forall j, selected t selection j -> j = i)
  /\ ((forall i, block_matching t selection <> Ok i) ->
      exists m, block_matching t selection = Err (InvalidParameter m)).
Proof.
  intros Ht Hs. destruct (blocks_matching_spec t selection Ht Hs) as [Hok Herr].
  unfold block_matching.
  destruct (valid_selection_dec t selection) as [Hv|Hv].
  - destruct (Hok Hv) as (l & -> & Hsort & Hin). cbn [bind].
    assert (Hrow : (exists i, l = [i]) \/ exists r, labels_index selection 0 = Ok r).
    { destruct Hv as [En|[E1 _]].
      - right. unfold labels_index, labels_size. change (l_names selection) with (labels_names selection).
        rewrite En. simpl. eauto.
      - right. destruct (labels_names selection) as [|n ns] eqn:En.
        + unfold labels_index, labels_size. change (l_names selection) with (labels_names selection).
          rewrite En. simpl. eauto.
        + destruct (wf_single_row _ Hs E1) as (r & Er & _). exists r.
          apply labels_index_ok; [assumption|congruence|]. rewrite Er. reflexivity. }
    destruct l as [|i [|j l]].
    + destruct Hrow as [[i Hi]|[r Hr]]; [discriminate|]. rewrite Hr. cbn [bind]. split; [|eauto].
      intros i. split; [discriminate|]. intros (_ & H & _). apply Hin in H. destruct H.
    + split.
      * intros k. split.
        -- intros H; inversion H; subst. split; [assumption|]. split; [apply Hin; simpl; auto|].
           intros j Hj. apply Hin in Hj. destruct Hj as [|[]]; congruence.
        -- intros (_ & Hk & Hu). f_equal. apply Hu. apply Hin. simpl; auto.
      * intros H. exfalso. apply (H i). reflexivity.
    + destruct Hrow as [[k Hk]|[r Hr]]; [discriminate|]. rewrite Hr. cbn [bind]. split; [|eauto].
      intros k. split; [discriminate|]. intros (_ & _ & Hu).
      assert (i = j).
      { rewrite (Hu i), (Hu j); [reflexivity| |]; apply Hin; simpl; auto. }
      subst. inversion Hsort as [|? ? _ Hf]; subst. inversion Hf; lia.
  - destruct (Herr Hv) as [m ->]. cbn [bind]. split; [|eauto].
    intros i. split; [discriminate|]. intros (H & _). contradiction.
Qed.

Lemma named_full_eq names r1 r2 :
  NoDup names -> length r1 = length names -> length r2 = length names ->
  (forall n v, In (n, v) (named names r1) -> In (n, v) (named names r2)) -> r1 = r2.
Proof.
  intros Hnd H1 H2 H. apply nth_error_ext. intros i.
  destruct (nth_error r1 i) as [v|] eqn:E1.
  - assert (Hi : i < length names) by (rewrite <- H1; apply nth_error_Some; congruence).
    destruct (nth_error names i) as [n|] eqn:En; [|apply nth_error_None in En; lia].
    assert (Hin : In (n, v) (named names r2)) by (apply H, in_named; eauto).
    apply in_named in Hin as (j & Hj1 & Hj2).
    assert (j = i) by (eapply NoDup_nth_error_inj; eauto). subst. congruence.
  - symmetry. apply nth_error_None. apply nth_error_None in E1. lia.
Qed.

Lemma block_matching_full_key t i key selection :
  wf_tensor t -> nth_error (rows (tm_keys t)) i = Some key ->
  labels_build (labels_names (tm_keys t)) [key] = Ok selection ->
  block_matching t selection = Ok i.
Proof.
  intros Ht Hi Hsel. pose proof Ht as ([Hk Hkn] & Hb & Hhom & _).
  pose proof (wf_names_good _ Hk) as [_ Hknd].
  pose proof (labels_build_wf _ _ _ Hsel) as Hwf.
  apply (labels_build_is_labels _ _ _ Hkn) in Hsel.
  apply (block_matching_spec t selection Ht Hwf).
  pose proof (is_labels_names _ _ _ Hsel) as En. pose proof (is_labels_rows _ _ _ Hsel) as Er.
  split.
  - right. rewrite En, Er. split; [reflexivity|auto].
  - split.
    + exists key. split; [assumption|]. rewrite En, Er. intros row n v [<-|[]]. auto.
    + intros j (key' & Hj & Hm). rewrite En, Er in Hm.
      assert (key = key').
      { apply (named_full_eq (labels_names (tm_keys t))); auto.
        - apply wf_rows_length; [assumption|]. eapply nth_error_In; eauto.
        - apply wf_rows_length; [assumption|]. eapply nth_error_In; eauto.
        - intros n v. apply Hm. simpl; auto. }
      subst. eapply NoDup_nth_error_inj; [apply (wf_rows_NoDup _ Hk)| |]; eauto.
Qed.

(** * Iteration *)

Lemma tensor_map_iter_spec t :
  wf_tensor t ->
  exists l, tensor_map_iter t = Ok l /\ length l = length (tm_blocks t)
    /\ length l = length (rows (tm_keys t))
    /\ forall i k b, nth_error l i = Some (k, b) <->
         nth_error (rows (tm_keys t)) i = Some k /\ nth_error (tm_blocks t) i = Some b.
Proof.
  intros ([Hk Hkn] & Hb & Hhom & _). unfold tensor_map_iter.
  rewrite (proj2 (labels_iter_ok (tm_keys t) _ Hk)) by (split; [assumption|reflexivity]). cbn [bind].
  exists (combine (rows (tm_keys t)) (tm_blocks t)). split; [reflexivity|].
  rewrite combine_length_eq by congruence. split; [congruence|]. split; [reflexivity|].
  intros i k b. apply nth_error_combine.
Qed.
