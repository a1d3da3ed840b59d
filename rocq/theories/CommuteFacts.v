(* Lemmas about moving some keys to the samples and others to the properties *)
From Coq Require Import Permutation Sorted.
From Verif Require Import Base BaseFacts Labels Array Block Tensor Spec SpecTensor LabelsFacts ArrayFacts BlockFacts TensorFacts KeysFacts MergeFacts GroupFacts BlocksFacts MergePropertiesFacts MovedFacts StepsFacts.
Local Open Scope string_scope.
Local Open Scope list_scope.
Local Open Scope nat_scope.

Section Commute.
  Variables (p : profile) (t ta tab tb tba : TensorMap) (k1 k2 : Labels) (sort1 sort2 sort3 sort4 : bool).
  Hypothesis (Ht : wf_tensor t) (Hk2 : wf_labels k2) (Hr2 : rows k2 = [])
    (HA : keys_to_samples p t k1 sort1 = (ta, Ok tt)) (HAB : keys_to_properties p ta k2 sort2 = (tab, Ok tt))
    (HB : keys_to_properties p t k2 sort3 = (tb, Ok tt)) (HBA : keys_to_samples p tb k1 sort4 = (tba, Ok tt))
    (Hd : forall n, In n (labels_names k1) -> ~ In n (labels_names k2)).

  Let v1 := labels_names k1.
  Let v2 := labels_names k2.
  Let names := labels_names (tm_keys t).
  Let both key := new_key (v1 ++ v2) names key.

  Lemma commute_wfa : wf_tensor ta.
  Proof. apply (keys_to_samples_wf _ _ _ _ _ Ht HA). Qed.
  Lemma commute_wfb : wf_tensor tb.
  Proof. apply (keys_to_properties_wf _ _ _ _ _ Ht Hk2 (or_introl Hr2) HB). Qed.
  Lemma commute_wfab : wf_tensor tab.
  Proof. apply (keys_to_properties_wf _ _ _ _ _ commute_wfa Hk2 (or_introl Hr2) HAB). Qed.
  Lemma commute_wfba : wf_tensor tba.
  Proof. apply (keys_to_samples_wf _ _ _ _ _ commute_wfb HBA). Qed.

  Lemma commute_kept1 : kept_names v1 names <> [].
  Proof.
    destruct (keys_to_properties_blocks _ _ _ _ _ Ht Hk2 (or_introl Hr2) HB) as (_ & _ & Hin & _).
    assert (Hne : v2 <> []).
    { intros E. apply keys_to_properties_inv in HB as (nk & pos & c & bs & _ & Hc & _). apply (labels_count_ok _ _ Hk2) in Hc as [Hc _]. contradiction. }
    destruct v2 as [|n rest] eqn:E; [congruence|]. unfold v2 in E.
    apply (kept_nonempty v1 names n); [apply Hin; rewrite E; left; reflexivity|]. intros K. apply (Hd n K). rewrite E. left. reflexivity.
  Qed.

  Lemma commute_kept2 : kept_names v2 names <> [].
  Proof.
    destruct (keys_to_samples_blocks _ _ _ _ _ Ht HA) as (_ & _ & Hin & _).
    assert (Hne : v1 <> []).
    { apply keys_to_samples_inv in HA as (nk & pos & bs & _ & Hc & _). apply labels_count_0_names. exact Hc. }
    destruct v1 as [|n rest] eqn:E; [congruence|]. unfold v1 in E.
    apply (kept_nonempty v2 names n); [apply Hin; rewrite E; left; reflexivity|]. apply Hd. rewrite E. left. reflexivity.
  Qed.

  Lemma commute_namesa : labels_names (tm_keys ta) = new_key_names v1 names.
  Proof. apply (keys_to_samples_keys _ _ _ _ _ Ht HA). Qed.
  Lemma commute_namesb : labels_names (tm_keys tb) = new_key_names v2 names.
  Proof. apply (keys_to_properties_keys _ _ _ _ _ Ht HB). Qed.

  Lemma commute_keya key : length key = length names -> new_key v2 (labels_names (tm_keys ta)) (new_key v1 names key) = both key.
  Proof. intros Hl. rewrite commute_namesa. apply new_key_steps; [exact commute_kept1|exact Hl]. Qed.
  Lemma commute_keyb key : length key = length names -> new_key v1 (labels_names (tm_keys tb)) (new_key v2 names key) = both key.
  Proof. intros Hl. rewrite commute_namesb. unfold both. rewrite new_key_swap. apply new_key_steps; [exact commute_kept2|exact Hl]. Qed.
  Lemma commute_moveda key : length key = length names -> moved_part v2 (labels_names (tm_keys ta)) (new_key v1 names key) = moved_part v2 names key.
  Proof.
    intros Hl. rewrite commute_namesa, (new_key_names_kept _ _ commute_kept1), (new_key_kept _ _ _ commute_kept1). apply moved_part_kept; [exact Hl|].
    intros n K2 K1. exact (Hd n K1 K2).
  Qed.
  Lemma commute_movedb key : length key = length names -> moved_part v1 (labels_names (tm_keys tb)) (new_key v2 names key) = moved_part v1 names key.
  Proof.
    intros Hl. rewrite commute_namesb, (new_key_names_kept _ _ commute_kept2), (new_key_kept _ _ _ commute_kept2). apply moved_part_kept; [exact Hl|].
    exact Hd.
  Qed.

  Lemma commute_length key b : block_of t key b -> length key = length names.
  Proof. apply key_length. exact Ht. Qed.

  Lemma commute_keys : same_labels (tm_keys tab) (tm_keys tba).
  Proof.
    destruct (keys_to_samples_keys _ _ _ _ _ Ht HA) as [_ F1]. destruct (keys_to_properties_keys _ _ _ _ _ commute_wfa HAB) as [N2 F2].
    destruct (keys_to_properties_keys _ _ _ _ _ Ht HB) as [_ F3]. destruct (keys_to_samples_keys _ _ _ _ _ commute_wfb HBA) as [N4 F4].
    split.
    - change (labels_names (tm_keys tab) = labels_names (tm_keys tba)). rewrite N2, N4, commute_namesa, commute_namesb.
      fold v1 v2. rewrite (new_key_names_steps _ _ _ commute_kept1), (new_key_names_steps _ _ _ commute_kept2).
      unfold new_key_names, kept_names. erewrite filter_ext; [reflexivity|]. intros n. cbv beta. rewrite !is_moved_app, orb_comm. reflexivity.
    - pose proof (first_appearance_map _ Z.eq_dec _ _ _ F1 F2) as G1. pose proof (first_appearance_map _ Z.eq_dec _ _ _ F3 F4) as G2.
      rewrite map_map in G1, G2. eapply first_appearance_unique; [exact G1|].
      erewrite map_ext_in; [exact G2|]. intros key Hkey.
      assert (Hl : length key = length names) by (apply wf_rows_length; [apply Ht|exact Hkey]).
      cbv beta. exact (eq_trans (commute_keya key Hl) (eq_sym (commute_keyb key Hl))).
  Qed.

  (* blocks of [ta] and [tb], from blocks of [t] *)
  Lemma commute_blocka ea ba : block_of ta ea ba -> exists key b, block_of t key b /\ new_key v1 names key = ea
    /\ Forall2 same_labels (bb_components (tb_values b)) (bb_components (tb_values ba)) /\ same_labels (bb_properties (tb_values b)) (bb_properties (tb_values ba)).
  Proof.
    intros K. destruct (keys_to_samples_blocks _ _ _ _ _ Ht HA) as (_ & _ & _ & Hm & _). destruct (Hm _ _ K) as (k0 & b0 & others & E & _).
    assert (I0 : In (k0, b0) (group t (labels_names k1) ea)) by (rewrite E; left; reflexivity). apply in_group_block_of in I0 as (key & Hb & Hkey & _).
    exists key, b0. split; [exact Hb|]. split; [exact Hkey|]. exact (steps_group _ _ _ _ _ Ht HA _ _ _ _ K Hb Hkey).
  Qed.

  Lemma commute_componentsb eb bb key b : block_of tb eb bb -> block_of t key b -> new_key v2 names key = eb ->
    Forall2 same_labels (bb_components (tb_values b)) (bb_components (tb_values bb)).
  Proof.
    intros K Hb Hkey. destruct (keys_to_properties_blocks _ _ _ _ _ Ht Hk2 (or_introl Hr2) HB) as (_ & _ & _ & Hm & _).
    destruct (Hm _ _ K) as (k0 & b0 & others & _ & M). rewrite (pro_components _ _ _ _ _ _ _ M).
    pose proof (pro_same _ _ _ _ _ _ _ M) as Hs. rewrite Forall_forall in Hs. apply (Hs (moved_part v2 names key, b)). apply in_group_block_of. eauto.
  Qed.

  Lemma commute_blockb eb bb : block_of tb eb bb -> exists key b, block_of t key b /\ new_key v2 names key = eb
    /\ Forall2 same_labels (bb_components (tb_values b)) (bb_components (tb_values bb)).
  Proof.
    intros K. destruct (keys_to_properties_blocks _ _ _ _ _ Ht Hk2 (or_introl Hr2) HB) as (_ & _ & _ & Hm & _).
    destruct (Hm _ _ K) as (k0 & b0 & others & E & _).
    assert (I0 : In (k0, b0) (group t (labels_names k2) eb)) by (rewrite E; left; reflexivity). apply in_group_block_of in I0 as (key & Hb & Hkey & _).
    exists key, b0. split; [exact Hb|]. split; [exact Hkey|]. eapply commute_componentsb; eassumption.
  Qed.

  (* blocks of [ta] which are merged have the same components *)
  Lemma commute_merged_ab e bab ea ba : block_of tab e bab -> block_of ta ea ba -> new_key v2 (labels_names (tm_keys ta)) ea = e ->
    Forall2 same_labels (bb_components (tb_values ba)) (bb_components (tb_values bab)).
  Proof.
    intros K Hb Hkey. destruct (keys_to_properties_blocks _ _ _ _ _ commute_wfa Hk2 (or_introl Hr2) HAB) as (_ & _ & _ & Hm & _).
    destruct (Hm _ _ K) as (k0 & b0 & others & _ & M). rewrite (pro_components _ _ _ _ _ _ _ M).
    pose proof (pro_same _ _ _ _ _ _ _ M) as Hs. rewrite Forall_forall in Hs. apply (Hs (moved_part v2 (labels_names (tm_keys ta)) ea, ba)). apply in_group_block_of. eauto.
  Qed.

  Lemma commute_merged_ba e bba eb bb : block_of tba e bba -> block_of tb eb bb -> new_key v1 (labels_names (tm_keys tb)) eb = e ->
    Forall2 same_labels (bb_components (tb_values bb)) (bb_components (tb_values bba)) /\ same_labels (bb_properties (tb_values bb)) (bb_properties (tb_values bba)).
  Proof. intros K Hb Hkey. exact (steps_group _ _ _ _ _ commute_wfb HBA _ _ _ _ K Hb Hkey). Qed.

  Lemma block_a key b : block_of t key b -> exists ba, block_of ta (new_key v1 names key) ba.
  Proof. intros K. destruct (keys_to_samples_blocks _ _ _ _ _ Ht HA) as (_ & _ & _ & _ & Hk). exact (Hk _ _ K). Qed.
  Lemma block_b key b : block_of t key b -> exists bb, block_of tb (new_key v2 names key) bb.
  Proof. intros K. destruct (keys_to_properties_blocks _ _ _ _ _ Ht Hk2 (or_introl Hr2) HB) as (_ & _ & _ & _ & Hk). exact (Hk _ _ K). Qed.
  Lemma block_ab ea ba : block_of ta ea ba -> exists bab, block_of tab (new_key v2 (labels_names (tm_keys ta)) ea) bab.
  Proof. intros K. destruct (keys_to_properties_blocks _ _ _ _ _ commute_wfa Hk2 (or_introl Hr2) HAB) as (_ & _ & _ & _ & Hk). exact (Hk _ _ K). Qed.
  Lemma block_ba eb bb : block_of tb eb bb -> exists bba, block_of tba (new_key v1 (labels_names (tm_keys tb)) eb) bba.
  Proof. intros K. destruct (keys_to_samples_blocks _ _ _ _ _ commute_wfb HBA) as (_ & _ & _ & _ & Hk). exact (Hk _ _ K). Qed.

  Lemma samplesa ea ba s' : block_of ta ea ba ->
    (In s' (rows (bb_samples (tb_values ba))) <-> exists key b s, block_of t key b /\ new_key v1 names key = ea /\ In s (rows (bb_samples (tb_values b))) /\ s' = s ++ moved_part v1 names key).
  Proof.
    intros K. split.
    - intros Hs. destruct (proj1 (samples_of _ _ _ _ _ Ht HA ea s') (ex_intro _ ba (conj K Hs))) as (key & s & (b & Hb & Hin) & -> & ->). exists key, b, s. auto.
    - intros (key & b & s & Hb & <- & Hin & ->).
      destruct (proj2 (samples_of _ _ _ _ _ Ht HA _ _) (ex_intro _ key (ex_intro _ s (conj (ex_intro _ b (conj Hb Hin)) (conj eq_refl eq_refl))))) as (bx & Kx & Hx).
      fold v1 names in Kx. rewrite (block_of_unique _ _ _ _ commute_wfa K Kx). exact Hx.
  Qed.

  Lemma samplesb eb bb s : block_of tb eb bb ->
    (In s (rows (bb_samples (tb_values bb))) <-> exists key b, block_of t key b /\ new_key v2 names key = eb /\ In s (rows (bb_samples (tb_values b)))).
  Proof.
    intros K. rewrite (proj1 (keys_to_properties_order _ _ _ _ _ Ht Hk2 (or_introl Hr2) HB eb bb K) s), in_flat_map. split.
    - intros ([key b] & Hin & Hs). apply in_merged_together in Hin as [Hb Hkey]. exists key, b. auto.
    - intros (key & b & Hb & Hkey & Hs). exists (key, b). split; [apply in_merged_together; auto|exact Hs].
  Qed.

  Lemma samplesab e bab s : block_of tab e bab ->
    (In s (rows (bb_samples (tb_values bab))) <-> exists ea ba, block_of ta ea ba /\ new_key v2 (labels_names (tm_keys ta)) ea = e /\ In s (rows (bb_samples (tb_values ba)))).
  Proof.
    intros K. rewrite (proj1 (keys_to_properties_order _ _ _ _ _ commute_wfa Hk2 (or_introl Hr2) HAB e bab K) s), in_flat_map. split.
    - intros ([key b] & Hin & Hs). apply in_merged_together in Hin as [Hb Hkey]. exists key, b. auto.
    - intros (key & b & Hb & Hkey & Hs). exists (key, b). split; [apply in_merged_together; auto|exact Hs].
  Qed.

  Lemma propertiesb eb bb pr' : block_of tb eb bb ->
    (In pr' (rows (bb_properties (tb_values bb))) <-> exists key b pr, block_of t key b /\ new_key v2 names key = eb /\ In pr (rows (bb_properties (tb_values b))) /\ pr' = moved_part v2 names key ++ pr).
  Proof.
    intros K. rewrite (proj1 (keys_to_properties_properties _ _ _ _ _ Ht Hk2 (or_introl Hr2) HB eb bb K) Hr2), in_flat_map. split.
    - intros ([key b] & Hin & Hs). apply in_merged_together in Hin as [Hb Hkey]. apply in_map_iff in Hs as (pr & <- & Hs). exists key, b, pr. auto.
    - intros (key & b & pr & Hb & Hkey & Hs & ->). exists (key, b). split; [apply in_merged_together; auto|]. apply in_map_iff. exists pr. auto.
  Qed.

  Lemma propertiesab e bab pr' : block_of tab e bab ->
    (In pr' (rows (bb_properties (tb_values bab))) <-> exists ea ba pr, block_of ta ea ba /\ new_key v2 (labels_names (tm_keys ta)) ea = e
        /\ In pr (rows (bb_properties (tb_values ba))) /\ pr' = moved_part v2 (labels_names (tm_keys ta)) ea ++ pr).
  Proof.
    intros K. rewrite (proj1 (keys_to_properties_properties _ _ _ _ _ commute_wfa Hk2 (or_introl Hr2) HAB e bab K) Hr2), in_flat_map. split.
    - intros ([key b] & Hin & Hs). apply in_merged_together in Hin as [Hb Hkey]. apply in_map_iff in Hs as (pr & <- & Hs). exists key, b, pr. auto.
    - intros (key & b & pr & Hb & Hkey & Hs & ->). exists (key, b). split; [apply in_merged_together; auto|]. apply in_map_iff. exists pr. auto.
  Qed.

  (* the values of the old blocks, and the zeros between them *)
  Definition moved_value e s' cs pr' v : Prop :=
    exists key s pr, tensor_entry t key s cs pr v /\ e = both key /\ s' = s ++ moved_part v1 names key /\ pr' = moved_part v2 names key ++ pr.

  Definition filled e s' cs pr' v : Prop :=
    v = 0%Z
    /\ (exists key b s, block_of t key b /\ e = both key /\ In s (rows (bb_samples (tb_values b))) /\ s' = s ++ moved_part v1 names key)
    /\ (exists key b js, block_of t key b /\ e = both key /\ located (bb_components (tb_values b)) js cs)
    /\ (exists key b pr, block_of t key b /\ e = both key /\ In pr (rows (bb_properties (tb_values b))) /\ pr' = moved_part v2 names key ++ pr)
    /\ (forall key b s pr, block_of t key b -> e = both key -> In s (rows (bb_samples (tb_values b))) -> s' = s ++ moved_part v1 names key ->
          pr' = moved_part v2 names key ++ pr -> ~ In pr (rows (bb_properties (tb_values b)))).

  Lemma commute_ab e s' cs pr' v : tensor_entry tab e s' cs pr' v <-> moved_value e s' cs pr' v \/ filled e s' cs pr' v.
  Proof.
    rewrite (keys_to_properties_values_names _ _ _ _ _ commute_wfa Hk2 Hr2 HAB). apply or_iff_both.
    - split.
      + intros (ea & pr & K & -> & ->). apply (keys_to_samples_values _ _ _ _ _ Ht HA) in K as (key & s & K & -> & ->).
        assert (Hl : length key = length names) by (apply tensor_entry_block in K as (b & K & _); eapply commute_length; exact K).
        exists key, s, pr. split; [exact K|]. split; [exact (commute_keya key Hl)|]. split; [reflexivity|]. f_equal. exact (commute_moveda key Hl).
      + intros (key & s & pr & K & -> & -> & ->).
        assert (Hl : length key = length names) by (apply tensor_entry_block in K as (b & K & _); eapply commute_length; exact K).
        exists (new_key v1 names key), pr. split; [|split; [symmetry; exact (commute_keya key Hl)|f_equal; symmetry; exact (commute_moveda key Hl)]].
        apply (keys_to_samples_values _ _ _ _ _ Ht HA). exists key, s. auto.
    - unfold filled. apply and_iff_compat_l. split.
      + intros [(bab & Kab & Hs & (js & Hc) & Hp) Hnot]. split; [|split; [|split]].
        * apply (samplesab _ _ _ Kab) in Hs as (ea & ba & Ka & <- & Hs). apply (samplesa _ _ _ Ka) in Hs as (key & b & s & K & <- & Hs & ->).
          exists key, b, s. split; [exact K|]. split; [apply commute_keya; eapply commute_length; exact K|auto].
        * apply (samplesab _ _ _ Kab) in Hs as (ea & ba & Ka & He & _). destruct (commute_blocka _ _ Ka) as (key & b & K & <- & Hcc & _).
          exists key, b, js. split; [exact K|]. split; [rewrite <- He; apply commute_keya; eapply commute_length; exact K|].
          apply (located_same _ _ Hcc), (located_same _ _ (commute_merged_ab _ _ _ _ Kab Ka He)). exact Hc.
        * apply (propertiesab _ _ _ Kab) in Hp as (ea & ba & pr & Ka & <- & Hp & ->). destruct (commute_blocka _ _ Ka) as (key & b & K & <- & _ & [_ Hpp]).
          pose proof (commute_length _ _ K) as Hl. exists key, b, pr. split; [exact K|]. split; [exact (commute_keya _ Hl)|]. rewrite Hpp. split; [exact Hp|].
          f_equal. exact (commute_moveda _ Hl).
        * intros key b s pr K -> Hs' -> -> Hpr. pose proof (commute_length _ _ K) as Hl. destruct (block_a _ _ K) as (ba & Ka).
          destruct (steps_group _ _ _ _ _ Ht HA _ _ _ _ Ka K eq_refl) as [_ [_ Hpp]].
          apply (Hnot _ ba pr Ka).
          -- symmetry. exact (commute_keya _ Hl).
          -- f_equal. symmetry. exact (commute_moveda _ Hl).
          -- apply (samplesa _ _ _ Ka). exists key, b, s. auto.
          -- rewrite <- Hpp. exact Hpr.
      + intros ((key & b & s & K & He & Hs & Es) & (keyc & bc & js & Kc & Hec & Hc) & (keyp & bp & pr & Kp & Hep & Hp & Ep) & Hnot).
        pose proof (commute_length _ _ K) as Hl. pose proof (commute_length _ _ Kc) as Hlc. pose proof (commute_length _ _ Kp) as Hlp.
        destruct (block_a _ _ K) as (ba & Ka). destruct (block_a _ _ Kc) as (bac & Kac). destruct (block_a _ _ Kp) as (bap & Kap).
        destruct (block_ab _ _ Ka) as (bab & Kab). rewrite (commute_keya _ Hl), <- He in Kab. split.
        * exists bab. split; [exact Kab|]. split; [|split].
          -- apply (samplesab _ _ _ Kab). exists (new_key v1 names key), ba. split; [exact Ka|]. split; [rewrite He; exact (commute_keya _ Hl)|].
             apply (samplesa _ _ _ Ka). exists key, b, s. auto.
          -- exists js. apply (located_same _ _ (commute_merged_ab _ _ _ _ Kab Kac (eq_trans (commute_keya _ Hlc) (eq_sym Hec)))).
             apply (located_same _ _ (proj1 (steps_group _ _ _ _ _ Ht HA _ _ _ _ Kac Kc eq_refl))). exact Hc.
          -- apply (propertiesab _ _ _ Kab). exists (new_key v1 names keyp), bap, pr. split; [exact Kap|]. split; [rewrite Hep; exact (commute_keya _ Hlp)|].
             rewrite <- (proj2 (proj2 (steps_group _ _ _ _ _ Ht HA _ _ _ _ Kap Kp eq_refl))). split; [exact Hp|]. rewrite (commute_moveda _ Hlp). exact Ep.
        * intros ea ba0 pr0 Ka0 Hea Epr Hs0 Hpr0. apply (samplesa _ _ _ Ka0) in Hs0 as (key0 & b0 & s0 & K0 & <- & Hs0 & Es0).
          pose proof (commute_length _ _ K0) as Hl0. apply (Hnot key0 b0 s0 pr0 K0).
          -- rewrite Hea. exact (commute_keya _ Hl0).
          -- exact Hs0.
          -- exact Es0.
          -- rewrite Epr. f_equal. exact (commute_moveda _ Hl0).
          -- rewrite (proj2 (proj2 (steps_group _ _ _ _ _ Ht HA _ _ _ _ Ka0 K0 eq_refl))). exact Hpr0.
  Qed.

  Lemma commute_ba e s' cs pr' v : tensor_entry tba e s' cs pr' v <-> moved_value e s' cs pr' v \/ filled e s' cs pr' v.
  Proof.
    rewrite (keys_to_samples_values _ _ _ _ _ commute_wfb HBA). split.
    - intros (eb & s & K & He & Es). apply (keys_to_properties_values_names _ _ _ _ _ Ht Hk2 Hr2 HB) in K as [(key & pr & K & -> & ->)|(-> & (bb & Kb & Hs & (js & Hc) & Hp) & Hnot)].
      + left. assert (Hl : length key = length names) by (apply tensor_entry_block in K as (b & K & _); eapply commute_length; exact K).
        exists key, s, pr. split; [exact K|]. split; [rewrite He; exact (commute_keyb _ Hl)|]. split; [|reflexivity]. rewrite Es. f_equal. exact (commute_movedb _ Hl).
      + right. split; [reflexivity|]. split; [|split; [|split]].
        * apply (samplesb _ _ _ Kb) in Hs as (key & b & K & <- & Hs). pose proof (commute_length _ _ K) as Hl. exists key, b, s. split; [exact K|].
          split; [rewrite He; exact (commute_keyb _ Hl)|]. split; [exact Hs|]. rewrite Es. f_equal. exact (commute_movedb _ Hl).
        * destruct (commute_blockb _ _ Kb) as (key & b & K & <- & Hcc). pose proof (commute_length _ _ K) as Hl. exists key, b, js. split; [exact K|].
          split; [rewrite He; exact (commute_keyb _ Hl)|]. apply (located_same _ _ Hcc). exact Hc.
        * apply (propertiesb _ _ _ Kb) in Hp as (key & b & pr & K & <- & Hp & ->). pose proof (commute_length _ _ K) as Hl. exists key, b, pr. split; [exact K|].
          split; [rewrite He; exact (commute_keyb _ Hl)|]. auto.
        * intros key0 b0 s0 pr0 K0 He0 Hs0 Es0 Ep0. pose proof (commute_length _ _ K0) as Hl0. destruct (block_b _ _ K0) as (bb0 & Kb0).
          destruct (moved_sample_unique tb (labels_names k1) eb bb s (new_key v2 names key0) bb0 s0 commute_wfb Kb Kb0) as [-> ->].
          -- rewrite <- He, He0. symmetry. exact (commute_keyb _ Hl0).
          -- rewrite <- Es, Es0. f_equal. symmetry. exact (commute_movedb _ Hl0).
          -- exact (Hnot key0 b0 pr0 K0 eq_refl Ep0 Hs0).
    - intros [(key & s & pr & K & -> & -> & ->)|(-> & (key & b & s & K & He & Hs & Es) & (keyc & bc & js & Kc & Hec & Hc) & (keyp & bp & pr & Kp & Hep & Hp & Ep) & Hnot)].
      + assert (Hl : length key = length names) by (apply tensor_entry_block in K as (b & K & _); eapply commute_length; exact K).
        exists (new_key v2 names key), s. split; [|split; [symmetry; exact (commute_keyb _ Hl)|f_equal; symmetry; exact (commute_movedb _ Hl)]].
        apply (keys_to_properties_values_names _ _ _ _ _ Ht Hk2 Hr2 HB). left. exists key, pr. auto.
      + pose proof (commute_length _ _ K) as Hl. pose proof (commute_length _ _ Kc) as Hlc. pose proof (commute_length _ _ Kp) as Hlp.
        destruct (block_b _ _ K) as (bb & Kb). destruct (block_b _ _ Kc) as (bbc & Kbc). destruct (block_b _ _ Kp) as (bbp & Kbp).
        destruct (block_ba _ _ Kb) as (bba & Kba). rewrite (commute_keyb _ Hl), <- He in Kba.
        destruct (commute_merged_ba _ _ _ _ Kba Kb (eq_trans (commute_keyb _ Hl) (eq_sym He))) as [C1 [_ P1]].
        destruct (commute_merged_ba _ _ _ _ Kba Kbc (eq_trans (commute_keyb _ Hlc) (eq_sym Hec))) as [C2 _].
        destruct (commute_merged_ba _ _ _ _ Kba Kbp (eq_trans (commute_keyb _ Hlp) (eq_sym Hep))) as [_ [_ P3]].
        exists (new_key v2 names key), s. split; [|split; [rewrite He; symmetry; exact (commute_keyb _ Hl)|rewrite Es; f_equal; symmetry; exact (commute_movedb _ Hl)]].
        apply (keys_to_properties_values_names _ _ _ _ _ Ht Hk2 Hr2 HB). right. split; [reflexivity|]. split.
        * exists bb. split; [exact Kb|]. split; [|split].
          -- apply (samplesb _ _ _ Kb). exists key, b. auto.
          -- exists js. apply (located_same _ _ C1), (located_same _ _ C2), (located_same _ _ (commute_componentsb _ _ _ _ Kbc Kc eq_refl)). exact Hc.
          -- rewrite P1, <- P3. apply (propertiesb _ _ _ Kbp). exists keyp, bp, pr. auto.
        * intros key0 b0 pr0 K0 Hk0 Ep0 Hs0. pose proof (commute_length _ _ K0) as Hl0. fold v2 names in Hk0. apply (Hnot key0 b0 s pr0 K0).
          -- rewrite He, <- (commute_keyb _ Hl), Hk0. exact (commute_keyb _ Hl0).
          -- exact Hs0.
          -- rewrite Es, <- (commute_movedb _ Hl), Hk0. f_equal. exact (commute_movedb _ Hl0).
          -- exact Ep0.
  Qed.

  Lemma commute_gradient_samples e q s' rest : tensor_gradient_sample tab e q s' rest <-> tensor_gradient_sample tba e q s' rest.
  Proof.
    rewrite (keys_to_properties_gradient_samples _ _ _ _ _ commute_wfa Hk2 (or_introl Hr2) HAB), (keys_to_samples_gradient_samples _ _ _ _ _ commute_wfb HBA). split.
    - intros (ea & K & ->). apply (keys_to_samples_gradient_samples _ _ _ _ _ Ht HA) in K as (key & s & K & -> & ->).
      assert (Hl : length key = length names) by (destruct K as (b & K & _); eapply commute_length; exact K).
      exists (new_key v2 names key), s. split; [apply (keys_to_properties_gradient_samples _ _ _ _ _ Ht Hk2 (or_introl Hr2) HB); exists key; auto|].
      split; [exact (eq_trans (commute_keya _ Hl) (eq_sym (commute_keyb _ Hl)))|]. f_equal. symmetry. exact (commute_movedb _ Hl).
    - intros (eb & s & K & -> & ->). apply (keys_to_properties_gradient_samples _ _ _ _ _ Ht Hk2 (or_introl Hr2) HB) in K as (key & K & ->).
      assert (Hl : length key = length names) by (destruct K as (b & K & _); eapply commute_length; exact K).
      exists (new_key v1 names key). split; [|exact (eq_trans (commute_keyb _ Hl) (eq_sym (commute_keya _ Hl)))].
      apply (keys_to_samples_gradient_samples _ _ _ _ _ Ht HA). exists key, s. split; [exact K|]. split; [reflexivity|]. f_equal. exact (commute_movedb _ Hl).
  Qed.
End Commute.

Lemma moves_commute p t ta tab tb tba k1 k2 sort1 sort2 sort3 sort4 :
  wf_tensor t -> wf_labels k2 -> rows k2 = [] ->
  (forall n, In n (labels_names k1) -> ~ In n (labels_names k2)) ->
  keys_to_samples p t k1 sort1 = (ta, Ok tt) -> keys_to_properties p ta k2 sort2 = (tab, Ok tt) ->
  keys_to_properties p t k2 sort3 = (tb, Ok tt) -> keys_to_samples p tb k1 sort4 = (tba, Ok tt) ->
  same_labels (tm_keys tab) (tm_keys tba)
  /\ (forall e s cs pr v, tensor_entry tab e s cs pr v <-> tensor_entry tba e s cs pr v)
  /\ (forall e q s rest, tensor_gradient_sample tab e q s rest <-> tensor_gradient_sample tba e q s rest).
Proof.
  intros Ht Hk2 Hr2 Hd HA HAB HB HBA. split; [|split].
  - exact (commute_keys _ _ _ _ _ _ _ _ _ _ _ _ Ht Hk2 Hr2 HA HAB HB HBA Hd).
  - intros e s cs pr v.
    rewrite (commute_ab _ _ _ _ _ _ _ _ _ _ Ht Hk2 Hr2 HA HAB HB Hd), (commute_ba _ _ _ _ _ _ _ _ _ _ Ht Hk2 Hr2 HA HB HBA Hd). reflexivity.
  - exact (commute_gradient_samples _ _ _ _ _ _ _ _ _ _ _ _ Ht Hk2 Hr2 HA HAB HB HBA Hd).
Qed.

(** * Two moves to the properties *)

Section TwoStepsProperties.
  Variables (p : profile) (t ta t2 t' : TensorMap) (k1 k2 k : Labels) (sort1 sort2 sort : bool).
  Hypothesis (Ht : wf_tensor t) (Hk1 : wf_labels k1) (Hk2 : wf_labels k2) (Hwk : wf_labels k)
    (Hr1 : rows k1 = []) (Hr2 : rows k2 = []) (Hr : rows k = [])
    (HA : keys_to_properties p t k1 sort1 = (ta, Ok tt)) (H2 : keys_to_properties p ta k2 sort2 = (t2, Ok tt))
    (H : keys_to_properties p t k sort = (t', Ok tt))
    (Hk : labels_names k = labels_names k2 ++ labels_names k1)
    (Ho : in_key_order (labels_names k) (labels_names (tm_keys t))).

  Let v1 := labels_names k1.
  Let v2 := labels_names k2.
  Let names := labels_names (tm_keys t).
  Let both key := new_key (labels_names k) names key.

  Lemma twice_wf : wf_tensor ta.
  Proof. apply (keys_to_properties_wf _ _ _ _ _ Ht Hk1 (or_introl Hr1) HA). Qed.

  Lemma twice_disjoint n : In n v2 -> ~ In n v1 /\ In n names.
  Proof.
    intros K2. rewrite Hk in Ho. split.
    - intros K1. destruct (order_disjoint _ _ _ (key_names_NoDup _ Ht) Ho n K1) as [K _]. exact (K K2).
    - unfold in_key_order in Ho. assert (K : In n (filter (is_moved (v2 ++ v1)) names)) by (unfold v1, v2, names; rewrite Ho; apply in_or_app; auto).
      apply filter_In in K. apply K.
  Qed.

  Lemma twice_kept : kept_names v1 names <> [].
  Proof.
    assert (Hne : v2 <> []).
    { intros E. apply keys_to_properties_inv in H2 as (nk & pos & c & bs & _ & Hc & _). apply (labels_count_ok _ _ Hk2) in Hc as [Hc _]. contradiction. }
    destruct v2 as [|n rest] eqn:E; [congruence|]. destruct (twice_disjoint n) as [K1 K2]; [rewrite E; left; reflexivity|]. exact (kept_nonempty _ _ _ K2 K1).
  Qed.

  Lemma twice_names : labels_names (tm_keys ta) = new_key_names v1 names.
  Proof. apply (keys_to_properties_keys _ _ _ _ _ Ht HA). Qed.

  Lemma twice_key key : length key = length names -> new_key v2 (labels_names (tm_keys ta)) (new_key v1 names key) = both key.
  Proof. intros Hl. rewrite twice_names. unfold both. rewrite Hk, new_key_swap. apply new_key_steps; [exact twice_kept|exact Hl]. Qed.

  Lemma twice_moved key : length key = length names ->
    moved_part v2 (labels_names (tm_keys ta)) (new_key v1 names key) ++ moved_part v1 names key = moved_part (labels_names k) names key.
  Proof.
    intros Hl. rewrite twice_names, (new_key_names_kept _ _ twice_kept), (new_key_kept _ _ _ twice_kept).
    rewrite moved_part_kept; [|exact Hl|intros n K; apply (twice_disjoint n K)].
    rewrite Hk. symmetry. apply moved_part_app; [exact Hl|apply (key_names_NoDup _ Ht)|rewrite Hk in Ho; exact Ho].
  Qed.

  Lemma twice_keys : same_labels (tm_keys t2) (tm_keys t').
  Proof.
    destruct (keys_to_properties_keys _ _ _ _ _ Ht HA) as [_ F1]. destruct (keys_to_properties_keys _ _ _ _ _ twice_wf H2) as [N2 F2].
    destruct (keys_to_properties_keys _ _ _ _ _ Ht H) as [N F]. split.
    - change (labels_names (tm_keys t2) = labels_names (tm_keys t')). rewrite N2, N, twice_names, Hk.
      fold v1 v2 names. rewrite (new_key_names_steps _ _ _ twice_kept).
      unfold new_key_names, kept_names. erewrite filter_ext; [reflexivity|]. intros n. cbv beta. rewrite !is_moved_app, orb_comm. reflexivity.
    - eapply first_appearance_unique; [|exact F]. pose proof (first_appearance_map _ Z.eq_dec _ _ _ F1 F2) as F3. rewrite map_map in F3.
      erewrite map_ext_in; [exact F3|]. intros key Hkey. symmetry. apply twice_key. apply wf_rows_length; [apply Ht|exact Hkey].
  Qed.

  Lemma twice_entries e s cs pr' v : tensor_entry t2 e s cs pr' v <-> tensor_entry t' e s cs pr' v.
  Proof.
    assert (Len : forall key b, block_of t key b -> length key = length names) by (intros key b; apply key_length; exact Ht).
    assert (Lene : forall key s cs pr v, tensor_entry t key s cs pr v -> length key = length names)
      by (intros key s0 cs0 pr0 v0 K; apply tensor_entry_block in K as (b & K & _); exact (Len _ _ K)).
    rewrite (keys_to_properties_values_names _ _ _ _ _ twice_wf Hk2 Hr2 H2), (keys_to_properties_values_names _ _ _ _ _ Ht Hwk Hr H).
    fold v2 names. change (labels_names k) with (labels_names k) in *. split.
    - intros [(ea & pra & K & -> & ->)|(-> & (b2 & K2 & Hs & (js & Hc) & Hp) & Hnot)].
      + apply (keys_to_properties_values_names _ _ _ _ _ Ht Hk1 Hr1 HA) in K as [(key & pr & K & -> & ->)|(-> & (ba & Ka & Hs & (js & Hc) & Hp) & Hnot)].
        * left. pose proof (Lene _ _ _ _ _ K) as Hl. exists key, pr. split; [exact K|]. split; [exact (twice_key _ Hl)|].
          rewrite app_assoc. f_equal. exact (twice_moved _ Hl).
        * right. split; [reflexivity|]. 
          assert (Hx : exists key b, block_of t key b /\ new_key v1 names key = ea).
          { apply (samplesb _ _ _ _ _ Ht Hk1 Hr1 HA _ _ _ Ka) in Hs as (key & b & K & E & _). eauto. }
          destruct Hx as (key0 & b0 & K0 & E0). pose proof (Len _ _ K0) as Hl0.
          assert (Hex : exists b', block_of t' (new_key v2 (labels_names (tm_keys ta)) ea) b').
          { rewrite <- E0, (twice_key _ Hl0). exact (block_b _ _ _ _ _ Ht Hwk Hr H _ _ K0). }
          destruct Hex as (b' & K'). split.
          -- exists b'. split; [exact K'|]. split; [|split].
             ++ apply (samplesb _ _ _ _ _ Ht Hk1 Hr1 HA _ _ _ Ka) in Hs as (key & b & K & E & Hs). apply (samplesb _ _ _ _ _ Ht Hwk Hr H _ _ _ K').
                exists key, b. split; [exact K|]. split; [|exact Hs]. rewrite <- E. symmetry. exact (twice_key _ (Len _ _ K)).
             ++ exists js. apply (located_same _ _ (commute_componentsb _ _ _ _ _ Ht Hwk Hr H _ _ _ _ K' K0 (eq_trans (eq_sym (twice_key _ Hl0)) (f_equal _ E0)))).
                apply (located_same _ _ (commute_componentsb _ _ _ _ _ Ht Hk1 Hr1 HA _ _ _ _ Ka K0 E0)). exact Hc.
             ++ apply (propertiesb _ _ _ _ _ Ht Hk1 Hr1 HA _ _ _ Ka) in Hp as (key & b & pr & K & E & Hp & ->). apply (propertiesb _ _ _ _ _ Ht Hwk Hr H _ _ _ K').
                pose proof (Len _ _ K) as Hl. exists key, b, pr. split; [exact K|]. split; [rewrite <- E; symmetry; exact (twice_key _ Hl)|]. split; [exact Hp|].
                rewrite <- E, app_assoc. f_equal. exact (twice_moved _ Hl).
          -- intros key b pr K He Ep Hsb. pose proof (Len _ _ K) as Hl. destruct (block_b _ _ _ _ _ Ht Hk1 Hr1 HA _ _ K) as (bx & Kx).
             fold v1 names in Kx. destruct (moved_property_unique ta v2 ea ba pra (new_key v1 names key) bx (moved_part v1 names key ++ pr) twice_wf Ka Kx) as [-> ->].
             ++ rewrite He. symmetry. exact (twice_key _ Hl).
             ++ rewrite Ep, app_assoc. f_equal. symmetry. exact (twice_moved _ Hl).
             ++ exact (Hnot key b pr K eq_refl eq_refl Hsb).
      + right. split; [reflexivity|].
        assert (Hx : exists ea ba key b, block_of ta ea ba /\ new_key v2 (labels_names (tm_keys ta)) ea = e /\ block_of t key b /\ new_key v1 names key = ea).
        { apply (samplesb _ _ _ _ _ twice_wf Hk2 Hr2 H2 _ _ _ K2) in Hs as (ea & ba & Ka & E & Hs).
          apply (samplesb _ _ _ _ _ Ht Hk1 Hr1 HA _ _ _ Ka) in Hs as (key & b & K & E0 & _). eauto 10. }
        destruct Hx as (ea & ba & key0 & b0 & Ka & E & K0 & E0). pose proof (Len _ _ K0) as Hl0.
        assert (Hex : exists b', block_of t' e b').
        { rewrite <- E, <- E0, (twice_key _ Hl0). exact (block_b _ _ _ _ _ Ht Hwk Hr H _ _ K0). }
        destruct Hex as (b' & K'). split.
        * exists b'. split; [exact K'|]. split; [|split].
          -- apply (samplesb _ _ _ _ _ twice_wf Hk2 Hr2 H2 _ _ _ K2) in Hs as (ea1 & ba1 & Ka1 & Ee & Hs).
             apply (samplesb _ _ _ _ _ Ht Hk1 Hr1 HA _ _ _ Ka1) in Hs as (key & b & K & Ek & Hs). apply (samplesb _ _ _ _ _ Ht Hwk Hr H _ _ _ K').
             exists key, b. split; [exact K|]. split; [|exact Hs]. rewrite <- Ee, <- Ek. symmetry. exact (twice_key _ (Len _ _ K)).
          -- exists js. apply (located_same _ _ (commute_componentsb _ _ _ _ _ Ht Hwk Hr H _ _ _ _ K' K0 (eq_trans (eq_trans (eq_sym (twice_key _ Hl0)) (f_equal _ E0)) E))).
             apply (located_same _ _ (commute_componentsb _ _ _ _ _ Ht Hk1 Hr1 HA _ _ _ _ Ka K0 E0)).
             apply (located_same _ _ (commute_componentsb _ _ _ _ _ twice_wf Hk2 Hr2 H2 _ _ _ _ K2 Ka E)). exact Hc.
          -- apply (propertiesb _ _ _ _ _ twice_wf Hk2 Hr2 H2 _ _ _ K2) in Hp as (ea1 & ba1 & pra & Ka1 & Ee & Hp & ->).
             apply (propertiesb _ _ _ _ _ Ht Hk1 Hr1 HA _ _ _ Ka1) in Hp as (key & b & pr & K & Ek & Hp & ->). apply (propertiesb _ _ _ _ _ Ht Hwk Hr H _ _ _ K').
             pose proof (Len _ _ K) as Hl. exists key, b, pr. split; [exact K|]. split; [rewrite <- Ee, <- Ek; symmetry; exact (twice_key _ Hl)|]. split; [exact Hp|].
             rewrite <- Ek, app_assoc. f_equal. exact (twice_moved _ Hl).
        * intros key b pr K He Ep Hsb Hpb. pose proof (Len _ _ K) as Hl. destruct (block_b _ _ _ _ _ Ht Hk1 Hr1 HA _ _ K) as (bx & Kx).
          fold v1 names in Kx. apply (Hnot (new_key v1 names key) bx (moved_part v1 names key ++ pr) Kx).
          -- rewrite He. symmetry. exact (twice_key _ Hl).
          -- rewrite Ep, app_assoc. f_equal. symmetry. exact (twice_moved _ Hl).
          -- apply (samplesb _ _ _ _ _ Ht Hk1 Hr1 HA _ _ _ Kx). exists key, b. auto.
          -- apply (propertiesb _ _ _ _ _ Ht Hk1 Hr1 HA _ _ _ Kx). exists key, b, pr. auto.
    - intros [(key & pr & K & -> & ->)|(-> & (b' & K' & Hs & (js & Hc) & Hp) & Hnot)].
      + left. pose proof (Lene _ _ _ _ _ K) as Hl. exists (new_key v1 names key), (moved_part v1 names key ++ pr). split; [|split; [symmetry; exact (twice_key _ Hl)|]].
        * apply (keys_to_properties_values_names _ _ _ _ _ Ht Hk1 Hr1 HA). left. exists key, pr. auto.
        * rewrite app_assoc. f_equal. symmetry. exact (twice_moved _ Hl).
      + apply (propertiesb _ _ _ _ _ Ht Hwk Hr H _ _ _ K') in Hp as (keyp & bp & pr & Kp & Ep & Hp & ->).
        apply (samplesb _ _ _ _ _ Ht Hwk Hr H _ _ _ K') in Hs as (keys & bs & Ks & Es & Hs).
        pose proof (Len _ _ Kp) as Hlp. pose proof (Len _ _ Ks) as Hls.
        destruct (block_b _ _ _ _ _ Ht Hk1 Hr1 HA _ _ Kp) as (bap & Kap). destruct (block_b _ _ _ _ _ Ht Hk1 Hr1 HA _ _ Ks) as (bas & Kas).
        fold v1 names in Kap, Kas.
        assert (Hpa : In (moved_part v1 names keyp ++ pr) (rows (bb_properties (tb_values bap)))) by (apply (propertiesb _ _ _ _ _ Ht Hk1 Hr1 HA _ _ _ Kap); exists keyp, bp, pr; auto).
        assert (Hsa : In s (rows (bb_samples (tb_values bas)))) by (apply (samplesb _ _ _ _ _ Ht Hk1 Hr1 HA _ _ _ Kas); exists keys, bs; auto).
        assert (Hca : located (bb_components (tb_values bap)) js cs).
        { apply (located_same _ _ (commute_componentsb _ _ _ _ _ Ht Hk1 Hr1 HA _ _ _ _ Kap Kp eq_refl)).
          apply (located_same _ _ (commute_componentsb _ _ _ _ _ Ht Hwk Hr H _ _ _ _ K' Kp Ep)). exact Hc. }
        assert (Epp : moved_part (labels_names k) names keyp ++ pr = moved_part v2 (labels_names (tm_keys ta)) (new_key v1 names keyp) ++ moved_part v1 names keyp ++ pr)
          by (rewrite app_assoc; f_equal; symmetry; exact (twice_moved _ Hlp)).
        destruct (in_dec (list_eq_dec Z.eq_dec) s (rows (bb_samples (tb_values bap)))) as [Hin|Hin].
        * left. exists (new_key v1 names keyp), (moved_part v1 names keyp ++ pr). split; [|split; [rewrite <- Ep; symmetry; exact (twice_key _ Hlp)|exact Epp]].
          apply (keys_to_properties_values_names _ _ _ _ _ Ht Hk1 Hr1 HA). right. split; [reflexivity|]. split; [exists bap; eauto 10|].
          intros key b pr0 K Ek Epr Hsb. pose proof (Len _ _ K) as Hl. fold v1 names in Ek, Epr. apply (Hnot key b pr0 K); [| |exact Hsb].
          -- exact (eq_trans (eq_sym Ep) (eq_trans (eq_sym (twice_key _ Hlp)) (eq_trans (f_equal _ Ek) (twice_key _ Hl)))).
          -- refine (eq_trans Epp _). rewrite Epr, Ek, app_assoc. f_equal. exact (twice_moved _ Hl).
        * right. split; [reflexivity|].
          destruct (block_b _ _ _ _ _ twice_wf Hk2 Hr2 H2 _ _ Kas) as (b2 & K2). fold v2 in K2. rewrite (twice_key _ Hls) in K2. unfold both, names in K2.
          rewrite Es in K2. split.
          -- exists b2. split; [exact K2|]. split; [|split].
             ++ apply (samplesb _ _ _ _ _ twice_wf Hk2 Hr2 H2 _ _ _ K2). exists (new_key v1 names keys), bas. split; [exact Kas|]. split; [|exact Hsa].
                rewrite <- Es. exact (twice_key _ Hls).
             ++ exists js. apply (located_same _ _ (commute_componentsb _ _ _ _ _ twice_wf Hk2 Hr2 H2 _ _ _ _ K2 Kap (eq_trans (twice_key _ Hlp) Ep))). exact Hca.
             ++ apply (propertiesb _ _ _ _ _ twice_wf Hk2 Hr2 H2 _ _ _ K2). exists (new_key v1 names keyp), bap, (moved_part v1 names keyp ++ pr).
                split; [exact Kap|]. split; [rewrite <- Ep; exact (twice_key _ Hlp)|]. split; [exact Hpa|exact Epp].
          -- intros ea ba pra Ka Ee Epr Hsb Hpb. apply Hin.
             destruct (moved_property_unique ta v2 (new_key v1 names keyp) bap (moved_part v1 names keyp ++ pr) ea ba pra twice_wf Kap Ka) as [Eq _].
             ++ rewrite <- Ee, <- Ep. exact (twice_key _ Hlp).
             ++ rewrite <- Epr. symmetry. exact Epp.
             ++ rewrite Eq in Kap. rewrite (block_of_unique _ _ _ _ twice_wf Kap Ka). exact Hsb.
  Qed.

  Lemma twice_gradient_samples e q s rest : tensor_gradient_sample t2 e q s rest <-> tensor_gradient_sample t' e q s rest.
  Proof.
    rewrite (keys_to_properties_gradient_samples _ _ _ _ _ twice_wf Hk2 (or_introl Hr2) H2), (keys_to_properties_gradient_samples _ _ _ _ _ Ht Hwk (or_introl Hr) H). split.
    - intros (ea & K & ->). apply (keys_to_properties_gradient_samples _ _ _ _ _ Ht Hk1 (or_introl Hr1) HA) in K as (key & K & ->).
      exists key. split; [exact K|]. apply twice_key. destruct K as (b & K & _). eapply key_length; [exact Ht|exact K].
    - intros (key & K & ->). exists (new_key v1 names key). split; [apply (keys_to_properties_gradient_samples _ _ _ _ _ Ht Hk1 (or_introl Hr1) HA); eauto|].
      symmetry. apply twice_key. destruct K as (b & K & _). eapply key_length; [exact Ht|exact K].
  Qed.

  Lemma twice_property_names e b2 b' : block_of t2 e b2 -> block_of t' e b' ->
    labels_names (bb_properties (tb_values b2)) = labels_names (bb_properties (tb_values b'))
    /\ labels_names (bb_samples (tb_values b2)) = labels_names (bb_samples (tb_values b')).
  Proof.
    intros K2 K'. destruct (commute_blockb _ _ _ _ _ twice_wf Hk2 Hr2 H2 _ _ K2) as (ea & ba & Ka & _).
    destruct (commute_blockb _ _ _ _ _ Ht Hk1 Hr1 HA _ _ Ka) as (key & b & K & _).
    destruct (keys_to_properties_names _ _ _ _ _ twice_wf Hk2 (or_introl Hr2) H2 e b2 ea ba K2 Ka) as (S2 & _ & P2).
    destruct (keys_to_properties_names _ _ _ _ _ Ht Hk1 (or_introl Hr1) HA ea ba key b Ka K) as (S1 & _ & P1).
    destruct (keys_to_properties_names _ _ _ _ _ Ht Hwk (or_introl Hr) H e b' key b K' K) as (S' & _ & P').
    split; [|congruence]. rewrite P2, P1, P', Hk, app_assoc. reflexivity.
  Qed.
End TwoStepsProperties.

Lemma two_steps_to_properties p t ta t2 t' k1 k2 k sort1 sort2 sort :
  wf_tensor t -> wf_labels k1 -> wf_labels k2 -> wf_labels k -> rows k1 = [] -> rows k2 = [] -> rows k = [] ->
  keys_to_properties p t k1 sort1 = (ta, Ok tt) -> keys_to_properties p ta k2 sort2 = (t2, Ok tt) ->
  keys_to_properties p t k sort = (t', Ok tt) ->
  labels_names k = labels_names k2 ++ labels_names k1 ->
  in_key_order (labels_names k) (labels_names (tm_keys t)) ->
  same_labels (tm_keys t2) (tm_keys t')
  /\ (forall e s cs pr v, tensor_entry t2 e s cs pr v <-> tensor_entry t' e s cs pr v)
  /\ (forall e q s rest, tensor_gradient_sample t2 e q s rest <-> tensor_gradient_sample t' e q s rest)
  /\ (forall e b2 b', block_of t2 e b2 -> block_of t' e b' ->
        labels_names (bb_properties (tb_values b2)) = labels_names (bb_properties (tb_values b'))
        /\ labels_names (bb_samples (tb_values b2)) = labels_names (bb_samples (tb_values b'))).
Proof.
  intros Ht W1 W2 W R1 R2 R HA H2 H Hk Ho. split; [|split; [|split]].
  - exact (twice_keys _ _ _ _ _ _ _ _ _ _ _ Ht W1 W2 R1 HA H2 H Hk Ho).
  - exact (twice_entries _ _ _ _ _ _ _ _ _ _ _ Ht W1 W2 W R1 R2 R HA H2 H Hk Ho).
  - exact (twice_gradient_samples _ _ _ _ _ _ _ _ _ _ _ Ht W1 W2 W R1 R2 R HA H2 H Hk Ho).
  - exact (twice_property_names _ _ _ _ _ _ _ _ _ _ _ Ht W1 W2 W R1 R2 R HA H2 H Hk).
Qed.
