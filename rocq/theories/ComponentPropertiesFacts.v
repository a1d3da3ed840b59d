(* Lemmas about moving both keys and components to the properties *)
From Coq Require Import Permutation.
From Verif Require Import Base BaseFacts Labels Array Block Tensor Spec SpecTensor SpecComponents LabelsFacts ArrayFacts BlockFacts TensorFacts KeysFacts MergeFacts GroupFacts BlocksFacts MergePropertiesFacts MovedFacts ComponentsFacts ComponentsExactFacts ReachFacts CompleteFacts StepsFacts CommuteFacts GradientStepsFacts ComponentStepsFacts.
Local Open Scope string_scope.
Local Open Scope list_scope.
Local Open Scope nat_scope.

Lemma moved_names_length v names : NoDup v -> NoDup names -> (forall n, In n v -> In n names) -> length (filter (is_moved v) names) = length v.
Proof.
  intros H1 H2 Hin. apply Permutation_length, NoDup_Permutation; [apply NoDup_filter; exact H2|exact H1|].
  intros n. rewrite filter_In, is_moved_true. split; [tauto|]. intros H. auto.
Qed.

Lemma in_product r1 r2 x y : (forall e, In e r1 -> length e = length x) -> (In (x ++ y) (product_rows r1 r2) <-> In x r1 /\ In y r2).
Proof.
  intros Hl. rewrite product_rows_prefixed, in_flat_map. split.
  - intros (e & He & H). apply in_map_iff in H as (z & E & Hz). apply app_eq_length in E as [-> ->]; [auto|]. apply Hl. exact He.
  - intros [Hx Hy]. exists x. split; [exact Hx|]. apply in_map. exact Hy.
Qed.

Section ComponentProperties.
  Variables (p : profile) (t ta tac tc tca : TensorMap) (k : Labels) (name : string) (sort1 sort2 : bool).
  Hypothesis (Ht : wf_tensor t) (Hk : wf_labels k) (Hr : rows k = [])
    (Hkind : forall b, In b (tm_blocks t) -> a_kind (bb_data (tb_values b)) <> RustEmptyArray)
    (HA : keys_to_properties p t k sort1 = (ta, Ok tt)) (HAC : components_to_properties ta [name] = (tac, Ok tt))
    (HC : components_to_properties t [name] = (tc, Ok tt)) (HCA : keys_to_properties p tc k sort2 = (tca, Ok tt)).

  Let v := labels_names k.
  Let names := labels_names (tm_keys t).

  Let Hne : [name] <> [].
  Proof. discriminate. Qed.
  Let Hta : wf_tensor ta.
  Proof. apply (keys_to_properties_wf _ _ _ _ _ Ht Hk (or_introl Hr) HA). Qed.
  Let Htc : wf_tensor tc.
  Proof. apply (components_wf _ _ _ Ht HC). Qed.
  Let Htac : wf_tensor tac.
  Proof. apply (components_wf _ _ _ Hta HAC). Qed.
  Let Htca : wf_tensor tca.
  Proof. apply (keys_to_properties_wf _ _ _ _ _ Htc Hk (or_introl Hr) HCA). Qed.
  Let Ekc : tm_keys tc = tm_keys t.
  Proof. apply (components_to_properties_ok _ _ _ Hne HC). Qed.
  Let Ekac : tm_keys tac = tm_keys ta.
  Proof. apply (components_to_properties_ok _ _ _ Hne HAC). Qed.
  Let Hkinda : forall b, In b (tm_blocks ta) -> a_kind (bb_data (tb_values b)) <> RustEmptyArray.
  Proof. intros b Hb. destruct (keys_to_properties_kind _ _ _ _ _ _ HA Hb) as (b0 & H0 & E). unfold value_kind in E. rewrite E. apply Hkind. exact H0. Qed.

  Lemma cp_keys : same_labels (tm_keys tac) (tm_keys tca).
  Proof.
    rewrite Ekac. destruct (keys_to_properties_keys _ _ _ _ _ Ht HA) as [N1 F1]. destruct (keys_to_properties_keys _ _ _ _ _ Htc HCA) as [N2 F2].
    rewrite Ekc in N2, F2. split; [change (labels_names (tm_keys ta) = labels_names (tm_keys tca)); congruence|]. exact (first_appearance_unique _ _ _ F1 F2).
  Qed.

  Lemma cp_moved_length key b : block_of t key b -> length (moved_part v names key) = length v.
  Proof.
    intros K. rewrite moved_part_length by (exact (key_length _ _ _ Ht K)). pose proof (wf_names_good _ Hk) as [_ N1].
    pose proof Ht as ([Hkk _] & _). pose proof (wf_names_good _ Hkk) as [_ N2].
    apply moved_names_length; [exact N1|exact N2|]. apply (keys_to_properties_blocks _ _ _ _ _ Ht Hk (or_introl Hr) HA).
  Qed.

  (* the components of blocks which are merged *)
  Lemma cp_values_components e ba key b : block_of ta e ba -> block_of t key b -> new_key v names key = e ->
    Forall2 same_labels (bb_components (tb_values b)) (bb_components (tb_values ba)).
  Proof. intros Ka K E. exact (commute_componentsb _ _ _ _ _ Ht Hk Hr HA _ _ _ _ Ka K E). Qed.

  Lemma cp_merged_components e bca key bc : block_of tca e bca -> block_of tc key bc -> new_key v names key = e ->
    Forall2 same_labels (bb_components (tb_values bc)) (bb_components (tb_values bca)).
  Proof. intros Ka K E. refine (commute_componentsb _ _ _ _ _ Htc Hk Hr HCA _ _ _ _ Ka K _). rewrite Ekc. exact E. Qed.

  (* a block after both moves, and the blocks it comes from *)
  Lemma cp_source e bac : block_of tac e bac -> exists ba key b bc bca pre1 x1 post1 pre2 x2 post2,
    block_of ta e ba /\ component_moved [name] (tb_values ba) pre1 x1 post1 (tb_values bac)
    /\ block_of t key b /\ new_key v names key = e
    /\ block_of tc key bc /\ component_moved [name] (tb_values b) pre2 x2 post2 (tb_values bc)
    /\ block_of tca e bca /\ Forall2 same_labels (bb_components (tb_values bac)) (bb_components (tb_values bca)).
  Proof.
    intros Kac. destruct (block_of_after _ _ _ _ _ Hne HAC Kac) as (ba & Ka & Ca).
    destruct (block_components_ok _ _ _ (wf_tensor_block _ _ _ Hta Ka) Hne Ca) as ((pre1 & x1 & post1 & M1) & _).
    destruct (fol_from _ _ _ (properties_follow _ _ _ _ _ Ht Hk Hr HA) _ _ Ka) as (key & b & K & E & _).
    destruct (block_of_before _ _ _ _ _ Hne HC K) as (bc & Kc & Cc).
    destruct (block_components_ok _ _ _ (wf_tensor_block _ _ _ Ht K) Hne Cc) as ((pre2 & x2 & post2 & M2) & _).
    destruct (block_b _ _ _ _ _ Htc Hk Hr HCA _ _ Kc) as (bca & Kca). rewrite Ekc in Kca. rewrite E in Kca.
    exists ba, key, b, bc, bca, pre1, x1, post1, pre2, x2, post2. do 7 (split; [assumption|]).
    eapply Forall2_same_trans; [|exact (cp_merged_components _ _ _ _ Kca Kc E)].
    apply Forall2_same_sym.
    apply (moved_components_same _ _ _ _ _ _ _ _ _ _ _ (proj1 (wf_tensor_block _ _ _ Hta Ka)) M2 M1). exact (cp_values_components _ _ _ _ Ka K E).
  Qed.

  Lemma cp_block e bca : block_of tca e bca -> exists bac, block_of tac e bac.
  Proof.
    intros Kca. destruct (fol_from _ _ _ (properties_follow _ _ _ _ _ Htc Hk Hr HCA) _ _ Kca) as (key & bc & Kc & E & _).
    destruct (block_of_after _ _ _ _ _ Hne HC Kc) as (b & K & _). destruct (block_b _ _ _ _ _ Ht Hk Hr HA _ _ K) as (ba & Ka).
    rewrite Ekc in E. rewrite E in Ka. destruct (block_of_before _ _ _ _ _ Hne HAC Ka) as (bac & Kac & _). eauto.
  Qed.

  Lemma cp_components e bac bca : block_of tac e bac -> block_of tca e bca -> Forall2 same_labels (bb_components (tb_values bac)) (bb_components (tb_values bca)).
  Proof.
    intros Kac Kca. destruct (cp_source _ _ Kac) as (ba & key & b & bc & bca' & p1 & x1 & o1 & p2 & x2 & o2 & _ & _ & _ & _ & _ & _ & Kca' & F).
    rewrite (block_of_unique _ _ _ _ Htca Kca Kca'). exact F.
  Qed.

  Lemma cp_samples e bac bca s : block_of tac e bac -> block_of tca e bca -> (In s (rows (bb_samples (tb_values bac))) <-> In s (rows (bb_samples (tb_values bca)))).
  Proof.
    intros Kac Kca. destruct (components_names _ _ _ Hta HAC) as [_ Na]. destruct (Na _ _ Kac) as (ba & _ & _ & _ & Ka & _ & _ & -> & _).
    rewrite (samplesb _ _ _ _ _ Ht Hk Hr HA _ _ _ Ka), (samplesb _ _ _ _ _ Htc Hk Hr HCA _ _ _ Kca), Ekc. destruct (components_names _ _ _ Ht HC) as [_ Nc]. split.
    - intros (key & b & K & E & Hs). destruct (block_of_before _ _ _ _ _ Hne HC K) as (bc & Kc & _). exists key, bc. split; [exact Kc|]. split; [exact E|].
      destruct (Nc _ _ Kc) as (b0 & _ & _ & _ & K0 & _ & _ & -> & _). rewrite (block_of_unique _ _ _ _ Ht K0 K). exact Hs.
    - intros (key & bc & Kc & E & Hs). destruct (Nc _ _ Kc) as (b & _ & _ & _ & K & _ & _ & Es & _). exists key, b. rewrite <- Es. auto.
  Qed.

  Lemma moved_row_length x b b' pre post e : wf_basic b -> component_moved [name] b pre x post b' -> In e (rows x) -> length e = 1.
  Proof.
    intros Hw M He. destruct (wf_basic_axes _ Hw) as (_ & Hc & _). rewrite Forall_forall in Hc.
    assert (Hx : axis_labels x) by (apply Hc; rewrite (cm_components _ _ _ _ _ _ M); apply in_or_app; right; left; reflexivity).
    destruct Hx as [Hx _]. rewrite (wf_rows_length _ _ Hx He), (cm_moved _ _ _ _ _ _ M). reflexivity.
  Qed.

  (* the properties, of which the first two parts are exchanged *)
  Lemma cp_properties e bac bca c m pr : block_of tac e bac -> block_of tca e bca -> length c = 1 -> length m = length v ->
    (In (c ++ m ++ pr) (rows (bb_properties (tb_values bac))) <-> In (m ++ c ++ pr) (rows (bb_properties (tb_values bca)))).
  Proof.
    intros Kac Kca Hc Hm. destruct (cp_source _ _ Kac) as (ba & key0 & b0 & bc0 & bca' & p1 & x1 & o1 & p2 & x2 & o2 & Ka & M1 & _). clear key0 b0 bc0 bca' p2 x2 o2.
    pose proof (proj1 (wf_tensor_block _ _ _ Hta Ka)) as Wa.
    rewrite (moved_properties_rows _ _ _ _ _ _ Wa M1), in_product by (intros y Hy; rewrite Hc; exact (moved_row_length _ _ _ _ _ _ Wa M1 Hy)).
    rewrite (propertiesb _ _ _ _ _ Ht Hk Hr HA _ _ _ Ka), (propertiesb _ _ _ _ _ Htc Hk Hr HCA _ _ _ Kca), Ekc.
    assert (G : forall key b bc, block_of t key b -> new_key v names key = e -> block_of tc key bc ->
              forall pr0, In (c ++ pr0) (rows (bb_properties (tb_values bc))) <-> In c (rows x1) /\ In pr0 (rows (bb_properties (tb_values b)))).
    { intros key b bc K E Kc pr0. destruct (block_of_after _ _ _ _ _ Hne HC Kc) as (b' & K' & Cc). rewrite (block_of_unique _ _ _ _ Ht K' K) in Cc.
      destruct (block_components_ok _ _ _ (wf_tensor_block _ _ _ Ht K) Hne Cc) as ((p2 & x2 & o2 & M2) & _).
      pose proof (proj1 (wf_tensor_block _ _ _ Ht K)) as W.
      rewrite (moved_properties_rows _ _ _ _ _ _ W M2), in_product by (intros y Hy; rewrite Hc; exact (moved_row_length _ _ _ _ _ _ W M2 Hy)).
      assert (Hx : rows x2 = rows x1); [|rewrite Hx; reflexivity].
      pose proof (cp_values_components _ _ _ _ Ka K E) as F. rewrite (cm_components _ _ _ _ _ _ M1), (cm_components _ _ _ _ _ _ M2) in F.
      apply Forall2_app_inv_l in F as (pre & rest & _ & F & Eq). inversion F as [|a d l l' Hx _ E1 E2]. subst.
      assert (Hn : labels_names d = [name]) by (destruct Hx as [Hx _]; rewrite <- (cm_moved _ _ _ _ _ _ M2); unfold labels_names; rewrite Hx; reflexivity).
      assert (Hnd : NoDup (map labels_names (p1 ++ x1 :: o1))).
      { destruct Wa as (_ & _ & _ & _ & Hnd). rewrite <- (cm_components _ _ _ _ _ _ M1). exact Hnd. }
      destruct (split_unique [name] _ _ _ _ _ _ (cm_moved _ _ _ _ _ _ M1) Hn Hnd Eq) as (_ & -> & _). apply Hx. }
    split.
    - intros (Hcx & key & b & pr0 & K & E & Hp & Eq). apply app_eq_length in Eq as [-> ->]; [|rewrite Hm; symmetry; exact (cp_moved_length _ _ K)].
      destruct (block_of_before _ _ _ _ _ Hne HC K) as (bc & Kc & _). exists key, bc, (c ++ pr0). split; [exact Kc|]. split; [exact E|]. split; [|reflexivity].
      apply (G key b bc K E Kc). auto.
    - intros (key & bc & pr1 & Kc & E & Hp & Eq). destruct (block_of_after _ _ _ _ _ Hne HC Kc) as (b & K & _).
      apply app_eq_length in Eq as [-> <-]; [|rewrite Hm; symmetry; exact (cp_moved_length _ _ K)].
      destruct (proj1 (G key b bc K E Kc pr) Hp) as [Hcx Hp']. split; [exact Hcx|]. exists key, b, pr. auto.
  Qed.

  Lemma moved_entry_length b cs1 xv cs2 s pr w : wf_basic b -> entry b s (cs1 ++ xv :: cs2) pr w -> length xv = 1.
  Proof.
    intros Hw He. apply entry_iff in He as (i & js & j & _ & Hl & _ & _). destruct Hw as (_ & Hax & _ & H1 & _).
    unfold axes in Hax. inversion Hax as [|? ? _ Hax']. apply Forall_app in Hax' as [Hax' _]. clear - Hl H1 Hax'.
    revert js cs1 Hl. induction (bb_components b) as [|l ls IH]; intros [|j js] [|c1 cs1] Hl; cbn in Hl; try contradiction; inversion H1; inversion Hax'; subst.
    - destruct Hl as [Hl _]. apply nth_error_In in Hl. match goal with H : axis_labels l |- _ => destruct H as [W _] end. rewrite (wf_rows_length _ _ W Hl). assumption.
    - destruct Hl as [_ Hl]. eapply IH; eauto.
  Qed.

  Lemma cp_forward e s cs c m pr w : length c = 1 -> length m = length v -> tensor_entry tac e s cs (c ++ m ++ pr) w -> tensor_entry tca e s cs (m ++ c ++ pr) w.
  Proof.
    intros Hc Hm He. pose proof He as H0. apply tensor_entry_of in H0 as (bac & Kac & H0).
    apply (exact_values _ _ _ Hta HAC Hkinda) in He as (ba & cs1 & xv & cs2 & found & pra & Ka & Hat & Hf & -> & Ep & He).
    destruct (cp_source _ _ Kac) as (ba' & key0 & b0 & bc0 & bca & p1 & x1 & o1 & p2 & x2 & o2 & Ka' & M1 & _ & _ & _ & _ & Kca & _). clear key0 b0 bc0 p2 x2 o2.
    rewrite (block_of_unique _ _ _ _ Hta Ka' Ka) in M1. clear ba' Ka'.
    pose proof (moved_entry_length _ _ _ _ _ _ _ (proj1 (wf_tensor_block _ _ _ Hta Ka)) He) as Hx.
    apply app_eq_length in Ep as [<- <-]; [|congruence].
    assert (Hta' : tensor_entry ta e s (cs1 ++ c :: cs2) (m ++ pr) w) by (apply tensor_entry_of; eauto).
    apply (keys_to_properties_values_names _ _ _ _ _ Htc Hk Hr HCA). rewrite Ekc.
    apply (keys_to_properties_values_names _ _ _ _ _ Ht Hk Hr HA) in Hta' as [(key & pr0 & Hx0 & E & Ep)|(-> & _ & Hnot)].
    - left. apply tensor_entry_of in Hx0 as (b & K & Hb).
      apply app_eq_length in Ep as [-> ->]; [|rewrite Hm; symmetry; exact (cp_moved_length _ _ K)].
      exists key, (c ++ pr0). split; [|auto]. apply (exact_values _ _ _ Ht HC Hkind). exists b, cs1, c, cs2, found, pr0.
      destruct (component_same _ _ name (cp_values_components _ _ _ _ Ka K (eq_sym E))) as [S1 S2]. rewrite S1, S2. auto 10.
    - right. split; [reflexivity|]. apply entry_iff in H0 as (i & js & j & Hi & Hj & Hp & _). apply nth_error_In in Hi, Hp. split.
      + exists bca. split; [exact Kca|]. split; [apply (cp_samples _ _ _ _ Kac Kca); exact Hi|]. split; [|apply (cp_properties _ _ _ _ _ _ Kac Kca Hc Hm); exact Hp].
        exists js. apply (located_same _ _ (cp_components _ _ _ Kac Kca)). exact Hj.
      + intros key bc pr1 Kc E Ep Hs Hin. destruct (components_names _ _ _ Ht HC) as [_ Nc]. destruct (Nc _ _ Kc) as (b & pre & x & post & K & _ & _ & Es & _).
        destruct (block_of_after _ _ _ _ _ Hne HC Kc) as (b' & K' & Cc). rewrite (block_of_unique _ _ _ _ Ht K' K) in Cc.
        destruct (block_components_ok _ _ _ (wf_tensor_block _ _ _ Ht K) Hne Cc) as ((p2 & x2 & o2 & M2) & _).
        pose proof (proj1 (wf_tensor_block _ _ _ Ht K)) as W. rewrite Es in Hs.
        apply app_eq_length in Ep as [-> <-]; [|rewrite Hm; symmetry; exact (cp_moved_length _ _ K)].
        rewrite (moved_properties_rows _ _ _ _ _ _ W M2), in_product in Hin by (intros y Hy; rewrite Hc; exact (moved_row_length _ _ _ _ _ _ W M2 Hy)).
        exact (Hnot key b pr K E eq_refl Hs (proj2 Hin)).
  Qed.

  Lemma cp_values e s cs c m pr w : length c = 1 -> length m = length v -> (tensor_entry tac e s cs (c ++ m ++ pr) w <-> tensor_entry tca e s cs (m ++ c ++ pr) w).
  Proof.
    intros Hc Hm. split; [exact (cp_forward _ _ _ _ _ _ _ Hc Hm)|]. intros He. pose proof He as H0. apply tensor_entry_of in H0 as (bca & Kca & H0).
    destruct (cp_block _ _ Kca) as (bac & Kac). apply entry_iff in H0 as (i & js & j & Hi & Hj & Hp & _). apply nth_error_In in Hi, Hp.
    destruct (entry_exists (tb_values bac) s cs (c ++ m ++ pr)) as (w' & H).
    - apply (wf_tensor_block _ _ _ Htac Kac).
    - destruct (cp_source _ _ Kac) as (ba & key0 & b0 & bc0 & bca' & p1 & x1 & o1 & p2 & x2 & o2 & Ka & M1 & _). rewrite (cm_kind _ _ _ _ _ _ M1). apply Hkinda. eapply block_of_In; exact Ka.
    - apply (cp_samples _ _ _ _ Kac Kca). exact Hi.
    - exists js. apply (located_same _ _ (cp_components _ _ _ Kac Kca)). exact Hj.
    - apply (cp_properties _ _ _ _ _ _ Kac Kca Hc Hm). exact Hp.
    - assert (Hw : tensor_entry tac e s cs (c ++ m ++ pr) w') by (apply tensor_entry_of; eauto).
      rewrite (tensor_entry_function _ _ _ _ _ _ _ Htca He (cp_forward _ _ _ _ _ _ _ Hc Hm Hw)). exact Hw.
  Qed.

  Lemma cp_gradient_samples e q s rest : tensor_gradient_sample tac e q s rest <-> tensor_gradient_sample tca e q s rest.
  Proof.
    rewrite (components_gradient_samples _ _ _ Hta HAC), (keys_to_properties_gradient_samples _ _ _ _ _ Ht Hk (or_introl Hr) HA), (keys_to_properties_gradient_samples _ _ _ _ _ Htc Hk (or_introl Hr) HCA), Ekc.
    split; intros (key & Hx & H1); exists key; (split; [apply (components_gradient_samples _ _ _ Ht HC); exact Hx|auto]).
  Qed.

  Section Gradients.
    Hypothesis (Hag : agreeing_groups t v).

    Let Hagc : agreeing_groups tc v.
    Proof. exact (components_agreeing _ _ _ _ Ht HC Hag). Qed.
    Let Fa := properties_follow _ _ _ _ _ Ht Hk Hr HA.
    Let Fc := properties_follow _ _ _ _ _ Htc Hk Hr HCA.

    (* a gradient after both moves, and the one with which it is compared *)
    Lemma cp_gradient e bac q gac : block_of tac e bac -> In (q, gac) (tb_gradients bac) ->
      exists bca gca, block_of tca e bca /\ In (q, gca) (tb_gradients bca) /\ Forall2 same_labels (bb_components gac) (bb_components gca).
    Proof.
      intros Kac Gac. destruct (block_of_after _ _ _ _ _ Hne HAC Kac) as (ba & Ka & Ca).
      destruct (block_components_ok _ _ _ (wf_tensor_block _ _ _ Hta Ka) Hne Ca) as (_ & G1 & _).
      destruct (Forall2_In_r _ _ _ _ G1 Gac) as ([q1 ga] & Ga & E1 & p1 & x1 & o1 & M1). simpl in E1, M1. subst q1.
      destruct (fol_from _ _ _ Fa _ _ Ka) as (key & b & K & E & Hg). destruct (Hg q ga Ga) as (g & G & Ec).
      destruct (block_of_before _ _ _ _ _ Hne HC K) as (bc & Kc & Cc).
      destruct (block_components_ok _ _ _ (wf_tensor_block _ _ _ Ht K) Hne Cc) as (_ & G2 & _).
      destruct (Forall2_In_l _ _ _ _ G2 G) as ([q2 gc] & Gc & E2 & p2 & x2 & o2 & M2). simpl in E2, M2. subst q2.
      destruct (follows_gradient _ _ _ Fc _ _ _ _ Kc Gc) as (bca & gca & Kca & Gca).
      pose proof (follows_components _ _ _ Fc Hagc _ _ _ _ _ _ Kc Kca Gc Gca) as F. rewrite Ekc in Kca.
      assert (Kca' : block_of tca e bca) by (rewrite <- E; exact Kca). clear Kca.
      exists bca, gca. split; [exact Kca'|]. split; [exact Gca|]. eapply Forall2_same_trans; [|exact F].
      apply (moved_components_same _ _ _ _ _ _ _ _ _ _ _ (proj1 (wf_block_gradient _ _ _ (wf_tensor_block _ _ _ Ht K) G)) M1 M2).
      rewrite Ec. apply Forall2_same_refl.
    Qed.

    Lemma cp_gradient_forward e q s rest cs c m pr w : length c = 1 -> length m = length v ->
      tensor_gradient_value tac e q s rest cs (c ++ m ++ pr) w -> tensor_gradient_value tca e q s rest cs (m ++ c ++ pr) w.
    Proof.
      intros Hc Hm He. pose proof He as (bac & Kac & i0 & gac & Hi0 & Gac & H0).
      apply (exact_gradients _ _ _ Hta HAC Hkinda) in He as (ba & i & ga & cs1 & xv & cs2 & found & pra & Ka & Ga & Hi & Hat & Hf & -> & Ep & He).
      pose proof (moved_entry_length _ _ _ _ _ _ _ (proj1 (wf_block_gradient _ _ _ (wf_tensor_block _ _ _ Hta Ka) Ga)) He) as Hx.
      apply app_eq_length in Ep as [<- <-]; [|congruence].
      assert (Hta' : tensor_gradient_value ta e q s rest (cs1 ++ c :: cs2) (m ++ pr) w) by (exists ba; split; [exact Ka|]; exists i, ga; auto).
      apply (to_properties_gradients _ _ _ _ _ Htc Hk Hr HCA Hagc). rewrite Ekc.
      apply (to_properties_gradients _ _ _ _ _ Ht Hk Hr HA Hag) in Hta' as [(key & pr0 & Hx0 & E & Ep)|(-> & Hsample & _ & Hnot)].
      - left. destruct Hx0 as (b & K & j & g & Hj & G & Hb).
        apply app_eq_length in Ep as [-> ->]; [|rewrite Hm; symmetry; exact (cp_moved_length _ _ K)].
        exists key, (c ++ pr0). split; [|auto]. apply (exact_gradients _ _ _ Ht HC Hkind). exists b, j, g, cs1, c, cs2, found, pr0.
        rewrite E in Ka. destruct (component_same _ _ name (follows_components _ _ _ Fa Hag _ _ _ _ _ _ K Ka G Ga)) as [S1 S2]. rewrite S1, S2. auto 12.
      - right. split; [reflexivity|]. destruct (cp_gradient _ _ _ _ Kac Gac) as (bca & gca & Kca & Gca & F).
        apply entry_iff in H0 as (i1 & js & j & Hi1 & Hj & Hp & _). apply nth_error_In in Hp, Hi1. split; [|split].
        + apply cp_gradient_samples. exists bac. split; [exact Kac|]. exists i0, gac. auto.
        + exists bca, gca, js. split; [exact Kca|]. split; [exact Gca|]. split; [apply (located_same _ _ F); exact Hj|].
          apply (cp_properties _ _ _ _ _ _ Kac Kca Hc Hm). rewrite <- (proj2 (components_wf _ _ _ Hta HAC) bac q gac (block_of_In _ _ _ Kac) Gac). exact Hp.
        + intros key bc pr1 Kc E Ep Hs Hin. destruct (block_of_after _ _ _ _ _ Hne HC Kc) as (b & K & Cc).
          destruct (block_components_ok _ _ _ (wf_tensor_block _ _ _ Ht K) Hne Cc) as ((p2 & x2 & o2 & M2) & _).
          pose proof (proj1 (wf_tensor_block _ _ _ Ht K)) as W.
          apply app_eq_length in Ep as [-> <-]; [|rewrite Hm; symmetry; exact (cp_moved_length _ _ K)].
          rewrite (moved_properties_rows _ _ _ _ _ _ W M2), in_product in Hin by (intros y Hy; rewrite Hc; exact (moved_row_length _ _ _ _ _ _ W M2 Hy)).
          refine (Hnot key b pr K E eq_refl _ (proj2 Hin)).
          apply (gradient_sample_block _ _ _ _ _ _ Ht K), (components_gradient_samples _ _ _ Ht HC). exists bc. auto.
    Qed.

    Lemma cp_gradients e q s rest cs c m pr w : length c = 1 -> length m = length v ->
      (tensor_gradient_value tac e q s rest cs (c ++ m ++ pr) w <-> tensor_gradient_value tca e q s rest cs (m ++ c ++ pr) w).
    Proof.
      intros Hc Hm. split; [exact (cp_gradient_forward _ _ _ _ _ _ _ _ _ Hc Hm)|]. intros He. pose proof He as (bca & Kca & i & gca & Hi & Gca & H0).
      apply entry_iff in H0 as (i1 & js & j & Hi1 & Hj & Hp & _). apply nth_error_In in Hp, Hi1.
      assert (Hs : tensor_gradient_sample tac e q s rest) by (apply cp_gradient_samples; exists bca; split; [exact Kca|]; exists i, gca; auto).
      destruct Hs as (bac & Kac & i2 & gac & Hi2 & Gac & Hs). destruct (cp_gradient _ _ _ _ Kac Gac) as (bca' & gca' & Kca' & Gca' & F).
      rewrite (block_of_unique _ _ _ _ Htca Kca' Kca) in Gca'.
      destruct (wf_block_gradient _ _ _ (wf_tensor_block _ _ _ Htca Kca) Gca) as (_ & Cca & Q1). destruct (wf_block_gradient _ _ _ (wf_tensor_block _ _ _ Htca Kca) Gca') as (_ & _ & Q2).
      assert (Eq : gca' = gca) by congruence. subst gca'.
      destruct (wf_block_gradient _ _ _ (wf_tensor_block _ _ _ Htac Kac) Gac) as (Wac & Cac & _).
      destruct (entry_exists gac (Z.of_nat i2 :: rest) cs (c ++ m ++ pr)) as (w' & H).
      - exact Wac.
      - destruct (cp_source _ _ Kac) as (ba & key0 & b0 & bc0 & bca'' & p1 & x1 & o1 & p2 & x2 & o2 & Ka & M1 & _). destruct Cac as (_ & _ & _ & Ck). rewrite Ck, (cm_kind _ _ _ _ _ _ M1). apply Hkinda. eapply block_of_In; exact Ka.
      - exact Hs.
      - exists js. apply (located_same _ _ F). exact Hj.
      - rewrite (proj2 (components_wf _ _ _ Hta HAC) bac q gac (block_of_In _ _ _ Kac) Gac). apply (cp_properties _ _ _ _ _ _ Kac Kca Hc Hm).
        destruct Cca as (_ & _ & Pca & _). rewrite <- Pca. exact Hp.
      - assert (Hw : tensor_gradient_value tac e q s rest cs (c ++ m ++ pr) w') by (exists bac; split; [exact Kac|]; exists i2, gac; auto).
        rewrite (tensor_gradient_function _ _ _ _ _ _ _ _ _ Htca He (cp_gradient_forward _ _ _ _ _ _ _ _ _ Hc Hm Hw)). exact Hw.
    Qed.
  End Gradients.
End ComponentProperties.

Lemma properties_and_components p t ta tac tc tca k name sort1 sort2 :
  wf_tensor t -> wf_labels k -> rows k = [] ->
  (forall b, In b (tm_blocks t) -> a_kind (bb_data (tb_values b)) <> RustEmptyArray) ->
  keys_to_properties p t k sort1 = (ta, Ok tt) -> components_to_properties ta [name] = (tac, Ok tt) ->
  components_to_properties t [name] = (tc, Ok tt) -> keys_to_properties p tc k sort2 = (tca, Ok tt) ->
  same_labels (tm_keys tac) (tm_keys tca)
  /\ (forall e s cs c m pr v, length c = 1 -> length m = length (labels_names k) ->
        (tensor_entry tac e s cs (c ++ m ++ pr) v <-> tensor_entry tca e s cs (m ++ c ++ pr) v))
  /\ (forall e q s rest, tensor_gradient_sample tac e q s rest <-> tensor_gradient_sample tca e q s rest)
  /\ (p = Debug \/ agreeing_groups t (labels_names k) ->
      forall e q s rest cs c m pr v, length c = 1 -> length m = length (labels_names k) ->
        (tensor_gradient_value tac e q s rest cs (c ++ m ++ pr) v <-> tensor_gradient_value tca e q s rest cs (m ++ c ++ pr) v)).
Proof.
  intros Ht Hk Hr Hkind HA HAC HC HCA. split; [|split; [|split]].
  - exact (cp_keys _ _ _ _ _ _ _ _ _ _ Ht HA HAC HC HCA).
  - exact (cp_values _ _ _ _ _ _ _ _ _ _ Ht Hk Hr Hkind HA HAC HC HCA).
  - exact (cp_gradient_samples _ _ _ _ _ _ _ _ _ _ Ht Hk Hr HA HAC HC HCA).
  - intros Hag. apply (cp_gradients _ _ _ _ _ _ _ _ _ _ Ht Hk Hr Hkind HA HAC HC HCA).
    destruct Hag as [Hp|Hag]; [exact (keys_to_properties_agreeing _ _ _ _ _ Ht Hk Hr HA Hp)|exact Hag].
Qed.

Lemma properties_and_components_names p t ta tac tc tca k name sort1 sort2 :
  wf_tensor t -> wf_labels k -> rows k = [] ->
  keys_to_properties p t k sort1 = (ta, Ok tt) -> components_to_properties ta [name] = (tac, Ok tt) ->
  components_to_properties t [name] = (tc, Ok tt) -> keys_to_properties p tc k sort2 = (tca, Ok tt) ->
  forall e b1 b2, block_of tac e b1 -> block_of tca e b2 ->
    labels_names (bb_samples (tb_values b1)) = labels_names (bb_samples (tb_values b2))
    /\ Forall2 same_labels (bb_components (tb_values b1)) (bb_components (tb_values b2))
    /\ exists others, labels_names (bb_properties (tb_values b1)) = [name] ++ labels_names k ++ others
                      /\ labels_names (bb_properties (tb_values b2)) = labels_names k ++ [name] ++ others.
Proof.
  intros Ht Hk Hr HA HAC HC HCA e b1 b2 K1 K2. pose proof (proj1 (keys_to_properties_wf _ _ _ _ _ Ht Hk (or_introl Hr) HA)) as Hta. pose proof (proj1 (components_wf _ _ _ Ht HC)) as Htc.
  pose proof (cp_components _ _ _ _ _ _ _ _ _ _ Ht Hk Hr HA HAC HC HCA _ _ _ K1 K2) as F.
  destruct (components_names _ _ _ Hta HAC) as [_ Na]. destruct (Na _ _ K1) as (ba & _ & _ & _ & Ka & _ & _ & Es1 & _ & Ep1 & _).
  destruct (fol_from _ _ _ (properties_follow _ _ _ _ _ Htc Hk Hr HCA) _ _ K2) as (key & bc & Kc & _).
  destruct (components_names _ _ _ Ht HC) as [_ Nc]. destruct (Nc _ _ Kc) as (b & _ & _ & _ & K & _ & _ & Es2 & _ & Ep2 & _).
  destruct (keys_to_properties_names _ _ _ _ _ Ht Hk (or_introl Hr) HA _ _ _ _ Ka K) as (N1 & _ & N2).
  destruct (keys_to_properties_names _ _ _ _ _ Htc Hk (or_introl Hr) HCA _ _ _ _ K2 Kc) as (N3 & _ & N4).
  split; [rewrite Es1, N1, N3, Es2; reflexivity|]. split; [exact F|].
  exists (labels_names (bb_properties (tb_values b))). rewrite Ep1, N2, N4, Ep2. auto.
Qed.

(** * When the moves are accepted *)

Lemma components_before_properties p t ta tac k name sort1 sort2 :
  workable t -> wf_labels k -> rows k = [] -> agreeing_groups t (labels_names k) ->
  (forall b l, In b (tm_blocks t) -> In l (bb_properties (tb_values b) :: bb_components (tb_values b)) -> rows l <> []) ->
  keys_to_properties p t k sort1 = (ta, Ok tt) -> components_to_properties ta [name] = (tac, Ok tt) ->
  exists tc tca, components_to_properties t [name] = (tc, Ok tt) /\ keys_to_properties p tc k sort2 = (tca, Ok tt).
Proof.
  intros Hw Hk Hr Hag Hfull HA HAC. pose proof Hw as (Ht & Hblocks & _ & Hall & _). assert (Hv : [name] <> []) by discriminate.
  pose proof (proj1 (keys_to_properties_wf _ _ _ _ _ Ht Hk (or_introl Hr) HA)) as Hta. pose proof (proj1 (components_wf _ _ _ Hta HAC)) as Htac.
  pose proof (properties_follow _ _ _ _ _ Ht Hk Hr HA) as Fa.
  assert (Hkn : labels_names k <> []).
  { intros E. pose proof HA as H. apply keys_to_properties_inv in H as (nk & pos & c & bs & _ & Hc & _). apply (labels_count_ok _ _ Hk) in Hc as [Hc _]. contradiction. }
  assert (Hpn : forall b, In b (tm_blocks t) -> NoDup (name :: labels_names k ++ labels_names (bb_properties (tb_values b)))
            /\ In [name] (map labels_names (bb_components (tb_values b)))).
  { intros b Hb. destruct (block_has_key _ _ Ht Hb) as (key & K). destruct (fol_to _ _ _ Fa _ _ K) as (ba & Ka & _).
    destruct (block_of_before _ _ _ _ _ Hv HAC Ka) as (bac & Kac & _).
    destruct (keys_to_properties_names _ _ _ _ _ Ht Hk (or_introl Hr) HA _ _ _ _ Ka K) as (_ & N1 & N2).
    destruct (components_names _ _ _ Hta HAC) as [_ Hn]. destruct (Hn _ _ Kac) as (ba1 & pre & x & post & Ka1 & E & Ex & _ & _ & Ep & _).
    rewrite (block_of_unique _ _ _ _ Hta Ka1 Ka) in E, Ep. split.
    - destruct (wf_basic_axes _ (proj1 (wf_tensor_block _ _ _ Htac Kac))) as (_ & _ & [Hnd _]). apply wf_names_good in Hnd as [_ Hnd]. rewrite Ep, N2 in Hnd. exact Hnd.
    - rewrite <- N1, E, map_app, <- Ex. apply in_or_app. right. left. reflexivity. }
  destruct (components_succeeds t [name]) as (tc & HC).
  - exact Ht.
  - apply Forall_forall. intros b Hb. apply Hall. exact Hb.
  - intros b Hb. apply Hpn. exact Hb.
  - intros b n Hb [<-|[]] Hin. destruct (Hpn _ Hb) as [Hnd _]. inversion Hnd as [|? ? Hno _]. apply Hno. apply in_or_app. right. exact Hin.
  - exists tc. pose proof (proj1 (components_wf _ _ _ Ht HC)) as Htc. pose proof (proj1 (components_to_properties_ok _ _ _ Hv HC)) as Ekc.
    assert (Hdis : forall b n, In b (tm_blocks t) -> In n (labels_names k) -> ~ In n (labels_names (bb_properties (tb_values b)))).
    { intros b n Hb Hn Hin. destruct (Hpn _ Hb) as [Hnd _]. inversion Hnd as [|? ? _ Hnd']. exact (NoDup_app_disjoint _ _ Hnd' n Hn Hin). }
    assert (Hpf : forall b, In b (tm_blocks t) -> rows (bb_properties (tb_values b)) <> []) by (intros b Hb; apply (Hfull b _ Hb); left; reflexivity).
    destruct (keys_to_properties_complete p t k sort1 Hw Hk Hkn Hag Hpf Hdis) as [[(Hnames & Hcomp & _) _]|[_ [m Hm]]]; [|rewrite HA in Hm; discriminate Hm].
    destruct (keys_to_properties_complete p tc k sort2 (components_workable _ _ _ Hw HC) Hk Hkn (components_agreeing _ _ _ _ Ht HC Hag)) as [[_ (tca & H)]|[Hno _]].
    + intros b' Hb'. destruct (block_has_key _ _ Htc Hb') as (key & K'). destruct (components_names _ _ _ Ht HC) as [_ Hx].
      destruct (Hx _ _ K') as (b & pre & x & post & K & Ec & _ & _ & _ & _ & Er). rewrite Er. pose proof (block_of_In _ _ _ K) as Hb.
      assert (H1 : rows x <> []) by (apply (Hfull b x Hb); right; rewrite Ec; apply in_or_app; right; left; reflexivity). pose proof (Hpf b Hb) as H2.
      destruct (rows x) as [|r rs]; [congruence|]. destruct (rows (bb_properties (tb_values b))) as [|r2 rs2]; [congruence|]. discriminate.
    + intros b' n Hb' Hn Hin. destruct (block_has_key _ _ Htc Hb') as (key & K'). destruct (components_names _ _ _ Ht HC) as [_ Hx].
      destruct (Hx _ _ K') as (b & pre & x & post & K & _ & _ & _ & _ & Ep & _). rewrite Ep in Hin. pose proof (block_of_In _ _ _ K) as Hb.
      destruct Hin as [<-|Hin]; [|exact (Hdis b n Hb Hn Hin)]. destruct (Hpn _ Hb) as [Hnd _]. inversion Hnd as [|? ? Hno _]. apply Hno. apply in_or_app. left. exact Hn.
    + eauto.
    + exfalso. apply Hno. rewrite Ekc. split; [exact Hnames|]. split; [|intros H; contradiction (H Hr)].
      intros key1 b1' key2 b2' K1' K2' E. rewrite Ekc in E. destruct (block_of_after _ _ _ _ _ Hv HC K1') as (b1 & K1 & C1). destruct (block_of_after _ _ _ _ _ Hv HC K2') as (b2 & K2 & C2).
      destruct (block_components_ok _ _ _ (wf_tensor_block _ _ _ Ht K1) Hv C1) as ((p1 & x1 & o1 & M1) & _).
      destruct (block_components_ok _ _ _ (wf_tensor_block _ _ _ Ht K2) Hv C2) as ((p2 & x2 & o2 & M2) & _).
      exact (moved_components_same _ _ _ _ _ _ _ _ _ _ _ (proj1 (wf_tensor_block _ _ _ Ht K2)) M1 M2 (Hcomp _ _ _ _ K1 K2 E)).
Qed.
