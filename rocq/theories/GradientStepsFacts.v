(* Lemmas about the gradients of tensor maps moved in several steps *)
From Coq Require Import Permutation Sorted.
From Verif Require Import Base BaseFacts Labels Array Block Tensor Spec SpecTensor LabelsFacts ArrayFacts BlockFacts TensorFacts KeysFacts MergeFacts GroupFacts BlocksFacts MergePropertiesFacts MovedFacts StepsFacts CommuteFacts.
Local Open Scope string_scope.
Local Open Scope list_scope.
Local Open Scope nat_scope.

(** * The gradients after a move *)

(* the blocks of [t'] have the gradients of the merged blocks of [t] *)
Record follows (t : TensorMap) (v : list string) (t' : TensorMap) : Prop := {
  fol_old : wf_tensor t;
  fol_new : wf_tensor t';
  fol_from : forall e b', block_of t' e b' -> exists key b, block_of t key b /\ new_key v (labels_names (tm_keys t)) key = e
    /\ forall q g', In (q, g') (tb_gradients b') -> exists g, In (q, g) (tb_gradients b) /\ bb_components g' = bb_components g;
  fol_to : forall key b, block_of t key b -> exists b', block_of t' (new_key v (labels_names (tm_keys t)) key) b'
    /\ forall q g, In (q, g) (tb_gradients b) -> exists g', In (q, g') (tb_gradients b')
}.

Lemma gradients_follow_group t v e k0 b0 others b' :
  wf_tensor t -> group t v e = (k0, b0) :: others -> gradients_follow (group t v e) b' ->
  (exists key, block_of t key b0 /\ new_key v (labels_names (tm_keys t)) key = e)
  /\ (forall q g', In (q, g') (tb_gradients b') -> exists g, In (q, g) (tb_gradients b0) /\ bb_components g' = bb_components g)
  /\ (forall key b, block_of t key b -> forall q g, In (q, g) (tb_gradients b) -> exists g', In (q, g') (tb_gradients b')).
Proof.
  intros Ht Eg Hf. assert (I0 : In (k0, b0) (group t v e)) by (rewrite Eg; left; reflexivity).
  apply in_group_block_of in I0 as (key0 & K0 & E0 & _). rewrite Eg in Hf. destruct Hf as [Hm Hf]. split; [eauto|]. split.
  - intros q g' Hg'. destruct (Hf q g' Hg') as (_ & g0 & G0 & _ & Ec). eauto.
  - intros key b K q g Hg. destruct Ht as (_ & _ & _ & Hh). destruct (Hh b b0 (block_of_In _ _ _ K) (block_of_In _ _ _ K0)) as (_ & _ & _ & Hs & _).
    destruct (Hs q g Hg) as (g0 & G0 & _). apply (in_map fst) in G0. rewrite <- Hm in G0. apply in_map_iff in G0 as ([q' g'] & E & G'). cbn in E. subst q'. eauto.
Qed.

Lemma samples_follow p t keys sort t' : wf_tensor t -> keys_to_samples p t keys sort = (t', Ok tt) -> follows t (labels_names keys) t'.
Proof.
  intros Ht H. destruct (keys_to_samples_blocks _ _ _ _ _ Ht H) as (_ & _ & _ & Hb & Hk). constructor.
  - exact Ht.
  - apply (keys_to_samples_wf _ _ _ _ _ Ht H).
  - intros e b' K'. destruct (Hb _ _ K') as (k0 & b0 & others & Eg & M).
    destruct (gradients_follow_group _ _ _ _ _ _ _ Ht Eg (sam_gradients _ _ _ _ _ _ _ M)) as ((key & K & E) & G & _). exists key, b0. auto.
  - intros key b K. destruct (Hk _ _ K) as (b' & K'). exists b'. split; [exact K'|]. destruct (Hb _ _ K') as (k0 & b0 & others & Eg & M).
    destruct (gradients_follow_group _ _ _ _ _ _ _ Ht Eg (sam_gradients _ _ _ _ _ _ _ M)) as (_ & _ & G). exact (G key b K).
Qed.

Lemma properties_follow p t keys sort t' : wf_tensor t -> wf_labels keys -> rows keys = [] -> keys_to_properties p t keys sort = (t', Ok tt) ->
  follows t (labels_names keys) t'.
Proof.
  intros Ht Hkeys Hr H. destruct (keys_to_properties_blocks _ _ _ _ _ Ht Hkeys (or_introl Hr) H) as (_ & _ & _ & Hb & Hk). constructor.
  - exact Ht.
  - apply (keys_to_properties_wf _ _ _ _ _ Ht Hkeys (or_introl Hr) H).
  - intros e b' K'. destruct (Hb _ _ K') as (k0 & b0 & others & Eg & M).
    destruct (gradients_follow_group _ _ _ _ _ _ _ Ht Eg (pro_gradients _ _ _ _ _ _ _ M)) as ((key & K & E) & G & _). exists key, b0. auto.
  - intros key b K. destruct (Hk _ _ K) as (b' & K'). exists b'. split; [exact K'|]. destruct (Hb _ _ K') as (k0 & b0 & others & Eg & M).
    destruct (gradients_follow_group _ _ _ _ _ _ _ Ht Eg (pro_gradients _ _ _ _ _ _ _ M)) as (_ & _ & G). exact (G key b K).
Qed.

(* the components of the gradients of a block and of the merged block *)
Lemma follows_components t v t' : follows t v t' -> agreeing_groups t v ->
  forall key b b' q g g', block_of t key b -> block_of t' (new_key v (labels_names (tm_keys t)) key) b' ->
    In (q, g) (tb_gradients b) -> In (q, g') (tb_gradients b') -> Forall2 same_labels (bb_components g) (bb_components g').
Proof.
  intros F Hag key b b' q g g' K K' G G'. destruct (fol_from _ _ _ F _ _ K') as (key0 & b0 & K0 & E & Hg).
  destruct (Hg q g' G') as (g0 & G0 & ->). exact (Hag key b key0 b0 K K0 (eq_sym E) q g g0 G G0).
Qed.

Lemma follows_gradient t v t' : follows t v t' -> forall key b q g, block_of t key b -> In (q, g) (tb_gradients b) ->
  exists b' g', block_of t' (new_key v (labels_names (tm_keys t)) key) b' /\ In (q, g') (tb_gradients b').
Proof. intros F key b q g K G. destruct (fol_to _ _ _ F _ _ K) as (b' & K' & Hg). destruct (Hg q g G) as (g' & G'). eauto. Qed.

Lemma follows_agreeing t v1 ta v2 w : follows t v1 ta ->
  (forall key b, block_of t key b -> new_key v2 (labels_names (tm_keys ta)) (new_key v1 (labels_names (tm_keys t)) key) = new_key w (labels_names (tm_keys t)) key) ->
  (agreeing_groups t w <-> agreeing_groups t v1 /\ agreeing_groups ta v2).
Proof.
  intros F Hn. split.
  - intros Hag. split.
    + intros key1 b1 key2 b2 K1 K2 E. apply (Hag key1 b1 key2 b2 K1 K2). rewrite <- (Hn _ _ K1), <- (Hn _ _ K2), E. reflexivity.
    + intros e1 b1 e2 b2 K1 K2 E q g1 g2 G1 G2.
      destruct (fol_from _ _ _ F _ _ K1) as (key1 & c1 & C1 & <- & F1). destruct (fol_from _ _ _ F _ _ K2) as (key2 & c2 & C2 & <- & F2).
      destruct (F1 q g1 G1) as (h1 & I1 & ->). destruct (F2 q g2 G2) as (h2 & I2 & ->).
      apply (Hag key1 c1 key2 c2 C1 C2) with (q := q); [|assumption|assumption]. rewrite <- (Hn _ _ C1), <- (Hn _ _ C2). exact E.
  - intros [Hag1 Hag2] key1 b1 key2 b2 K1 K2 E q g1 g2 G1 G2.
    destruct (follows_gradient _ _ _ F _ _ _ _ K1 G1) as (c1 & h1 & C1 & I1). destruct (follows_gradient _ _ _ F _ _ _ _ K2 G2) as (c2 & h2 & C2 & I2).
    eapply Forall2_same_trans; [exact (follows_components _ _ _ F Hag1 _ _ _ _ _ _ K1 C1 G1 I1)|].
    eapply Forall2_same_trans; [|apply Forall2_same_sym; exact (follows_components _ _ _ F Hag1 _ _ _ _ _ _ K2 C2 G2 I2)].
    apply (Hag2 _ c1 _ c2 C1 C2) with (q := q); [|assumption|assumption]. rewrite (Hn _ _ K1), (Hn _ _ K2). exact E.
Qed.

Lemma to_properties_gradients p t keys sort t' :
  wf_tensor t -> wf_labels keys -> rows keys = [] -> keys_to_properties p t keys sort = (t', Ok tt) -> agreeing_groups t (labels_names keys) ->
  forall e q s rest cs pr' v,
    tensor_gradient_value t' e q s rest cs pr' v <->
    (exists key pr, tensor_gradient_value t key q s rest cs pr v
       /\ e = new_key (labels_names keys) (labels_names (tm_keys t)) key
       /\ pr' = moved_part (labels_names keys) (labels_names (tm_keys t)) key ++ pr)
    \/ (v = 0%Z
        /\ tensor_gradient_sample t' e q s rest
        /\ (exists b' g js, block_of t' e b' /\ In (q, g) (tb_gradients b') /\ located (bb_components g) js cs
            /\ In pr' (rows (bb_properties (tb_values b'))))
        /\ forall key b pr, block_of t key b ->
             e = new_key (labels_names keys) (labels_names (tm_keys t)) key ->
             pr' = moved_part (labels_names keys) (labels_names (tm_keys t)) key ++ pr ->
             gradient_sample b q s rest -> ~ In pr (rows (bb_properties (tb_values b)))).
Proof.
  intros Ht Hkeys Hr H Hag e q s rest cs pr' v.
  rewrite (keys_to_properties_gradients _ _ _ _ _ Ht Hkeys (or_introl Hr) H (or_intror Hag)).
  apply or_iff_both; [|apply and_iff_compat_l, and_iff_compat_l, and_iff_compat_l].
  - split; intros (key & pr & H1 & H2); exists key, pr; intuition auto using requested_all.
  - split; intros H1 key b pr; [intros H2; apply (H1 key b pr H2); auto using requested_all|intros H2 _; apply (H1 key b pr H2)].
Qed.

Lemma gradient_sample_block t key b q s rest : wf_tensor t -> block_of t key b -> (tensor_gradient_sample t key q s rest <-> gradient_sample b q s rest).
Proof.
  intros Ht K. split.
  - intros (b0 & K0 & H). rewrite (block_of_unique _ _ _ _ Ht K K0). exact H.
  - intros H. exists b. auto.
Qed.

(** * Moves to the samples and to the properties *)

Section CommuteGradients.
  Variables (p : profile) (t ta tab tb tba : TensorMap) (k1 k2 : Labels) (sort1 sort2 sort3 sort4 : bool).
  Hypothesis (Ht : wf_tensor t) (Hk2 : wf_labels k2) (Hr2 : rows k2 = [])
    (HA : keys_to_samples p t k1 sort1 = (ta, Ok tt)) (HAB : keys_to_properties p ta k2 sort2 = (tab, Ok tt))
    (HB : keys_to_properties p t k2 sort3 = (tb, Ok tt)) (HBA : keys_to_samples p tb k1 sort4 = (tba, Ok tt))
    (Hd : forall n, In n (labels_names k1) -> ~ In n (labels_names k2))
    (Hag : agreeing_groups t (labels_names k1 ++ labels_names k2)).

  Let v1 := labels_names k1.
  Let v2 := labels_names k2.
  Let names := labels_names (tm_keys t).
  Let both key := new_key (v1 ++ v2) names key.

  Let Hta : wf_tensor ta := commute_wfa _ _ _ _ _ Ht HA.
  Let Htb : wf_tensor tb := commute_wfb _ _ _ _ _ Ht Hk2 Hr2 HB.
  Let Htab : wf_tensor tab := proj1 (keys_to_properties_wf _ _ _ _ _ Hta Hk2 (or_introl Hr2) HAB).
  Let Htba : wf_tensor tba := proj1 (keys_to_samples_wf _ _ _ _ _ Htb HBA).
  Let Fa : follows t v1 ta := samples_follow _ _ _ _ _ Ht HA.
  Let Fb : follows t v2 tb := properties_follow _ _ _ _ _ Ht Hk2 Hr2 HB.
  Let Fab : follows ta v2 tab := properties_follow _ _ _ _ _ Hta Hk2 Hr2 HAB.
  Let Fba : follows tb v1 tba := samples_follow _ _ _ _ _ Htb HBA.

  Lemma cg_keya key b : block_of t key b -> new_key v2 (labels_names (tm_keys ta)) (new_key v1 names key) = both key.
  Proof. intros K. exact (commute_keya _ _ _ _ _ _ _ _ Ht Hk2 Hr2 HA HB Hd key (key_length _ _ _ Ht K)). Qed.
  Lemma cg_keyb key b : block_of t key b -> new_key v1 (labels_names (tm_keys tb)) (new_key v2 names key) = both key.
  Proof. intros K. exact (commute_keyb _ _ _ _ _ _ _ _ Ht HA HB Hd key (key_length _ _ _ Ht K)). Qed.
  Lemma cg_moveda key b : block_of t key b -> moved_part v2 (labels_names (tm_keys ta)) (new_key v1 names key) = moved_part v2 names key.
  Proof. intros K. exact (commute_moveda _ _ _ _ _ _ _ _ Ht Hk2 Hr2 HA HB Hd key (key_length _ _ _ Ht K)). Qed.
  Lemma cg_movedb key b : block_of t key b -> moved_part v1 (labels_names (tm_keys tb)) (new_key v2 names key) = moved_part v1 names key.
  Proof. intros K. exact (commute_movedb _ _ _ _ _ _ _ _ Ht HA HB Hd key (key_length _ _ _ Ht K)). Qed.

  Lemma cg_agreea : agreeing_groups t v1 /\ agreeing_groups ta v2.
  Proof. apply (follows_agreeing t v1 ta v2 (v1 ++ v2) Fa); [|exact Hag]. intros key b K. exact (cg_keya _ _ K). Qed.
  Lemma cg_agreeb : agreeing_groups t v2 /\ agreeing_groups tb v1.
  Proof. apply (follows_agreeing t v2 tb v1 (v1 ++ v2) Fb); [|exact Hag]. intros key b K. exact (cg_keyb _ _ K). Qed.

  Definition moved_gradient e q s' rest cs pr' v : Prop :=
    exists key s pr, tensor_gradient_value t key q s rest cs pr v /\ e = both key /\ s' = s ++ moved_part v1 names key /\ pr' = moved_part v2 names key ++ pr.

  Definition filled_gradient e q s' rest cs pr' v : Prop :=
    v = 0%Z
    /\ (exists key b s, block_of t key b /\ e = both key /\ gradient_sample b q s rest /\ s' = s ++ moved_part v1 names key)
    /\ (exists key b g js, block_of t key b /\ e = both key /\ In (q, g) (tb_gradients b) /\ located (bb_components g) js cs)
    /\ (exists key b pr, block_of t key b /\ e = both key /\ In pr (rows (bb_properties (tb_values b))) /\ pr' = moved_part v2 names key ++ pr)
    /\ (forall key b s pr, block_of t key b -> e = both key -> gradient_sample b q s rest -> s' = s ++ moved_part v1 names key ->
          pr' = moved_part v2 names key ++ pr -> ~ In pr (rows (bb_properties (tb_values b)))).

  Lemma cg_samplea ea ba q s' rest : block_of ta ea ba ->
    (gradient_sample ba q s' rest <-> exists key b s, block_of t key b /\ new_key v1 names key = ea /\ gradient_sample b q s rest /\ s' = s ++ moved_part v1 names key).
  Proof.
    intros K. rewrite <- (gradient_sample_block _ _ _ _ _ _ Hta K), (keys_to_samples_gradient_samples _ _ _ _ _ Ht HA). split.
    - intros (key & s & (b & Kb & Hs) & -> & ->). exists key, b, s. auto.
    - intros (key & b & s & Kb & <- & Hs & ->). exists key, s. split; [exists b; auto|auto].
  Qed.

  Lemma cg_sampleb eb bb q s rest : block_of tb eb bb ->
    (gradient_sample bb q s rest <-> exists key b, block_of t key b /\ new_key v2 names key = eb /\ gradient_sample b q s rest).
  Proof.
    intros K. rewrite <- (gradient_sample_block _ _ _ _ _ _ Htb K), (keys_to_properties_gradient_samples _ _ _ _ _ Ht Hk2 (or_introl Hr2) HB). split.
    - intros (key & (b & Kb & Hs) & ->). exists key, b. auto.
    - intros (key & b & Kb & <- & Hs). exists key. split; [exists b; auto|auto].
  Qed.

  Lemma cg_ab e q s' rest cs pr' v : tensor_gradient_value tab e q s' rest cs pr' v <-> moved_gradient e q s' rest cs pr' v \/ filled_gradient e q s' rest cs pr' v.
  Proof.
    destruct cg_agreea as [Ag1 Ag2].
    rewrite (to_properties_gradients _ _ _ _ _ Hta Hk2 Hr2 HAB Ag2). apply or_iff_both.
    - split.
      + intros (ea & pr & K & -> & ->). apply (keys_to_samples_gradients _ _ _ _ _ Ht HA (or_intror Ag1)) in K as (key & s & K & -> & ->).
        assert (Kb : exists b, block_of t key b) by (destruct K as (b & K & _); eauto). destruct Kb as (b & Kb).
        exists key, s, pr. split; [exact K|]. split; [exact (cg_keya _ _ Kb)|]. split; [reflexivity|]. f_equal. exact (cg_moveda _ _ Kb).
      + intros (key & s & pr & K & -> & -> & ->).
        assert (Kb : exists b, block_of t key b) by (destruct K as (b & K & _); eauto). destruct Kb as (b & Kb).
        exists (new_key v1 names key), pr. split; [|split; [symmetry; exact (cg_keya _ _ Kb)|f_equal; symmetry; exact (cg_moveda _ _ Kb)]].
        apply (keys_to_samples_gradients _ _ _ _ _ Ht HA (or_intror Ag1)). exists key, s. auto.
    - unfold filled_gradient. apply and_iff_compat_l. split.
      + intros [Hs [(bab & g & js & Kab & G & Hc & Hp) Hnot]]. split; [|split; [|split]].
        * apply (keys_to_properties_gradient_samples _ _ _ _ _ Hta Hk2 (or_introl Hr2) HAB) in Hs as (ea & (ba & Ka & Hs) & ->).
          apply (cg_samplea _ _ _ _ _ Ka) in Hs as (key & b & s & K & <- & Hs & ->).
          exists key, b, s. split; [exact K|]. split; [exact (cg_keya _ _ K)|auto].
        * destruct (fol_from _ _ _ Fab _ _ Kab) as (ea & ba & Ka & <- & F1). destruct (F1 q g G) as (ga & Ga & Ec). rewrite Ec in Hc.
          destruct (fol_from _ _ _ Fa _ _ Ka) as (key & b & K & <- & F2). destruct (F2 q ga Ga) as (g0 & G0 & Ec0). rewrite Ec0 in Hc.
          exists key, b, g0, js. split; [exact K|]. split; [exact (cg_keya _ _ K)|auto].
        * apply (propertiesab _ _ _ _ _ _ _ _ Ht Hk2 Hr2 HA HAB _ _ _ Kab) in Hp as (ea & ba & pr & Ka & <- & Hp & ->).
          destruct (commute_blocka _ _ _ _ _ Ht HA _ _ Ka) as (key & b & K & <- & _ & [_ Hpp]).
          exists key, b, pr. split; [exact K|]. split; [exact (cg_keya _ _ K)|]. rewrite Hpp. split; [exact Hp|]. f_equal. exact (cg_moveda _ _ K).
        * intros key b s pr K -> Hs' -> -> Hpr. destruct (block_a _ _ _ _ _ Ht HA _ _ K) as (ba & Ka).
          destruct (steps_group _ _ _ _ _ Ht HA _ _ _ _ Ka K eq_refl) as [_ [_ Hpp]].
          apply (Hnot _ ba pr Ka).
          -- symmetry. exact (cg_keya _ _ K).
          -- f_equal. symmetry. exact (cg_moveda _ _ K).
          -- apply (cg_samplea _ _ _ _ _ Ka). exists key, b, s. auto.
          -- rewrite <- Hpp. exact Hpr.
      + intros ((key & b & s & K & He & Hs & Es) & (keyc & bc & g & js & Kc & Hec & G & Hc) & (keyp & bp & pr & Kp & Hep & Hp & Ep) & Hnot).
        destruct (block_a _ _ _ _ _ Ht HA _ _ K) as (ba & Ka). destruct (block_a _ _ _ _ _ Ht HA _ _ Kp) as (bap & Kap).
        fold v1 names in Ka, Kap. split; [|split].
        * apply (keys_to_properties_gradient_samples _ _ _ _ _ Hta Hk2 (or_introl Hr2) HAB). exists (new_key v1 names key).
          split; [|rewrite He; symmetry; exact (cg_keya _ _ K)]. exists ba. split; [exact Ka|]. apply (cg_samplea _ _ _ _ _ Ka). exists key, b, s. auto.
        * destruct (follows_gradient _ _ _ Fa _ _ _ _ Kc G) as (bac & ga & Kac & Ga). destruct (follows_gradient _ _ _ Fab _ _ _ _ Kac Ga) as (bab & gab & Kab & Gab).
          pose proof (follows_components _ _ _ Fa Ag1 _ _ _ _ _ _ Kc Kac G Ga) as C1. pose proof (follows_components _ _ _ Fab Ag2 _ _ _ _ _ _ Kac Kab Ga Gab) as C2.
          fold names in Kab. rewrite (cg_keya _ _ Kc), <- Hec in Kab. exists bab, gab, js. split; [exact Kab|]. split; [exact Gab|]. split.
          -- apply (located_same _ _ C2), (located_same _ _ C1). exact Hc.
          -- apply (propertiesab _ _ _ _ _ _ _ _ Ht Hk2 Hr2 HA HAB _ _ _ Kab). exists (new_key v1 names keyp), bap, pr. split; [exact Kap|].
             split; [rewrite Hep; exact (cg_keya _ _ Kp)|].
             rewrite <- (proj2 (proj2 (steps_group _ _ _ _ _ Ht HA _ _ _ _ Kap Kp eq_refl))). split; [exact Hp|]. rewrite Ep. f_equal. symmetry. exact (cg_moveda _ _ Kp).
        * intros ea ba0 pr0 Ka0 Hea Epr Hs0 Hpr0. apply (cg_samplea _ _ _ _ _ Ka0) in Hs0 as (key0 & b0 & s0 & K0 & <- & Hs0 & Es0).
          apply (Hnot key0 b0 s0 pr0 K0).
          -- rewrite Hea. exact (cg_keya _ _ K0).
          -- exact Hs0.
          -- exact Es0.
          -- rewrite Epr. f_equal. exact (cg_moveda _ _ K0).
          -- rewrite (proj2 (proj2 (steps_group _ _ _ _ _ Ht HA _ _ _ _ Ka0 K0 eq_refl))). exact Hpr0.
  Qed.

  Lemma cg_ba e q s' rest cs pr' v : tensor_gradient_value tba e q s' rest cs pr' v <-> moved_gradient e q s' rest cs pr' v \/ filled_gradient e q s' rest cs pr' v.
  Proof.
    destruct cg_agreeb as [Ag2 Ag1].
    rewrite (keys_to_samples_gradients _ _ _ _ _ Htb HBA (or_intror Ag1)). split.
    - intros (eb & s & K & He & Es).
      apply (to_properties_gradients _ _ _ _ _ Ht Hk2 Hr2 HB Ag2) in K as [(key & pr & K & -> & ->)|(-> & Hs & (bb & g & js & Kb & G & Hc & Hp) & Hnot)].
      + left. assert (Kb : exists b, block_of t key b) by (destruct K as (b & K & _); eauto). destruct Kb as (b & Kb).
        exists key, s, pr. split; [exact K|]. split; [rewrite He; exact (cg_keyb _ _ Kb)|]. split; [|reflexivity]. rewrite Es. f_equal. exact (cg_movedb _ _ Kb).
      + right. split; [reflexivity|]. apply (gradient_sample_block _ _ _ _ _ _ Htb Kb) in Hs. split; [|split; [|split]].
        * apply (cg_sampleb _ _ _ _ _ Kb) in Hs as (key & b & K & <- & Hs). exists key, b, s. split; [exact K|].
          split; [rewrite He; exact (cg_keyb _ _ K)|]. split; [exact Hs|]. rewrite Es. f_equal. exact (cg_movedb _ _ K).
        * destruct (fol_from _ _ _ Fb _ _ Kb) as (key & b & K & <- & F1). destruct (F1 q g G) as (g0 & G0 & Ec). rewrite Ec in Hc.
          exists key, b, g0, js. split; [exact K|]. split; [rewrite He; exact (cg_keyb _ _ K)|auto].
        * apply (propertiesb _ _ _ _ _ Ht Hk2 Hr2 HB _ _ _ Kb) in Hp as (key & b & pr & K & <- & Hp & ->). exists key, b, pr. split; [exact K|].
          split; [rewrite He; exact (cg_keyb _ _ K)|]. auto.
        * intros key0 b0 s0 pr0 K0 He0 Hs0 Es0 Ep0. destruct (block_b _ _ _ _ _ Ht Hk2 Hr2 HB _ _ K0) as (bb0 & Kb0).
          destruct (moved_sample_unique tb (labels_names k1) eb bb s (new_key v2 names key0) bb0 s0 Htb Kb Kb0) as [-> ->].
          -- rewrite <- He, He0. symmetry. exact (cg_keyb _ _ K0).
          -- rewrite <- Es, Es0. f_equal. symmetry. exact (cg_movedb _ _ K0).
          -- exact (Hnot key0 b0 pr0 K0 eq_refl Ep0 Hs0).
    - intros [(key & s & pr & K & -> & -> & ->)|(-> & (key & b & s & K & He & Hs & Es) & (keyc & bc & g & js & Kc & Hec & G & Hc) & (keyp & bp & pr & Kp & Hep & Hp & Ep) & Hnot)].
      + assert (Kb : exists b, block_of t key b) by (destruct K as (b & K & _); eauto). destruct Kb as (b & Kb).
        exists (new_key v2 names key), s. split; [|split; [symmetry; exact (cg_keyb _ _ Kb)|f_equal; symmetry; exact (cg_movedb _ _ Kb)]].
        apply (to_properties_gradients _ _ _ _ _ Ht Hk2 Hr2 HB Ag2). left. exists key, pr. auto.
      + destruct (block_b _ _ _ _ _ Ht Hk2 Hr2 HB _ _ Kp) as (bbp & Kbp). fold v2 names in Kbp.
        assert (Hgs : exists gs, In (q, gs) (tb_gradients b)) by (destruct Hs as (i & gs & _ & Gs & _); eauto). destruct Hgs as (gs & Gs).
        destruct (follows_gradient _ _ _ Fb _ _ _ _ K Gs) as (bb & gb & Kb & Gb). destruct (follows_gradient _ _ _ Fb _ _ _ _ Kc G) as (bbc & gbc & Kbc & Gbc).
        fold names in Kb, Kbc.
        assert (E1 : new_key v1 (labels_names (tm_keys tb)) (new_key v2 names key) = e) by (rewrite He; exact (cg_keyb _ _ K)).
        assert (E2 : new_key v1 (labels_names (tm_keys tb)) (new_key v2 names keyc) = e) by (rewrite Hec; exact (cg_keyb _ _ Kc)).
        assert (E3 : new_key v1 (labels_names (tm_keys tb)) (new_key v2 names keyp) = e) by (rewrite Hep; exact (cg_keyb _ _ Kp)).
        destruct (block_ba _ _ _ _ _ _ _ _ Ht Hk2 Hr2 HB HBA _ _ Kb) as (bba & Kba). fold v1 in Kba. rewrite E1 in Kba.
        destruct (commute_merged_ba _ _ _ _ _ _ _ _ Ht Hk2 Hr2 HB HBA _ _ _ _ Kba Kb E1) as [_ [_ P1]].
        destruct (commute_merged_ba _ _ _ _ _ _ _ _ Ht Hk2 Hr2 HB HBA _ _ _ _ Kba Kbp E3) as [_ [_ P3]].
        exists (new_key v2 names key), s. split; [|split; [symmetry; exact E1|rewrite Es; f_equal; symmetry; exact (cg_movedb _ _ K)]].
        apply (to_properties_gradients _ _ _ _ _ Ht Hk2 Hr2 HB Ag2). right. split; [reflexivity|]. split; [|split].
        * exists bb. split; [exact Kb|]. apply (cg_sampleb _ _ _ _ _ Kb). exists key, b. auto.
        * exists bb, gb, js. split; [exact Kb|]. split; [exact Gb|]. split.
          -- pose proof (follows_components _ _ _ Fb Ag2 _ _ _ _ _ _ Kc Kbc G Gbc) as C1.
             pose proof (Ag1 _ bb _ bbc Kb Kbc (eq_trans E1 (eq_sym E2)) q gb gbc Gb Gbc) as C2.
             apply (located_same _ _ C2), (located_same _ _ C1). exact Hc.
          -- rewrite P1, <- P3. apply (propertiesb _ _ _ _ _ Ht Hk2 Hr2 HB _ _ _ Kbp). exists keyp, bp, pr. auto.
        * intros key0 b0 pr0 K0 Hk0 Ep0 Hs0. fold v2 names in Hk0. apply (Hnot key0 b0 s pr0 K0).
          -- rewrite He, <- (cg_keyb _ _ K), Hk0. exact (cg_keyb _ _ K0).
          -- exact Hs0.
          -- rewrite Es, <- (cg_movedb _ _ K), Hk0. f_equal. exact (cg_movedb _ _ K0).
          -- exact Ep0.
  Qed.
End CommuteGradients.

Lemma gradient_sample_dec b q s rest : {gradient_sample b q s rest} + {~ gradient_sample b q s rest}.
Proof.
  set (P i (qg : string * BasicBlock) := nth_error (rows (bb_samples (tb_values b))) i = Some s /\ fst qg = q /\ In (Z.of_nat i :: rest) (rows (bb_samples (snd qg)))).
  assert (Hdec : forall i qg, {P i qg} + {~ P i qg}).
  { intros i qg. unfold P. assert (Hz := list_eq_dec Z.eq_dec).
    destruct (nth_error (rows (bb_samples (tb_values b))) i) as [s0|]; [|right; intros [H _]; discriminate H].
    destruct (Hz s0 s) as [->|Hne]; [|right; intros [H _]; injection H as H; contradiction].
    destruct (string_dec (fst qg) q) as [->|Hne]; [|right; intros (_ & H & _); contradiction].
    destruct (in_dec Hz (Z.of_nat i :: rest) (rows (bb_samples (snd qg)))) as [Hi|Hi]; [left; auto|right; intros (_ & _ & H); contradiction]. }
  destruct (Exists_dec (fun i => Exists (P i) (tb_gradients b)) (seq 0 (length (rows (bb_samples (tb_values b)))))) as [H|H].
  { intros i. apply Exists_dec. apply Hdec. }
  - left. apply Exists_exists in H as (i & _ & H). apply Exists_exists in H as ([q' g] & Hg & H1 & H2 & H3). cbn in H2, H3. subst q'. exists i, g. auto.
  - right. intros (i & g & H1 & H2 & H3). apply H. apply Exists_exists. exists i. split.
    + apply in_seq. assert (i < length (rows (bb_samples (tb_values b)))) by (apply nth_error_Some; congruence). lia.
    + apply Exists_exists. exists (q, g). split; [exact H2|]. unfold P. auto.
Qed.

(** * Two moves to the properties *)

Section TwiceGradients.
  Variables (p : profile) (t ta t2 t' : TensorMap) (k1 k2 k : Labels) (sort1 sort2 sort : bool).
  Hypothesis (Ht : wf_tensor t) (Hk1 : wf_labels k1) (Hk2 : wf_labels k2) (Hwk : wf_labels k)
    (Hr1 : rows k1 = []) (Hr2 : rows k2 = []) (Hr : rows k = [])
    (HA : keys_to_properties p t k1 sort1 = (ta, Ok tt)) (H2 : keys_to_properties p ta k2 sort2 = (t2, Ok tt))
    (H : keys_to_properties p t k sort = (t', Ok tt))
    (Hk : labels_names k = labels_names k2 ++ labels_names k1)
    (Ho : in_key_order (labels_names k) (labels_names (tm_keys t)))
    (Hag : agreeing_groups t (labels_names k)).

  Let v1 := labels_names k1.
  Let v2 := labels_names k2.
  Let names := labels_names (tm_keys t).
  Let both key := new_key (labels_names k) names key.

  Let Hta : wf_tensor ta := twice_wf _ _ _ _ _ Ht Hk1 Hr1 HA.
  Let Fa : follows t v1 ta := properties_follow _ _ _ _ _ Ht Hk1 Hr1 HA.
  Let F2 : follows ta v2 t2 := properties_follow _ _ _ _ _ Hta Hk2 Hr2 H2.
  Let F' : follows t (labels_names k) t' := properties_follow _ _ _ _ _ Ht Hwk Hr H.

  Lemma tg_key key b : block_of t key b -> new_key v2 (labels_names (tm_keys ta)) (new_key v1 names key) = both key.
  Proof. intros K. exact (twice_key _ _ _ _ _ _ _ _ _ Ht Hk2 HA H2 Hk Ho key (key_length _ _ _ Ht K)). Qed.

  Lemma tg_moved key b : block_of t key b ->
    moved_part v2 (labels_names (tm_keys ta)) (new_key v1 names key) ++ moved_part v1 names key = moved_part (labels_names k) names key.
  Proof. intros K. exact (twice_moved _ _ _ _ _ _ _ _ _ Ht Hk2 HA H2 Hk Ho key (key_length _ _ _ Ht K)). Qed.

  Lemma tg_agree : agreeing_groups t v1 /\ agreeing_groups ta v2.
  Proof. apply (follows_agreeing t v1 ta v2 (labels_names k) Fa); [|exact Hag]. intros key b K. exact (tg_key _ _ K). Qed.

  Lemma tg_sample x kx sortx tx ex bx q s rest : wf_tensor x -> wf_labels kx -> rows kx = [] -> keys_to_properties p x kx sortx = (tx, Ok tt) -> block_of tx ex bx ->
    (gradient_sample bx q s rest <-> exists key b, block_of x key b /\ new_key (labels_names kx) (labels_names (tm_keys x)) key = ex /\ gradient_sample b q s rest).
  Proof. intros Hx Hkx Hrx HX K. exact (cg_sampleb _ _ _ _ _ Hx Hkx Hrx HX _ _ _ _ _ K). Qed.

  Lemma tg_gradients e q s rest cs pr' v : tensor_gradient_value t2 e q s rest cs pr' v <-> tensor_gradient_value t' e q s rest cs pr' v.
  Proof.
    destruct tg_agree as [Ag1 Ag2].
    rewrite (to_properties_gradients _ _ _ _ _ Hta Hk2 Hr2 H2 Ag2), (to_properties_gradients _ _ _ _ _ Ht Hwk Hr H Hag).
    rewrite <- (twice_gradient_samples _ _ _ _ _ _ _ _ _ _ _ Ht Hk1 Hk2 Hwk Hr1 Hr2 Hr HA H2 H Hk Ho).
    fold v2 names. split.
    - intros [(ea & pra & K & -> & ->)|(-> & Hs & (b2 & g2 & js & K2 & G2 & Hc & Hp) & Hnot)].
      + apply (to_properties_gradients _ _ _ _ _ Ht Hk1 Hr1 HA Ag1) in K as [(key & pr & K & -> & ->)|(-> & Hs & (ba & ga & js & Ka & Ga & Hc & Hp) & Hnot)].
        * left. assert (Kb : exists b, block_of t key b) by (destruct K as (b & K & _); eauto). destruct Kb as (b & Kb).
          exists key, pr. split; [exact K|]. split; [exact (tg_key _ _ Kb)|]. rewrite app_assoc. f_equal. exact (tg_moved _ _ Kb).
        * right. split; [reflexivity|]. split; [|split].
          -- apply (keys_to_properties_gradient_samples _ _ _ _ _ Hta Hk2 (or_introl Hr2) H2). exists ea. auto.
          -- destruct (fol_from _ _ _ Fa _ _ Ka) as (key0 & b0 & K0 & E0 & Hf). destruct (Hf q ga Ga) as (g0 & G0 & Ec). rewrite Ec in Hc.
             destruct (follows_gradient _ _ _ F' _ _ _ _ K0 G0) as (b' & g' & K' & G').
             pose proof (follows_components _ _ _ F' Hag _ _ _ _ _ _ K0 K' G0 G') as C.
             assert (E' : new_key v2 (labels_names (tm_keys ta)) ea = both key0) by (rewrite <- E0; exact (tg_key _ _ K0)).
             rewrite E'. exists b', g', js. split; [exact K'|]. split; [exact G'|]. split; [apply (located_same _ _ C); exact Hc|].
             apply (propertiesb _ _ _ _ _ Ht Hk1 Hr1 HA _ _ _ Ka) in Hp as (key & b & pr & K & E & Hp & ->).
             apply (propertiesb _ _ _ _ _ Ht Hwk Hr H _ _ _ K'). exists key, b, pr. split; [exact K|].
             split; [fold names; fold (both key); fold (both key0); rewrite <- E', <- E; symmetry; exact (tg_key _ _ K)|]. split; [exact Hp|].
             rewrite <- E, app_assoc. f_equal. exact (tg_moved _ _ K).
          -- intros key b pr K He Ep Hsb. destruct (block_b _ _ _ _ _ Ht Hk1 Hr1 HA _ _ K) as (bx & Kx).
             fold v1 names in Kx. destruct (moved_property_unique ta v2 ea ba pra (new_key v1 names key) bx (moved_part v1 names key ++ pr) Hta Ka Kx) as [-> ->].
             ++ rewrite He. symmetry. exact (tg_key _ _ K).
             ++ rewrite Ep, app_assoc. f_equal. symmetry. exact (tg_moved _ _ K).
             ++ exact (Hnot key b pr K eq_refl eq_refl Hsb).
      + right. split; [reflexivity|]. split; [exact Hs|]. split.
        * destruct (fol_from _ _ _ F2 _ _ K2) as (ea & ba & Ka & E & Hf). destruct (Hf q g2 G2) as (ga & Ga & Ec). rewrite Ec in Hc.
          destruct (fol_from _ _ _ Fa _ _ Ka) as (key0 & b0 & K0 & E0 & Hf0). destruct (Hf0 q ga Ga) as (g0 & G0 & Ec0). rewrite Ec0 in Hc.
          destruct (follows_gradient _ _ _ F' _ _ _ _ K0 G0) as (b' & g' & K' & G').
          pose proof (follows_components _ _ _ F' Hag _ _ _ _ _ _ K0 K' G0 G') as C.
          assert (E' : e = both key0) by (rewrite <- E, <- E0; exact (tg_key _ _ K0)). fold names in K'. fold (both key0) in K'. rewrite <- E' in K'.
          exists b', g', js. split; [exact K'|]. split; [exact G'|]. split; [apply (located_same _ _ C); exact Hc|].
          apply (propertiesb _ _ _ _ _ Hta Hk2 Hr2 H2 _ _ _ K2) in Hp as (ea1 & ba1 & pra & Ka1 & Ee & Hp & ->).
          apply (propertiesb _ _ _ _ _ Ht Hk1 Hr1 HA _ _ _ Ka1) in Hp as (key & b & pr & K & Ek & Hp & ->). apply (propertiesb _ _ _ _ _ Ht Hwk Hr H _ _ _ K').
          exists key, b, pr. split; [exact K|]. split; [rewrite <- Ee, <- Ek; symmetry; exact (tg_key _ _ K)|]. split; [exact Hp|].
          rewrite <- Ek, app_assoc. f_equal. exact (tg_moved _ _ K).
        * intros key b pr K He Ep Hsb Hpb. destruct (block_b _ _ _ _ _ Ht Hk1 Hr1 HA _ _ K) as (bx & Kx).
          fold v1 names in Kx. apply (Hnot (new_key v1 names key) bx (moved_part v1 names key ++ pr) Kx).
          -- rewrite He. symmetry. exact (tg_key _ _ K).
          -- rewrite Ep, app_assoc. f_equal. symmetry. exact (tg_moved _ _ K).
          -- apply (tg_sample _ _ _ _ _ _ _ _ _ Ht Hk1 Hr1 HA Kx). exists key, b. auto.
          -- apply (propertiesb _ _ _ _ _ Ht Hk1 Hr1 HA _ _ _ Kx). exists key, b, pr. auto.
    - intros [(key & pr & K & -> & ->)|(-> & Hs & (b' & g' & js & K' & G' & Hc & Hp) & Hnot)].
      + left. assert (Kb : exists b, block_of t key b) by (destruct K as (b & K & _); eauto). destruct Kb as (b & Kb).
        exists (new_key v1 names key), (moved_part v1 names key ++ pr). split; [|split; [symmetry; exact (tg_key _ _ Kb)|]].
        * apply (to_properties_gradients _ _ _ _ _ Ht Hk1 Hr1 HA Ag1). left. exists key, pr. auto.
        * rewrite app_assoc. f_equal. symmetry. exact (tg_moved _ _ Kb).
      + apply (propertiesb _ _ _ _ _ Ht Hwk Hr H _ _ _ K') in Hp as (keyp & bp & pr & Kp & Ep & Hp & ->). fold names in Ep. fold (both keyp) in Ep.
        destruct (fol_to _ _ _ Fa _ _ Kp) as (bap & Kap & Hgp). fold names in Kap.
        (* the gradient of [b'] comes from a block [bc], and [bp] has it as well *)
        destruct (fol_from _ _ _ F' _ _ K') as (keyc & bc & Kc & Ec & Hf). destruct (Hf q g' G') as (gc & Gc & Ecc). fold names in Ec. fold (both keyc) in Ec.
        assert (Hgb : exists gp, In (q, gp) (tb_gradients bp)).
        { pose proof Ht as (_ & _ & _ & Hh). destruct (Hh bc bp (block_of_In _ _ _ Kc) (block_of_In _ _ _ Kp)) as (_ & _ & _ & Hx & _). destruct (Hx q gc Gc) as (gp & Gp & _). eauto. }
        destruct Hgb as (gp & Gp). destruct (Hgp q gp Gp) as (gap & Gap).
        assert (Hca : located (bb_components gap) js cs).
        { apply (located_same _ _ (follows_components _ _ _ Fa Ag1 _ _ _ _ _ _ Kp Kap Gp Gap)).
          rewrite <- Ep in K'. apply (located_same _ _ (follows_components _ _ _ F' Hag _ _ _ _ _ _ Kp K' Gp G')). exact Hc. }
        assert (Hpa : In (moved_part v1 names keyp ++ pr) (rows (bb_properties (tb_values bap)))) by (apply (propertiesb _ _ _ _ _ Ht Hk1 Hr1 HA _ _ _ Kap); exists keyp, bp, pr; auto).
        assert (Epp : moved_part (labels_names k) names keyp ++ pr = moved_part v2 (labels_names (tm_keys ta)) (new_key v1 names keyp) ++ moved_part v1 names keyp ++ pr)
          by (rewrite app_assoc; f_equal; symmetry; exact (tg_moved _ _ Kp)).
        assert (Epe : new_key v2 (labels_names (tm_keys ta)) (new_key v1 names keyp) = e) by (rewrite <- Ep; exact (tg_key _ _ Kp)).
        destruct (gradient_sample_dec bap q s rest) as [Hin|Hin].
        * left. exists (new_key v1 names keyp), (moved_part v1 names keyp ++ pr). split; [|split; [symmetry; exact Epe|exact Epp]].
          apply (to_properties_gradients _ _ _ _ _ Ht Hk1 Hr1 HA Ag1). right. split; [reflexivity|]. split; [exists bap; auto|]. split; [exists bap, gap, js; auto|].
          intros key b pr0 K Ek Epr Hsb. fold v1 names in Ek, Epr. apply (Hnot key b pr0 K); [| |exact Hsb].
          -- rewrite <- Epe, Ek. exact (tg_key _ _ K).
          -- refine (eq_trans Epp _). rewrite Epr, Ek, app_assoc. f_equal. exact (tg_moved _ _ K).
        * right. split; [reflexivity|]. split; [exact Hs|]. split.
          -- destruct (follows_gradient _ _ _ F2 _ _ _ _ Kap Gap) as (b2 & g2 & K2 & G2).
             pose proof (follows_components _ _ _ F2 Ag2 _ _ _ _ _ _ Kap K2 Gap G2) as C. rewrite Epe in K2.
             exists b2, g2, js. split; [exact K2|]. split; [exact G2|]. split; [apply (located_same _ _ C); exact Hca|].
             apply (propertiesb _ _ _ _ _ Hta Hk2 Hr2 H2 _ _ _ K2). exists (new_key v1 names keyp), bap, (moved_part v1 names keyp ++ pr). auto.
          -- intros ea ba pra Ka Ee Epr Hsb Hpb. apply Hin.
             destruct (moved_property_unique ta v2 (new_key v1 names keyp) bap (moved_part v1 names keyp ++ pr) ea ba pra Hta Kap Ka) as [Eq _].
             ++ rewrite Epe. exact Ee.
             ++ rewrite <- Epr. symmetry. exact Epp.
             ++ rewrite Eq in Kap. rewrite (block_of_unique _ _ _ _ Hta Kap Ka). exact Hsb.
  Qed.
End TwiceGradients.

(** * The moves together *)

Lemma moves_commute_gradients p t ta tab tb tba k1 k2 sort1 sort2 sort3 sort4 :
  wf_tensor t -> wf_labels k2 -> rows k2 = [] ->
  (forall n, In n (labels_names k1) -> ~ In n (labels_names k2)) ->
  keys_to_samples p t k1 sort1 = (ta, Ok tt) -> keys_to_properties p ta k2 sort2 = (tab, Ok tt) ->
  keys_to_properties p t k2 sort3 = (tb, Ok tt) -> keys_to_samples p tb k1 sort4 = (tba, Ok tt) ->
  p = Debug \/ agreeing_groups t (labels_names k1 ++ labels_names k2) ->
  forall e q s rest cs pr v, tensor_gradient_value tab e q s rest cs pr v <-> tensor_gradient_value tba e q s rest cs pr v.
Proof.
  intros Ht Hk2 Hr2 Hd HA HAB HB HBA Hag e q s rest cs pr v.
  assert (Hag' : agreeing_groups t (labels_names k1 ++ labels_names k2)).
  { destruct Hag as [Hp|Hag]; [|exact Hag]. pose proof (commute_wfa _ _ _ _ _ Ht HA) as Hta.
    apply (follows_agreeing t (labels_names k1) ta (labels_names k2)).
    - exact (samples_follow _ _ _ _ _ Ht HA).
    - intros key b K. exact (cg_keya _ _ _ _ _ _ _ _ Ht Hk2 Hr2 HA HB Hd key b K).
    - split; [exact (keys_to_samples_agreeing _ _ _ _ _ Ht HA Hp)|exact (keys_to_properties_agreeing _ _ _ _ _ Hta Hk2 Hr2 HAB Hp)]. }
  rewrite (cg_ab _ _ _ _ _ _ _ _ _ _ Ht Hk2 Hr2 HA HAB HB Hd Hag'), (cg_ba _ _ _ _ _ _ _ _ _ _ Ht Hk2 Hr2 HA HB HBA Hd Hag'). reflexivity.
Qed.

Lemma two_steps_to_properties_gradients p t ta t2 t' k1 k2 k sort1 sort2 sort :
  wf_tensor t -> wf_labels k1 -> wf_labels k2 -> wf_labels k -> rows k1 = [] -> rows k2 = [] -> rows k = [] ->
  keys_to_properties p t k1 sort1 = (ta, Ok tt) -> keys_to_properties p ta k2 sort2 = (t2, Ok tt) ->
  keys_to_properties p t k sort = (t', Ok tt) ->
  labels_names k = labels_names k2 ++ labels_names k1 ->
  in_key_order (labels_names k) (labels_names (tm_keys t)) ->
  p = Debug \/ agreeing_groups t (labels_names k) ->
  forall e q s rest cs pr v, tensor_gradient_value t2 e q s rest cs pr v <-> tensor_gradient_value t' e q s rest cs pr v.
Proof.
  intros Ht W1 W2 W R1 R2 R HA H2 H Hk Ho Hag e q s rest cs pr v.
  assert (Hag' : agreeing_groups t (labels_names k)).
  { destruct Hag as [Hp|Hag]; [|exact Hag]. exact (keys_to_properties_agreeing _ _ _ _ _ Ht W R H Hp). }
  exact (tg_gradients _ _ _ _ _ _ _ _ _ _ _ Ht W1 W2 W R1 R2 R HA H2 H Hk Ho Hag' e q s rest cs pr v).
Qed.
