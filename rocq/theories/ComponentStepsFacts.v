(* Lemmas about moving both keys and components *)
From Verif Require Import Base BaseFacts Labels Array Block Tensor Spec SpecTensor SpecComponents LabelsFacts ArrayFacts BlockFacts TensorFacts KeysFacts MergeFacts GroupFacts BlocksFacts MergePropertiesFacts MovedFacts ComponentsFacts ComponentsExactFacts ReachFacts CompleteFacts StepsFacts CommuteFacts GradientStepsFacts.
Local Open Scope string_scope.
Local Open Scope list_scope.
Local Open Scope nat_scope.

(** * Components with the same labels *)

Lemma combinations_same l1 l2 : Forall2 same_labels l1 l2 -> combinations l1 = combinations l2.
Proof. induction 1 as [|x y l1 l2 [_ E] _ IH]; [reflexivity|]. cbn. rewrite IH, E. reflexivity. Qed.

Lemma Forall2_reversed {A B} (R : A -> B -> Prop) l1 l2 : Forall2 R l1 l2 -> Forall2 R (rev l1) (rev l2).
Proof. induction 1; cbn; [constructor|]. apply Forall2_app; [assumption|]. constructor; [assumption|constructor]. Qed.

Lemma Forall2_skipped {A B} (R : A -> B -> Prop) n : forall l1 l2, Forall2 R l1 l2 -> Forall2 R (skipn n l1) (skipn n l2).
Proof. induction n as [|n IH]; intros l1 l2 H; [exact H|]. destruct H; cbn; [constructor|]. apply IH. assumption. Qed.

Lemma found_as_same l1 l2 : Forall2 same_labels l1 l2 -> forall original found, found_as l1 original found <-> found_as l2 original found.
Proof.
  intros H original found. unfold found_as. rewrite <- (combinations_same _ _ H). pose proof (Forall2_reversed _ _ _ H) as Hr.
  destruct Hr as [|last last' others others' Hl Ho]; [reflexivity|].
  rewrite (combinations_same (last :: rev others) (last' :: rev others')); [reflexivity|]. constructor; [exact Hl|]. apply Forall2_reversed. exact Ho.
Qed.

Lemma names_same l1 l2 : Forall2 same_labels l1 l2 -> map labels_names l1 = map labels_names l2.
Proof. induction 1 as [|x y l1 l2 [E _] _ IH]; [reflexivity|]. cbn. rewrite IH. f_equal. exact E. Qed.

(* where the entries of a component are found in two blocks *)
Lemma component_same b1 b2 name : Forall2 same_labels (bb_components b1) (bb_components b2) ->
  (forall i, component_at b1 name i <-> component_at b2 name i)
  /\ forall i original found, found_as (components_after b1 i) original found <-> found_as (components_after b2 i) original found.
Proof.
  intros H. split.
  - intros i. unfold component_at. rewrite (names_same _ _ H). reflexivity.
  - intros i original found. unfold components_after. apply found_as_same, Forall2_skipped. exact H.
Qed.

(** * What a move of components keeps *)

Lemma components_gradient_samples t name t' : wf_tensor t -> components_to_properties t [name] = (t', Ok tt) ->
  forall key q s rest, tensor_gradient_sample t' key q s rest <-> tensor_gradient_sample t key q s rest.
Proof.
  intros Hwf H key q s rest. assert (Hne : [name] <> []) by discriminate. unfold tensor_gradient_sample. split.
  - intros (b' & K' & i & g' & Hi & Hg & Hr). destruct (block_of_after _ _ _ _ _ Hne H K') as (b & K & Hc).
    destruct (block_components_ok _ _ _ (wf_tensor_block _ _ _ Hwf K) Hne Hc) as ((pre & x & post & Hv) & G & _).
    destruct (Forall2_In_r _ _ _ _ G Hg) as ([q0 g] & I & E & p1 & x1 & o1 & M). simpl in E, M. subst q0.
    exists b. split; [exact K|]. exists i, g. rewrite <- (cm_samples _ _ _ _ _ _ Hv), <- (cm_samples _ _ _ _ _ _ M). auto.
  - intros (b & K & i & g & Hi & Hg & Hr). destruct (block_of_before _ _ _ _ _ Hne H K) as (b' & K' & Hc).
    destruct (block_components_ok _ _ _ (wf_tensor_block _ _ _ Hwf K) Hne Hc) as ((pre & x & post & Hv) & G & _).
    destruct (Forall2_In_l _ _ _ _ G Hg) as ([q0 g'] & I & E & p1 & x1 & o1 & M). simpl in E, M. subst q0.
    exists b'. split; [exact K'|]. exists i, g'. rewrite (cm_samples _ _ _ _ _ _ Hv), (cm_samples _ _ _ _ _ _ M). auto.
Qed.

Lemma moved_components_same name b1 b2 pre1 x1 post1 b1' pre2 x2 post2 b2' : wf_basic b2 ->
  component_moved [name] b1 pre1 x1 post1 b1' -> component_moved [name] b2 pre2 x2 post2 b2' ->
  Forall2 same_labels (bb_components b1) (bb_components b2) -> Forall2 same_labels (bb_components b1') (bb_components b2').
Proof.
  intros Hw M1 M2 F. rewrite (cm_components' _ _ _ _ _ _ M1), (cm_components' _ _ _ _ _ _ M2).
  rewrite (cm_components _ _ _ _ _ _ M1), (cm_components _ _ _ _ _ _ M2) in F.
  apply Forall2_app_inv_l in F as (pre & rest & F1 & F2 & E). inversion F2 as [|a c l l' Hx F3 E1 E2]. subst.
  assert (Hn : labels_names c = [name]) by (destruct Hx as [Hx _]; rewrite <- (cm_moved _ _ _ _ _ _ M1); unfold labels_names; rewrite Hx; reflexivity).
  assert (Hnd : NoDup (map labels_names (pre2 ++ x2 :: post2))).
  { destruct Hw as (_ & _ & _ & _ & Hnd). rewrite <- (cm_components _ _ _ _ _ _ M2). exact Hnd. }
  destruct (split_unique [name] _ _ _ _ _ _ (cm_moved _ _ _ _ _ _ M2) Hn Hnd E) as (-> & _ & ->). apply Forall2_app; assumption.
Qed.

Lemma components_agreeing t name t' v : wf_tensor t -> components_to_properties t [name] = (t', Ok tt) -> agreeing_groups t v -> agreeing_groups t' v.
Proof.
  intros Hwf H Hag key1 b1' key2 b2' K1' K2' E q g1' g2' G1' G2'. assert (Hne : [name] <> []) by discriminate.
  rewrite (proj1 (components_to_properties_ok _ _ _ Hne H)) in E.
  destruct (block_of_after _ _ _ _ _ Hne H K1') as (b1 & K1 & C1). destruct (block_of_after _ _ _ _ _ Hne H K2') as (b2 & K2 & C2).
  destruct (block_components_ok _ _ _ (wf_tensor_block _ _ _ Hwf K1) Hne C1) as (_ & G1 & _).
  destruct (block_components_ok _ _ _ (wf_tensor_block _ _ _ Hwf K2) Hne C2) as (_ & G2 & _).
  destruct (Forall2_In_r _ _ _ _ G1 G1') as ([q1 g1] & I1 & E1 & p1 & x1 & o1 & M1). simpl in E1, M1. subst q1.
  destruct (Forall2_In_r _ _ _ _ G2 G2') as ([q2 g2] & I2 & E2 & p2 & x2 & o2 & M2). simpl in E2, M2. subst q2.
  apply (moved_components_same _ _ _ _ _ _ _ _ _ _ _ (proj1 (wf_block_gradient _ _ _ (wf_tensor_block _ _ _ Hwf K2) I2)) M1 M2).
  exact (Hag key1 b1 key2 b2 K1 K2 E q g1 g2 I1 I2).
Qed.

(** * Moves to the samples and of components *)

Lemma samples_and_components p t ta tac tc tca k name sort1 sort2 :
  wf_tensor t ->
  (forall b, In b (tm_blocks t) -> a_kind (bb_data (tb_values b)) <> RustEmptyArray) ->
  keys_to_samples p t k sort1 = (ta, Ok tt) -> components_to_properties ta [name] = (tac, Ok tt) ->
  components_to_properties t [name] = (tc, Ok tt) -> keys_to_samples p tc k sort2 = (tca, Ok tt) ->
  same_labels (tm_keys tac) (tm_keys tca)
  /\ (forall e s cs pr v, tensor_entry tac e s cs pr v <-> tensor_entry tca e s cs pr v)
  /\ (forall e q s rest, tensor_gradient_sample tac e q s rest <-> tensor_gradient_sample tca e q s rest)
  /\ (p = Debug \/ agreeing_groups t (labels_names k) ->
      forall e q s rest cs pr v, tensor_gradient_value tac e q s rest cs pr v <-> tensor_gradient_value tca e q s rest cs pr v).
Proof.
  intros Ht Hkind HA HAC HC HCA. assert (Hne : [name] <> []) by discriminate.
  pose proof (proj1 (keys_to_samples_wf _ _ _ _ _ Ht HA)) as Hta. pose proof (proj1 (components_wf _ _ _ Ht HC)) as Htc.
  pose proof (proj1 (components_to_properties_ok _ _ _ Hne HC)) as Ekc. pose proof (proj1 (components_to_properties_ok _ _ _ Hne HAC)) as Ekac.
  assert (Hkinda : forall b, In b (tm_blocks ta) -> a_kind (bb_data (tb_values b)) <> RustEmptyArray).
  { intros b Hb. destruct (keys_to_samples_kind _ _ _ _ _ _ HA Hb) as (b0 & H0 & E). unfold value_kind in E. rewrite E. apply Hkind. exact H0. }
  split; [|split; [|split]].
  - rewrite Ekac. destruct (keys_to_samples_keys _ _ _ _ _ Ht HA) as [N1 F1]. destruct (keys_to_samples_keys _ _ _ _ _ Htc HCA) as [N2 F2].
    rewrite Ekc in N2, F2. split; [change (labels_names (tm_keys ta) = labels_names (tm_keys tca)); congruence|]. exact (first_appearance_unique _ _ _ F1 F2).
  - intros e s' cs' pr' v. rewrite (exact_values _ _ _ Hta HAC Hkinda), (keys_to_samples_values _ _ _ _ _ Htc HCA), Ekc. split.
    + intros (ba & cs1 & xv & cs2 & found & pr & Ka & Hc & Hf & -> & -> & He).
      assert (Hx : tensor_entry ta e s' (cs1 ++ xv :: cs2) pr v) by (apply tensor_entry_of; eauto).
      apply (keys_to_samples_values _ _ _ _ _ Ht HA) in Hx as (key & s & Hx & -> & ->). apply tensor_entry_of in Hx as (b & K & Hx).
      destruct (component_same _ _ name (proj1 (steps_group _ _ _ _ _ Ht HA _ _ _ _ Ka K eq_refl))) as [S1 S2].
      exists key, s. split; [|auto]. apply (exact_values _ _ _ Ht HC Hkind). exists b, cs1, xv, cs2, found, pr.
      rewrite S1, S2. auto 10.
    + intros (key & s & Hx & -> & ->). apply (exact_values _ _ _ Ht HC Hkind) in Hx as (b & cs1 & xv & cs2 & found & pr & K & Hc & Hf & -> & -> & He).
      assert (Hx : tensor_entry ta (new_key (labels_names k) (labels_names (tm_keys t)) key) (s ++ moved_part (labels_names k) (labels_names (tm_keys t)) key) (cs1 ++ xv :: cs2) pr v).
      { apply (keys_to_samples_values _ _ _ _ _ Ht HA). exists key, s. split; [apply tensor_entry_of; eauto|auto]. }
      apply tensor_entry_of in Hx as (ba & Ka & Hx).
      destruct (component_same _ _ name (proj1 (steps_group _ _ _ _ _ Ht HA _ _ _ _ Ka K eq_refl))) as [S1 S2].
      exists ba, cs1, xv, cs2, found, pr. rewrite <- S1, <- S2. auto 10.
  - intros e q s' rest. rewrite (components_gradient_samples _ _ _ Hta HAC), (keys_to_samples_gradient_samples _ _ _ _ _ Ht HA), (keys_to_samples_gradient_samples _ _ _ _ _ Htc HCA), Ekc.
    split; intros (key & s & Hx & H1 & H2); exists key, s; (split; [apply (components_gradient_samples _ _ _ Ht HC); exact Hx|auto]).
  - intros Hag. assert (Hag' : agreeing_groups t (labels_names k)) by (destruct Hag as [Hp|Hag]; [exact (keys_to_samples_agreeing _ _ _ _ _ Ht HA Hp)|exact Hag]).
    pose proof (components_agreeing _ _ _ _ Ht HC Hag') as Hagc. pose proof (samples_follow _ _ _ _ _ Ht HA) as Fa.
    intros e q s' rest cs' pr' v. rewrite (exact_gradients _ _ _ Hta HAC Hkinda), (keys_to_samples_gradients _ _ _ _ _ Htc HCA (or_intror Hagc)), Ekc. split.
    + intros (ba & i & ga & cs1 & xv & cs2 & found & pr & Ka & Ga & Hi & Hc & Hf & -> & -> & He).
      assert (Hx : tensor_gradient_value ta e q s' rest (cs1 ++ xv :: cs2) pr v) by (exists ba; split; [exact Ka|]; exists i, ga; auto).
      apply (keys_to_samples_gradients _ _ _ _ _ Ht HA (or_intror Hag')) in Hx as (key & s & Hx & -> & ->). destruct Hx as (b & K & j & g & Hj & G & Hx).
      destruct (component_same _ _ name (follows_components _ _ _ Fa Hag' _ _ _ _ _ _ K Ka G Ga)) as [S1 S2].
      exists key, s. split; [|auto]. apply (exact_gradients _ _ _ Ht HC Hkind). exists b, j, g, cs1, xv, cs2, found, pr. rewrite S1, S2. auto 12.
    + intros (key & s & Hx & -> & ->). apply (exact_gradients _ _ _ Ht HC Hkind) in Hx as (b & i & g & cs1 & xv & cs2 & found & pr & K & G & Hi & Hc & Hf & -> & -> & He).
      assert (Hx : tensor_gradient_value ta (new_key (labels_names k) (labels_names (tm_keys t)) key) q (s ++ moved_part (labels_names k) (labels_names (tm_keys t)) key) rest (cs1 ++ xv :: cs2) pr v).
      { apply (keys_to_samples_gradients _ _ _ _ _ Ht HA (or_intror Hag')). exists key, s. split; [|auto]. exists b. split; [exact K|]. exists i, g. auto. }
      destruct Hx as (ba & Ka & j & ga & Hj & Ga & Hx).
      destruct (component_same _ _ name (follows_components _ _ _ Fa Hag' _ _ _ _ _ _ K Ka G Ga)) as [S1 S2].
      exists ba, j, ga, cs1, xv, cs2, found, pr. rewrite <- S1, <- S2. auto 12.
Qed.

Lemma samples_and_components_labels p t ta tac tc tca k name sort1 sort2 :
  wf_tensor t ->
  keys_to_samples p t k sort1 = (ta, Ok tt) -> components_to_properties ta [name] = (tac, Ok tt) ->
  components_to_properties t [name] = (tc, Ok tt) -> keys_to_samples p tc k sort2 = (tca, Ok tt) ->
  forall e b1 b2, block_of tac e b1 -> block_of tca e b2 ->
    labels_names (bb_samples (tb_values b1)) = labels_names (bb_samples (tb_values b2))
    /\ Forall2 same_labels (bb_components (tb_values b1)) (bb_components (tb_values b2))
    /\ same_labels (bb_properties (tb_values b1)) (bb_properties (tb_values b2)).
Proof.
  intros Ht HA HAC HC HCA e b1 b2 K1 K2. assert (Hne : [name] <> []) by discriminate.
  pose proof (proj1 (keys_to_samples_wf _ _ _ _ _ Ht HA)) as Hta. pose proof (proj1 (components_wf _ _ _ Ht HC)) as Htc.
  pose proof (proj1 (components_to_properties_ok _ _ _ Hne HC)) as Ekc.
  destruct (block_of_after _ _ _ _ _ Hne HAC K1) as (ba & Ka & Ca). destruct (fol_from _ _ _ (samples_follow _ _ _ _ _ Ht HA) _ _ Ka) as (key & b & K & Ek & _).
  destruct (block_of_before _ _ _ _ _ Hne HC K) as (bc & Kc & Cc).
  destruct (block_components_ok _ _ _ (wf_tensor_block _ _ _ Hta Ka) Hne Ca) as ((pre1 & x1 & post1 & M1) & _).
  destruct (block_components_ok _ _ _ (wf_tensor_block _ _ _ Ht K) Hne Cc) as ((pre2 & x2 & post2 & M2) & _).
  destruct (steps_group _ _ _ _ _ Ht HA _ _ _ _ Ka K Ek) as [F1 [P1 R1]].
  rewrite <- Ekc in Ek. destruct (steps_group _ _ _ _ _ Htc HCA _ _ _ _ K2 Kc Ek) as [F2 P2].
  destruct (keys_to_samples_names _ _ _ _ _ Ht HA _ _ _ _ Ka K) as [N1 _]. destruct (keys_to_samples_names _ _ _ _ _ Htc HCA _ _ _ _ K2 Kc) as [N2 _].
  pose proof (proj1 (wf_tensor_block _ _ _ Ht K)) as Hwb. pose proof (proj1 (wf_tensor_block _ _ _ Hta Ka)) as Hwa.
  pose proof (moved_components_same _ _ _ _ _ _ _ _ _ _ _ Hwa M2 M1 F1) as F3. split; [|split].
  - rewrite (cm_samples _ _ _ _ _ _ M1), N1, N2, (cm_samples _ _ _ _ _ _ M2). reflexivity.
  - eapply Forall2_same_trans; [apply Forall2_same_sym; exact F3|exact F2].
  - assert (Ep : bb_properties (tb_values b1) = bb_properties (tb_values bc)); [|rewrite Ep; exact P2].
    pose proof (cm_build _ _ _ _ _ _ M1) as B1. pose proof (cm_build _ _ _ _ _ _ M2) as B2.
    assert (Hx : rows x2 = rows x1).
    { pose proof F1 as F. rewrite (cm_components _ _ _ _ _ _ M1), (cm_components _ _ _ _ _ _ M2) in F.
      apply Forall2_app_inv_l in F as (pre & rest & _ & F & E). inversion F as [|a c l l' Hx _ E1 E2]. subst.
      assert (Hn : labels_names c = [name]) by (destruct Hx as [Hx _]; rewrite <- (cm_moved _ _ _ _ _ _ M2); unfold labels_names; rewrite Hx; reflexivity).
      assert (Hnd : NoDup (map labels_names (pre1 ++ x1 :: post1))).
      { destruct Hwa as (_ & _ & _ & _ & Hnd). rewrite <- (cm_components _ _ _ _ _ _ M1). exact Hnd. }
      destruct (split_unique [name] _ _ _ _ _ _ (cm_moved _ _ _ _ _ _ M1) Hn Hnd E) as (_ & -> & _). apply Hx. }
    assert (Hp : labels_names (bb_properties (tb_values b)) = labels_names (bb_properties (tb_values ba))) by (unfold labels_names; rewrite P1; reflexivity).
    rewrite Hx, R1, Hp in B2. congruence.
Qed.

(** * When the moves are accepted *)

Lemma components_workable t name t' : workable t -> components_to_properties t [name] = (t', Ok tt) -> workable t'.
Proof.
  intros (Ht & Hne & (kind & Hk & Hkind) & Hall & Hsum) H. assert (Hv : [name] <> []) by discriminate.
  destruct (components_to_properties_ok _ _ _ Hv H) as [_ Hf].
  assert (Hm : forall b b', In b (tm_blocks t) -> tensor_block_components_to_properties b [name] = (b', Ok tt) -> exists pre x post, component_moved [name] (tb_values b) pre x post (tb_values b')).
  { intros b b' Hb Hc. assert (Hw : wf_block b) by (destruct Ht as (_ & Hw & _); rewrite Forall_forall in Hw; apply Hw; exact Hb).
    apply (block_components_ok _ _ _ Hw Hv Hc). }
  split; [apply (components_wf _ _ _ Ht H)|]. split; [|split; [|split]].
  - intros E. apply Hne. rewrite E in Hf. inversion Hf. reflexivity.
  - exists kind. split; [exact Hk|]. intros b' Hb'. destruct (Forall2_In_r _ _ _ _ Hf Hb') as (b & Hb & Hc).
    destruct (Hm _ _ Hb Hc) as (pre & x & post & M). rewrite (cm_kind _ _ _ _ _ _ M). apply Hkind. exact Hb.
  - intros b' Hb'. destruct (Forall2_In_r _ _ _ _ Hf Hb') as (b & Hb & Hc).
    assert (Hw : wf_block b) by (destruct Ht as (_ & Hw & _); rewrite Forall_forall in Hw; apply Hw; exact Hb).
    destruct (block_components_ok _ _ _ Hw Hv Hc) as ((pre & x & post & M) & G & _). destruct (Hall _ Hb) as ([R1 R2] & Hr & Hz).
    assert (Hg : forall q g', In (q, g') (tb_gradients b') -> exists g p1 x1 o1, In (q, g) (tb_gradients b) /\ component_moved [name] g p1 x1 o1 g').
    { intros q g' Hg'. destruct (Forall2_In_r _ _ _ _ G Hg') as ([q0 g] & I & E & p1 & x1 & o1 & Mg). simpl in E, Mg. subst q0. eauto 10. }
    split; [split|split].
    + exact (responsive_same _ _ (cm_kind _ _ _ _ _ _ M) (cm_callbacks _ _ _ _ _ _ M) R1).
    + intros q g' Hg'. destruct (Hg _ _ Hg') as (g & p1 & x1 & o1 & I & Mg). exact (responsive_same _ _ (cm_kind _ _ _ _ _ _ Mg) (cm_callbacks _ _ _ _ _ _ Mg) (R2 _ _ I)).
    + intros q g' row Hg' Hrow. destruct (Hg _ _ Hg') as (g & p1 & x1 & o1 & I & Mg). rewrite (cm_samples _ _ _ _ _ _ Mg) in Hrow. rewrite (cm_samples _ _ _ _ _ _ M). exact (Hr _ _ _ I Hrow).
    + intros q g' Hg'. destruct (Hg _ _ Hg') as (g & p1 & x1 & o1 & I & Mg). exact (Hz _ _ I).
  - assert (E : map (fun b => length (rows (bb_samples (tb_values b)))) (tm_blocks t') = map (fun b => length (rows (bb_samples (tb_values b)))) (tm_blocks t)).
    { clear - Hf Hm. induction Hf as [|b b' l l' Hc Hf IH]; [reflexivity|]. cbn [map]. rewrite IH by (intros b1 b1' Hb1; apply Hm; right; exact Hb1).
      destruct (Hm b b' (or_introl eq_refl) Hc) as (pre & x & post & M). rewrite (cm_samples _ _ _ _ _ _ M). reflexivity. }
    rewrite E. exact Hsum.
Qed.

Lemma block_has_key t b : wf_tensor t -> In b (tm_blocks t) -> exists key, block_of t key b.
Proof.
  intros (_ & _ & Hl & _) Hb. apply In_nth_error in Hb as [i Hi]. assert (Hlt : i < length (tm_blocks t)) by (apply nth_error_Some; congruence).
  destruct (nth_error (rows (tm_keys t)) i) as [key|] eqn:E; [exists key, i; auto|]. apply nth_error_None in E. lia.
Qed.

Lemma moved_properties_same name b1 b2 pre1 x1 post1 b1' pre2 x2 post2 b2' : wf_basic b2 ->
  component_moved [name] b1 pre1 x1 post1 b1' -> component_moved [name] b2 pre2 x2 post2 b2' ->
  Forall2 same_labels (bb_components b1) (bb_components b2) -> same_labels (bb_properties b1) (bb_properties b2) -> bb_properties b1' = bb_properties b2'.
Proof.
  intros Hw M1 M2 F [P R]. pose proof (cm_build _ _ _ _ _ _ M1) as B1. pose proof (cm_build _ _ _ _ _ _ M2) as B2.
  assert (Hx : rows x1 = rows x2).
  { rewrite (cm_components _ _ _ _ _ _ M1), (cm_components _ _ _ _ _ _ M2) in F.
    apply Forall2_app_inv_l in F as (pre & rest & _ & F & E). inversion F as [|a c l l' Hx _ E1 E2]. subst.
    assert (Hn : labels_names c = [name]) by (destruct Hx as [Hx _]; rewrite <- (cm_moved _ _ _ _ _ _ M1); unfold labels_names; rewrite Hx; reflexivity).
    assert (Hnd : NoDup (map labels_names (pre2 ++ x2 :: post2))).
    { destruct Hw as (_ & _ & _ & _ & Hnd). rewrite <- (cm_components _ _ _ _ _ _ M2). exact Hnd. }
    destruct (split_unique [name] _ _ _ _ _ _ (cm_moved _ _ _ _ _ _ M2) Hn Hnd E) as (_ & -> & _). apply Hx. }
  assert (Hp : labels_names (bb_properties b1) = labels_names (bb_properties b2)) by (unfold labels_names; rewrite P; reflexivity).
  rewrite Hx, R, Hp in B1. congruence.
Qed.

Lemma components_first_accepted p t ta tac k name sort1 sort2 :
  workable t -> wf_labels k -> agreeing_groups t (labels_names k) ->
  keys_to_samples p t k sort1 = (ta, Ok tt) -> components_to_properties ta [name] = (tac, Ok tt) ->
  exists tc tca, components_to_properties t [name] = (tc, Ok tt) /\ keys_to_samples p tc k sort2 = (tca, Ok tt).
Proof.
  intros Hw Hk Hag HA HAC. pose proof Hw as (Ht & Hblocks & _ & Hall & _). assert (Hv : [name] <> []) by discriminate.
  pose proof (proj1 (keys_to_samples_wf _ _ _ _ _ Ht HA)) as Hta. pose proof (proj1 (components_wf _ _ _ Hta HAC)) as Htac.
  pose proof (samples_follow _ _ _ _ _ Ht HA) as Fa.
  assert (Hkn : labels_names k <> []).
  { pose proof HA as H. unfold keys_to_samples in H. destruct (keys_to_samples_compute p t k sort1) as [[nk bs]|e|m|r] eqn:E; try discriminate.
    unfold keys_to_samples_compute in E. apply bind_ok in E as (n & Hn & _). apply (labels_count_ok _ _ Hk) in Hn as [Hn _]. exact Hn. }
  assert (Hto : forall b, In b (tm_blocks t) -> exists key ba bac, block_of t key b /\ block_of ta (new_key (labels_names k) (labels_names (tm_keys t)) key) ba
            /\ block_of tac (new_key (labels_names k) (labels_names (tm_keys t)) key) bac).
  { intros b Hb. destruct (block_has_key _ _ Ht Hb) as (key & K). destruct (fol_to _ _ _ Fa _ _ K) as (ba & Ka & _).
    destruct (block_of_before _ _ _ _ _ Hv HAC Ka) as (bac & Kac & _). eauto 10. }
  assert (Hdis : forall b n, In b (tm_blocks t) -> In n (labels_names k) -> ~ In n (labels_names (bb_samples (tb_values b)))).
  { intros b n Hb Hn Hin. destruct (Hto _ Hb) as (key & ba & bac & K & Ka & _). destruct (keys_to_samples_names _ _ _ _ _ Ht HA _ _ _ _ Ka K) as [N _].
    destruct (wf_basic_axes _ (proj1 (wf_tensor_block _ _ _ Hta Ka))) as ([Hnd _] & _). apply wf_names_good in Hnd as [_ Hnd].
    rewrite N in Hnd. exact (NoDup_app_disjoint _ _ Hnd n Hin Hn). }
  destruct (components_succeeds t [name]) as (tc & HC).
  - exact Ht.
  - apply Forall_forall. intros b Hb. apply Hall. exact Hb.
  - intros b Hb. destruct (Hto _ Hb) as (key & ba & bac & K & Ka & Kac). destruct (keys_to_samples_names _ _ _ _ _ Ht HA _ _ _ _ Ka K) as (_ & N & _).
    destruct (components_names _ _ _ Hta HAC) as [_ Hn]. destruct (Hn _ _ Kac) as (ba1 & pre & x & post & Ka1 & E & Ex & _).
    rewrite (block_of_unique _ _ _ _ Hta Ka1 Ka) in E. rewrite <- N, E, map_app, <- Ex. apply in_or_app. right. left. reflexivity.
  - intros b n Hb [<-|[]] Hin. destruct (Hto _ Hb) as (key & ba & bac & K & Ka & Kac). destruct (keys_to_samples_names _ _ _ _ _ Ht HA _ _ _ _ Ka K) as (_ & _ & N).
    destruct (components_names _ _ _ Hta HAC) as [_ Hn]. destruct (Hn _ _ Kac) as (ba1 & pre & x & post & Ka1 & _ & _ & _ & _ & Ep & _).
    rewrite (block_of_unique _ _ _ _ Hta Ka1 Ka), N in Ep.
    destruct (wf_basic_axes _ (proj1 (wf_tensor_block _ _ _ Htac Kac))) as (_ & _ & [Hnd _]). apply wf_names_good in Hnd as [_ Hnd].
    rewrite Ep in Hnd. inversion Hnd. contradiction.
  - exists tc. pose proof (proj1 (components_wf _ _ _ Ht HC)) as Htc. pose proof (proj1 (components_to_properties_ok _ _ _ Hv HC)) as Ekc.
    destruct (keys_to_samples_complete p t k sort1 Hw Hk Hkn Hag Hdis) as [[(Hr & Hnames & Hcomp & Hprop) _]|[_ [m Hm]]]; [|rewrite HA in Hm; discriminate Hm].
    destruct (keys_to_samples_complete p tc k sort2 (components_workable _ _ _ Hw HC) Hk Hkn (components_agreeing _ _ _ _ Ht HC Hag)) as [[_ (tca & H)]|[Hno _]].
    + intros b' n Hb' Hn. destruct (block_has_key _ _ Htc Hb') as (key & K'). destruct (components_names _ _ _ Ht HC) as [_ Hx].
      destruct (Hx _ _ K') as (b & pre & x & post & K & _ & _ & -> & _). apply Hdis; [eapply block_of_In; exact K|exact Hn].
    + eauto.
    + exfalso. apply Hno. rewrite Ekc. split; [exact Hr|]. split; [exact Hnames|].
      assert (Hsame : forall key1 b1' key2 b2', block_of tc key1 b1' -> block_of tc key2 b2' ->
                new_key (labels_names k) (labels_names (tm_keys t)) key1 = new_key (labels_names k) (labels_names (tm_keys t)) key2 ->
                Forall2 same_labels (bb_components (tb_values b1')) (bb_components (tb_values b2')) /\ bb_properties (tb_values b1') = bb_properties (tb_values b2')).
      { intros key1 b1' key2 b2' K1' K2' E. destruct (block_of_after _ _ _ _ _ Hv HC K1') as (b1 & K1 & C1). destruct (block_of_after _ _ _ _ _ Hv HC K2') as (b2 & K2 & C2).
        destruct (block_components_ok _ _ _ (wf_tensor_block _ _ _ Ht K1) Hv C1) as ((p1 & x1 & o1 & M1) & _).
        destruct (block_components_ok _ _ _ (wf_tensor_block _ _ _ Ht K2) Hv C2) as ((p2 & x2 & o2 & M2) & _).
        pose proof (proj1 (wf_tensor_block _ _ _ Ht K2)) as W2.
        split; [exact (moved_components_same _ _ _ _ _ _ _ _ _ _ _ W2 M1 M2 (Hcomp _ _ _ _ K1 K2 E))|
                exact (moved_properties_same _ _ _ _ _ _ _ _ _ _ _ W2 M1 M2 (Hcomp _ _ _ _ K1 K2 E) (Hprop _ _ _ _ K1 K2 E))]. }
      split; intros key1 b1' key2 b2' K1' K2' E; rewrite Ekc in E; destruct (Hsame _ _ _ _ K1' K2' E) as [S1 S2]; [exact S1|rewrite S2; split; reflexivity].
Qed.
