(* Lemmas about moving two components to the properties *)
From Verif Require Import Base BaseFacts Labels Array Block Tensor Spec SpecTensor LabelsFacts ArrayFacts BlockFacts TensorFacts KeysFacts MergeFacts GroupFacts MergePropertiesFacts MovedFacts ComponentsFacts ComponentsExactFacts CompleteFacts StepsFacts ComponentStepsFacts ComponentPropertiesFacts.
Local Open Scope string_scope.
Local Open Scope list_scope.
Local Open Scope nat_scope.

Lemma app_cons_cases {A} (p2 : list A) : forall x2 o2 p1 o1, p2 ++ x2 :: o2 = p1 ++ o1 ->
  (exists m, p2 = p1 ++ m /\ o1 = m ++ x2 :: o2) \/ (exists m, p1 = p2 ++ x2 :: m /\ o2 = m ++ o1).
Proof.
  induction p2 as [|y p2 IH]; intros x2 o2 [|z p1] o1 H; cbn in H.
  - left. exists []. auto.
  - right. injection H as <- H. exists p1. auto.
  - left. exists (y :: p2). auto.
  - injection H as <- H. destruct (IH _ _ _ _ H) as [(m & -> & ->)|(m & -> & ->)]; [left|right]; exists m; auto.
Qed.

Section Basic.
  Variables (a c : string) (b ba bab bb bba : BasicBlock) (p1 o1 p2 o2 p3 o3 p4 o4 : list Labels) (x1 x2 x3 x4 : Labels).
  Hypothesis (Wb : wf_basic b) (Wa : wf_basic ba) (Wbb : wf_basic bb)
    (M1 : component_moved [a] b p1 x1 o1 ba) (M2 : component_moved [c] ba p2 x2 o2 bab)
    (M3 : component_moved [c] b p3 x3 o3 bb) (M4 : component_moved [a] bb p4 x4 o4 bba)
    (Hkind : a_kind (bb_data b) <> RustEmptyArray) (L1 : length o1 <= 1) (L3 : length o3 <= 1).

  (* the places of both components *)
  Lemma two_places :
    (exists m, p2 = p1 ++ m /\ p3 = p1 ++ x1 :: m /\ p4 = p1 /\ o4 = m ++ o2 /\ o1 = m ++ x2 :: o2 /\ o3 = o2)
    \/ (exists m, p1 = p2 ++ x2 :: m /\ p3 = p2 /\ p4 = p2 ++ m /\ o2 = m ++ o1 /\ o4 = o1 /\ o3 = m ++ x1 :: o1).
  Proof.
    assert (N1 : NoDup (map labels_names (p3 ++ x3 :: o3))) by (destruct Wb as (_ & _ & _ & _ & N); rewrite <- (cm_components _ _ _ _ _ _ M3); exact N).
    assert (N2 : NoDup (map labels_names (p4 ++ x4 :: o4))) by (destruct Wbb as (_ & _ & _ & _ & N); rewrite <- (cm_components _ _ _ _ _ _ M4); exact N).
    pose proof (cm_components _ _ _ _ _ _ M2) as E2. rewrite (cm_components' _ _ _ _ _ _ M1) in E2.
    pose proof (cm_components _ _ _ _ _ _ M1) as E3. rewrite (cm_components _ _ _ _ _ _ M3) in E3.
    pose proof (cm_components _ _ _ _ _ _ M4) as E4. rewrite (cm_components' _ _ _ _ _ _ M3) in E4.
    destruct (app_cons_cases _ _ _ _ _ (eq_sym E2)) as [(m & E5 & E6)|(m & E5 & E6)].
    - left. exists m. rewrite E6 in E3. replace (p1 ++ x1 :: m ++ x2 :: o2) with ((p1 ++ x1 :: m) ++ x2 :: o2) in E3 by (rewrite <- app_assoc; reflexivity).
      destruct (split_unique [c] _ _ _ _ _ _ (cm_moved _ _ _ _ _ _ M3) (cm_moved _ _ _ _ _ _ M2) N1 E3) as (E7 & _ & E8).
      rewrite E7, E8 in E4. rewrite <- app_assoc in E4. cbn in E4. symmetry in E4.
      destruct (split_unique [a] _ _ _ _ _ _ (cm_moved _ _ _ _ _ _ M4) (cm_moved _ _ _ _ _ _ M1) N2 E4) as (E9 & _ & E10). repeat split; congruence.
    - right. exists m. rewrite E5 in E3. rewrite <- app_assoc in E3. cbn in E3.
      destruct (split_unique [c] _ _ _ _ _ _ (cm_moved _ _ _ _ _ _ M3) (cm_moved _ _ _ _ _ _ M2) N1 E3) as (E7 & _ & E8).
      rewrite E7, E8, app_assoc in E4. symmetry in E4.
      destruct (split_unique [a] _ _ _ _ _ _ (cm_moved _ _ _ _ _ _ M4) (cm_moved _ _ _ _ _ _ M1) N2 E4) as (E9 & _ & E10). repeat split; congruence.
  Qed.

  Lemma two_basic s cs x y pr v : length x = 1 -> length y = 1 -> entry bab s cs (y ++ x ++ pr) v -> entry bba s cs (x ++ y ++ pr) v.
  Proof.
    intros Hx Hy He.
    assert (L : length o2 <= 1 /\ length o4 <= 1).
    { destruct two_places as [(m & _ & _ & _ & -> & E & _)|(m & _ & _ & _ & -> & -> & E)].
      - rewrite E, app_length in L1. cbn in L1. rewrite app_length. lia.
      - rewrite E, app_length in L3. cbn in L3. rewrite app_length. lia. }
    destruct L as [L2 L4].
    assert (Ka : a_kind (bb_data ba) <> RustEmptyArray) by (rewrite (cm_kind _ _ _ _ _ _ M1); exact Hkind).
    assert (Kb : a_kind (bb_data bb) <> RustEmptyArray) by (rewrite (cm_kind _ _ _ _ _ _ M3); exact Hkind).
    apply (moved_entry _ _ _ _ _ _ Wa M2 Ka L2) in He as (cs1 & yv & cs2 & pr0 & Lc & -> & Ep & He).
    apply app_eq_length in Ep as [<- <-]; [|rewrite Hy; symmetry; exact (moved_entry_length _ _ _ _ _ _ _ Wa He)].
    apply (moved_entry _ _ _ _ _ _ Wb M1 Hkind L1) in He as (ds1 & xv & ds2 & pr1 & Ld & Ec & Ep & He).
    apply app_eq_length in Ep as [<- <-]; [|rewrite Hx; symmetry; exact (moved_entry_length _ _ _ _ _ _ _ Wb He)].
    apply (moved_entry _ _ _ _ _ _ Wbb M4 Kb L4). pose proof (app_cons_cases _ _ _ _ _ Ec) as Hc.
    destruct two_places as [(m & E2 & E3 & E4 & _)|(m & E1 & E3 & E4 & _)].
    - assert (Hm : exists ms, cs1 = ds1 ++ ms /\ ds2 = ms ++ y :: cs2).
      { destruct Hc as [Hc|(ms & E & _)]; [exact Hc|]. exfalso. apply (f_equal (@length _)) in E, E2. rewrite app_length in E, E2. cbn in E. lia. }
      destruct Hm as (ms & -> & ->). exists ds1, x, (ms ++ cs2), (y ++ pr). split; [rewrite Ld, E4; reflexivity|]. split; [rewrite app_assoc; reflexivity|]. split; [reflexivity|].
      apply (moved_entry _ _ _ _ _ _ Wb M3 Hkind L3). exists (ds1 ++ x :: ms), y, cs2, pr. split; [|split; [rewrite <- app_assoc; reflexivity|split; [reflexivity|]]].
      + rewrite E3. rewrite !app_length in *. cbn. rewrite E2, app_length in Lc. lia.
      + rewrite <- app_assoc. exact He.
    - assert (Hm : exists ms, ds1 = cs1 ++ y :: ms /\ cs2 = ms ++ ds2).
      { destruct Hc as [(ms & E & _)|Hc]; [|exact Hc]. exfalso. apply (f_equal (@length _)) in E, E1. rewrite app_length in E, E1. cbn in E1. lia. }
      destruct Hm as (ms & -> & ->). exists (cs1 ++ ms), x, ds2, (y ++ pr). split; [|split; [rewrite <- app_assoc; reflexivity|split; [reflexivity|]]].
      + rewrite E4, !app_length. rewrite E1, !app_length in Ld. cbn in Ld. lia.
      + apply (moved_entry _ _ _ _ _ _ Wb M3 Hkind L3). exists cs1, y, (ms ++ x :: ds2), pr. split; [congruence|]. split; [rewrite <- app_assoc; reflexivity|]. split; [reflexivity|].
        rewrite <- app_assoc in He. exact He.
  Qed.
End Basic.

Section Two.
  Variables (t ta tac tc tca : TensorMap) (a c : string).
  Hypothesis (Ht : wf_tensor t)
    (Hkind : forall b, In b (tm_blocks t) -> a_kind (bb_data (tb_values b)) <> RustEmptyArray)
    (La : forall b, In b (tm_blocks t) -> among_last_two (tb_values b) a)
    (Lc : forall b, In b (tm_blocks t) -> among_last_two (tb_values b) c)
    (HA : components_to_properties t [a] = (ta, Ok tt)) (HAC : components_to_properties ta [c] = (tac, Ok tt))
    (HC : components_to_properties t [c] = (tc, Ok tt)) (HCA : components_to_properties tc [a] = (tca, Ok tt)).

  Let Hne n : [n] <> ([] : list string).
  Proof. discriminate. Qed.
  Let Hta : wf_tensor ta.
  Proof. apply (components_wf _ _ _ Ht HA). Qed.
  Let Htc : wf_tensor tc.
  Proof. apply (components_wf _ _ _ Ht HC). Qed.

  Lemma two_entries_forward key s cs x y pr v : length x = 1 -> length y = 1 -> tensor_entry tac key s cs (y ++ x ++ pr) v -> tensor_entry tca key s cs (x ++ y ++ pr) v.
  Proof.
    intros Hx Hy He. apply tensor_entry_of in He as (bac & Kac & He).
    destruct (block_of_after _ _ _ _ _ (Hne c) HAC Kac) as (ba & Ka & Cac). destruct (block_of_after _ _ _ _ _ (Hne a) HA Ka) as (b & K & Ca).
    destruct (block_of_before _ _ _ _ _ (Hne c) HC K) as (bc & Kc & Cc). destruct (block_of_before _ _ _ _ _ (Hne a) HCA Kc) as (bca & Kca & Cca).
    pose proof (wf_tensor_block _ _ _ Ht K) as W. pose proof (wf_tensor_block _ _ _ Hta Ka) as Wa. pose proof (wf_tensor_block _ _ _ Htc Kc) as Wc.
    destruct (block_components_ok _ _ _ W (Hne a) Ca) as ((p1 & x1 & o1 & M1) & _). destruct (block_components_ok _ _ _ Wa (Hne c) Cac) as ((p2 & x2 & o2 & M2) & _).
    destruct (block_components_ok _ _ _ W (Hne c) Cc) as ((p3 & x3 & o3 & M3) & _). destruct (block_components_ok _ _ _ Wc (Hne a) Cca) as ((p4 & x4 & o4 & M4) & _).
    pose proof (block_of_In _ _ _ K) as Hb. apply tensor_entry_of. exists bca. split; [exact Kca|].
    refine (two_basic _ _ _ _ _ _ _ _ _ _ _ _ _ _ _ _ _ _ _ (proj1 W) (proj1 Wa) (proj1 Wc) M1 M2 M3 M4 (Hkind b Hb) _ _ _ _ _ _ _ _ Hx Hy He).
    - apply (among_last_two_post _ _ _ _ _ _ a (proj1 W) M1 eq_refl). exact (La b Hb).
    - apply (among_last_two_post _ _ _ _ _ _ c (proj1 W) M3 eq_refl). exact (Lc b Hb).
  Qed.

  Lemma two_gradients_forward key q s rest cs x y pr v : length x = 1 -> length y = 1 ->
    tensor_gradient_value tac key q s rest cs (y ++ x ++ pr) v -> tensor_gradient_value tca key q s rest cs (x ++ y ++ pr) v.
  Proof.
    intros Hx Hy (bac & Kac & i & gac & Hi & Gac & He).
    destruct (block_of_after _ _ _ _ _ (Hne c) HAC Kac) as (ba & Ka & Cac). destruct (block_of_after _ _ _ _ _ (Hne a) HA Ka) as (b & K & Ca).
    destruct (block_of_before _ _ _ _ _ (Hne c) HC K) as (bc & Kc & Cc). destruct (block_of_before _ _ _ _ _ (Hne a) HCA Kc) as (bca & Kca & Cca).
    pose proof (wf_tensor_block _ _ _ Ht K) as W. pose proof (wf_tensor_block _ _ _ Hta Ka) as Wa. pose proof (wf_tensor_block _ _ _ Htc Kc) as Wc.
    destruct (block_components_ok _ _ _ W (Hne a) Ca) as ((p1 & x1 & o1 & M1) & G1 & _). destruct (block_components_ok _ _ _ Wa (Hne c) Cac) as ((p2 & x2 & o2 & M2) & G2 & _).
    destruct (block_components_ok _ _ _ W (Hne c) Cc) as ((p3 & x3 & o3 & M3) & G3 & _). destruct (block_components_ok _ _ _ Wc (Hne a) Cca) as ((p4 & x4 & o4 & M4) & G4 & _).
    pose proof (block_of_In _ _ _ K) as Hb.
    destruct (Forall2_In_r _ _ _ _ G2 Gac) as ([q2 ga] & Ga & E2 & h2 & y2 & r2 & N2). simpl in E2, N2. subst q2.
    destruct (Forall2_In_r _ _ _ _ G1 Ga) as ([q1 g] & G & E1 & h1 & y1 & r1 & N1). simpl in E1, N1. subst q1.
    destruct (Forall2_In_l _ _ _ _ G3 G) as ([q3 gc] & Gc & E3 & h3 & y3 & r3 & N3). simpl in E3, N3. subst q3.
    destruct (Forall2_In_l _ _ _ _ G4 Gc) as ([q4 gca] & Gca & E4 & h4 & y4 & r4 & N4). simpl in E4, N4. subst q4.
    destruct (wf_block_gradient _ _ _ W G) as (Wg & (_ & _ & _ & Hk) & _). destruct (wf_block_gradient _ _ _ Wa Ga) as (Wga & _). destruct (wf_block_gradient _ _ _ Wc Gc) as (Wgc & _).
    exists bca. split; [exact Kca|]. exists i, gca. split; [|split; [exact Gca|]].
    - rewrite (cm_samples _ _ _ _ _ _ M4), (cm_samples _ _ _ _ _ _ M3), <- (cm_samples _ _ _ _ _ _ M1), <- (cm_samples _ _ _ _ _ _ M2). exact Hi.
    - assert (Hkg : a_kind (bb_data g) <> RustEmptyArray) by (rewrite Hk; exact (Hkind b Hb)).
      refine (two_basic _ _ _ _ _ _ _ _ _ _ _ _ _ _ _ _ _ _ _ Wg Wga Wgc N1 N2 N3 N4 Hkg _ _ _ _ _ _ _ _ Hx Hy He).
      + destruct (gradient_component_place _ _ _ _ _ _ _ _ _ _ _ _ W G M1 N1) as (_ & -> & _). apply (among_last_two_post _ _ _ _ _ _ a (proj1 W) M1 eq_refl). exact (La b Hb).
      + destruct (gradient_component_place _ _ _ _ _ _ _ _ _ _ _ _ W G M3 N3) as (_ & -> & _). apply (among_last_two_post _ _ _ _ _ _ c (proj1 W) M3 eq_refl). exact (Lc b Hb).
  Qed.
End Two.

Lemma two_components t ta tac tc tca a c :
  wf_tensor t ->
  (forall b, In b (tm_blocks t) -> a_kind (bb_data (tb_values b)) <> RustEmptyArray) ->
  (forall b, In b (tm_blocks t) -> among_last_two (tb_values b) a /\ among_last_two (tb_values b) c) ->
  components_to_properties t [a] = (ta, Ok tt) -> components_to_properties ta [c] = (tac, Ok tt) ->
  components_to_properties t [c] = (tc, Ok tt) -> components_to_properties tc [a] = (tca, Ok tt) ->
  tm_keys tac = tm_keys tca
  /\ (forall key s cs x y pr v, length x = 1 -> length y = 1 ->
        (tensor_entry tac key s cs (y ++ x ++ pr) v <-> tensor_entry tca key s cs (x ++ y ++ pr) v))
  /\ (forall key q s rest, tensor_gradient_sample tac key q s rest <-> tensor_gradient_sample tca key q s rest)
  /\ (forall key q s rest cs x y pr v, length x = 1 -> length y = 1 ->
        (tensor_gradient_value tac key q s rest cs (y ++ x ++ pr) v <-> tensor_gradient_value tca key q s rest cs (x ++ y ++ pr) v)).
Proof.
  intros Ht Hkind Hl HA HAC HC HCA.
  assert (La : forall b, In b (tm_blocks t) -> among_last_two (tb_values b) a) by (intros b Hb; apply Hl; exact Hb).
  assert (Lc : forall b, In b (tm_blocks t) -> among_last_two (tb_values b) c) by (intros b Hb; apply Hl; exact Hb).
  pose proof (proj1 (components_wf _ _ _ Ht HA)) as Hta. pose proof (proj1 (components_wf _ _ _ Ht HC)) as Htc.
  assert (Hne : forall n, [n] <> ([] : list string)) by discriminate. split; [|split; [|split]].
  - rewrite (proj1 (components_to_properties_ok _ _ _ (Hne c) HAC)), (proj1 (components_to_properties_ok _ _ _ (Hne a) HA)), (proj1 (components_to_properties_ok _ _ _ (Hne a) HCA)), (proj1 (components_to_properties_ok _ _ _ (Hne c) HC)). reflexivity.
  - intros key s cs x y pr v Hx Hy. split.
    + exact (two_entries_forward _ _ _ _ _ _ _ Ht Hkind La Lc HA HAC HC HCA _ _ _ _ _ _ _ Hx Hy).
    + exact (two_entries_forward _ _ _ _ _ _ _ Ht Hkind Lc La HC HCA HA HAC _ _ _ _ _ _ _ Hy Hx).
  - intros key q s rest. rewrite (components_gradient_samples _ _ _ Hta HAC), (components_gradient_samples _ _ _ Ht HA), (components_gradient_samples _ _ _ Htc HCA), (components_gradient_samples _ _ _ Ht HC). reflexivity.
  - intros key q s rest cs x y pr v Hx Hy. split.
    + exact (two_gradients_forward _ _ _ _ _ _ _ Ht Hkind La Lc HA HAC HC HCA _ _ _ _ _ _ _ _ _ Hx Hy).
    + exact (two_gradients_forward _ _ _ _ _ _ _ Ht Hkind Lc La HC HCA HA HAC _ _ _ _ _ _ _ _ _ Hy Hx).
Qed.

Lemma components_responsive t name t' : wf_tensor t -> Forall responsive_block (tm_blocks t) -> components_to_properties t [name] = (t', Ok tt) -> Forall responsive_block (tm_blocks t').
Proof.
  intros Ht Hr H. assert (Hv : [name] <> []) by discriminate. destruct (components_to_properties_ok _ _ _ Hv H) as [_ Hf].
  apply Forall_forall. intros b' Hb'. destruct (Forall2_In_r _ _ _ _ Hf Hb') as (b & Hb & Hc). rewrite Forall_forall in Hr. destruct (Hr b Hb) as [R1 R2].
  assert (Hw : wf_block b) by (destruct Ht as (_ & Hw & _); rewrite Forall_forall in Hw; apply Hw; exact Hb).
  destruct (block_components_ok _ _ _ Hw Hv Hc) as ((pre & x & post & M) & G & _). split.
  - exact (responsive_same _ _ (cm_kind _ _ _ _ _ _ M) (cm_callbacks _ _ _ _ _ _ M) R1).
  - intros q g' Hg'. destruct (Forall2_In_r _ _ _ _ G Hg') as ([q0 g] & I & E & p1 & x1 & o1 & Mg). simpl in E, Mg. subst q0.
    exact (responsive_same _ _ (cm_kind _ _ _ _ _ _ Mg) (cm_callbacks _ _ _ _ _ _ Mg) (R2 _ _ I)).
Qed.

Lemma two_components_accepted t ta tac a c :
  wf_tensor t -> Forall responsive_block (tm_blocks t) ->
  components_to_properties t [a] = (ta, Ok tt) -> components_to_properties ta [c] = (tac, Ok tt) ->
  exists tc tca, components_to_properties t [c] = (tc, Ok tt) /\ components_to_properties tc [a] = (tca, Ok tt).
Proof.
  intros Ht Hr HA HAC. assert (Hne : forall n, [n] <> ([] : list string)) by discriminate.
  pose proof (proj1 (components_wf _ _ _ Ht HA)) as Hta. pose proof (proj1 (components_wf _ _ _ Hta HAC)) as Htac.
  assert (Hb : forall b, In b (tm_blocks t) -> NoDup (c :: a :: labels_names (bb_properties (tb_values b)))
            /\ In [a] (map labels_names (bb_components (tb_values b))) /\ In [c] (map labels_names (bb_components (tb_values b)))).
  { intros b Hb. destruct (block_has_key _ _ Ht Hb) as (key & K). destruct (block_of_before _ _ _ _ _ (Hne a) HA K) as (ba & Ka & _). destruct (block_of_before _ _ _ _ _ (Hne c) HAC Ka) as (bac & Kac & _).
    destruct (components_names _ _ _ Ht HA) as [_ N1]. destruct (N1 _ _ Ka) as (b1 & p1 & x1 & o1 & K1 & E1 & X1 & _ & C1 & P1 & _). rewrite (block_of_unique _ _ _ _ Ht K1 K) in E1, P1.
    destruct (components_names _ _ _ Hta HAC) as [_ N2]. destruct (N2 _ _ Kac) as (b2 & p2 & x2 & o2 & K2 & E2 & X2 & _ & _ & P2 & _). rewrite (block_of_unique _ _ _ _ Hta K2 Ka) in E2, P2.
    split; [|split].
    - destruct (wf_basic_axes _ (proj1 (wf_tensor_block _ _ _ Htac Kac))) as (_ & _ & [Hnd _]). apply wf_names_good in Hnd as [_ Hnd]. rewrite P2, P1 in Hnd. exact Hnd.
    - rewrite E1, <- X1. apply in_map, in_or_app. right. left. reflexivity.
    - rewrite <- X2. apply in_map. rewrite E1. assert (Hin : In x2 (p1 ++ o1)) by (rewrite <- C1, E2; apply in_or_app; right; left; reflexivity).
      apply in_app_or in Hin as [Hin|Hin]; apply in_or_app; [left|right; right]; exact Hin. }
  destruct (components_succeeds t [c]) as (tc & HC).
  - exact Ht.
  - exact Hr.
  - intros b Hin. apply Hb. exact Hin.
  - intros b n Hin [<-|[]] Hn. destruct (Hb b Hin) as [Hnd _]. inversion Hnd as [|? ? Hno _]. apply Hno. right. exact Hn.
  - pose proof (proj1 (components_wf _ _ _ Ht HC)) as Htc. destruct (components_names _ _ _ Ht HC) as [_ N].
    destruct (components_succeeds tc [a]) as (tca & HCA).
    + exact Htc.
    + exact (components_responsive _ _ _ Ht Hr HC).
    + intros b' Hin. destruct (block_has_key _ _ Htc Hin) as (key & K'). destruct (N _ _ K') as (b & pre & x & post & K & E & X & _ & -> & _).
      destruct (Hb b (block_of_In _ _ _ K)) as (Hnd & Ha & _). rewrite E, map_app in Ha. rewrite map_app. apply in_app_or in Ha as [Ha|Ha]; [apply in_or_app; left; exact Ha|].
      cbn in Ha. destruct Ha as [Ha|Ha]; [|apply in_or_app; right; exact Ha]. exfalso. rewrite X in Ha. injection Ha as ->. inversion Hnd as [|? ? Hno _]. apply Hno. left. reflexivity.
    + intros b' n Hin [<-|[]] Hn. destruct (block_has_key _ _ Htc Hin) as (key & K'). destruct (N _ _ K') as (b & pre & x & post & K & _ & _ & _ & _ & P & _). rewrite P in Hn.
      destruct (Hb b (block_of_In _ _ _ K)) as (Hnd & _). inversion Hnd as [|? ? Hno Hnd']. destruct Hn as [->|Hn]; [apply Hno; left; reflexivity|].
      inversion Hnd' as [|? ? Hno' _]. contradiction.
    + exists tc, tca. auto.
Qed.

Lemma two_components_names t ta tac tc tca a c :
  wf_tensor t ->
  components_to_properties t [a] = (ta, Ok tt) -> components_to_properties ta [c] = (tac, Ok tt) ->
  components_to_properties t [c] = (tc, Ok tt) -> components_to_properties tc [a] = (tca, Ok tt) ->
  forall key b1 b2, block_of tac key b1 -> block_of tca key b2 ->
    bb_samples (tb_values b1) = bb_samples (tb_values b2)
    /\ bb_components (tb_values b1) = bb_components (tb_values b2)
    /\ exists others, labels_names (bb_properties (tb_values b1)) = [c] ++ [a] ++ others
                      /\ labels_names (bb_properties (tb_values b2)) = [a] ++ [c] ++ others.
Proof.
  intros Ht HA HAC HC HCA key b1 b2 K1 K2. assert (Hne : forall n, [n] <> ([] : list string)) by discriminate.
  pose proof (proj1 (components_wf _ _ _ Ht HA)) as Hta. pose proof (proj1 (components_wf _ _ _ Ht HC)) as Htc.
  destruct (block_of_after _ _ _ _ _ (Hne c) HAC K1) as (ba & Ka & Cac). destruct (block_of_after _ _ _ _ _ (Hne a) HA Ka) as (b & K & Ca).
  destruct (block_of_after _ _ _ _ _ (Hne a) HCA K2) as (bc & Kc & Cca). destruct (block_of_after _ _ _ _ _ (Hne c) HC Kc) as (b0 & K0 & Cc).
  rewrite (block_of_unique _ _ _ _ Ht K0 K) in Cc. clear b0 K0.
  pose proof (wf_tensor_block _ _ _ Ht K) as W. pose proof (wf_tensor_block _ _ _ Hta Ka) as Wa. pose proof (wf_tensor_block _ _ _ Htc Kc) as Wc.
  destruct (block_components_ok _ _ _ W (Hne a) Ca) as ((p1 & x1 & o1 & M1) & _). destruct (block_components_ok _ _ _ Wa (Hne c) Cac) as ((p2 & x2 & o2 & M2) & _).
  destruct (block_components_ok _ _ _ W (Hne c) Cc) as ((p3 & x3 & o3 & M3) & _). destruct (block_components_ok _ _ _ Wc (Hne a) Cca) as ((p4 & x4 & o4 & M4) & _).
  split; [|split].
  - rewrite (cm_samples _ _ _ _ _ _ M2), (cm_samples _ _ _ _ _ _ M1), (cm_samples _ _ _ _ _ _ M4), (cm_samples _ _ _ _ _ _ M3). reflexivity.
  - rewrite (cm_components' _ _ _ _ _ _ M2), (cm_components' _ _ _ _ _ _ M4).
    destruct (two_places _ _ _ _ _ _ _ _ _ _ _ _ _ _ _ _ _ _ _ (proj1 W) (proj1 Wc) M1 M2 M3 M4) as [(m & -> & _ & -> & -> & _)|(m & _ & _ & -> & -> & -> & _)]; rewrite app_assoc; reflexivity.
  - exists (labels_names (bb_properties (tb_values b))).
    destruct (components_names _ _ _ Ht HA) as [_ N1]. destruct (N1 _ _ Ka) as (b3 & _ & _ & _ & K3 & _ & _ & _ & _ & P1 & _). rewrite (block_of_unique _ _ _ _ Ht K3 K) in P1.
    destruct (components_names _ _ _ Ht HC) as [_ N3]. destruct (N3 _ _ Kc) as (b4 & _ & _ & _ & K4 & _ & _ & _ & _ & P3 & _). rewrite (block_of_unique _ _ _ _ Ht K4 K) in P3.
    destruct (components_names _ _ _ Hta HAC) as [_ N2]. destruct (N2 _ _ K1) as (b5 & _ & _ & _ & K5 & _ & _ & _ & _ & P2 & _). rewrite (block_of_unique _ _ _ _ Hta K5 Ka) in P2.
    destruct (components_names _ _ _ Htc HCA) as [_ N4]. destruct (N4 _ _ K2) as (b6 & _ & _ & _ & K6 & _ & _ & _ & _ & P4 & _). rewrite (block_of_unique _ _ _ _ Htc K6 Kc) in P4.
    rewrite P2, P1, P4, P3. split; reflexivity.
Qed.
