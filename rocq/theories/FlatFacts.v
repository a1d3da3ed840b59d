(* Lemmas about moving components to the properties, the last one first *)
From Verif Require Import Base BaseFacts Labels Array Block Tensor Spec SpecTensor SpecFlat LabelsFacts ArrayFacts BlockFacts TensorFacts KeysFacts MergeFacts GroupFacts MergePropertiesFacts MovedFacts ComponentsFacts ComponentsExactFacts NumpyFacts CompleteFacts StepsFacts ComponentStepsFacts ComponentPropertiesFacts TwoComponentsFacts.
Local Open Scope string_scope.
Local Open Scope list_scope.
Local Open Scope nat_scope.

Lemma set_nth_same {A} (l : list A) : forall i x, nth_error l i = Some x -> set_nth l i x = l.
Proof. induction l as [|y l IH]; intros [|i] x H; cbn in *; try discriminate; [injection H as ->; reflexivity|]. rewrite IH by exact H. reflexivity. Qed.

Lemma swap_nth_same {A} (l : list A) i : swap_nth i i l = l.
Proof. unfold swap_nth. destruct (nth_error l i) as [x|] eqn:E; [|reflexivity]. rewrite (set_nth_same l i x E). apply set_nth_same. exact E. Qed.

Lemma swap_axes_same a i nd : wf_nd a -> nd_swap_axes i i a = Some nd -> nd_data nd = nd_data a.
Proof.
  intros Hw. unfold nd_swap_axes. destruct (_ && _); [|discriminate]. intros [= <-]. rewrite swap_nth_same. cbn [nd_tabulate nd_data].
  transitivity (map (fun idx => nth (ravel (nd_shape a) idx) (nd_data a) 0%Z) (all_indices (nd_shape a))).
  - apply map_ext. intros idx. rewrite swap_nth_same. reflexivity.
  - apply all_in_order. exact Hw.
Qed.

Lemma all_products_one l : all_products [l] = l.
Proof. cbn. induction l as [|r l IH]; [reflexivity|]. cbn. rewrite app_nil_r, IH. reflexivity. Qed.

Lemma all_products_app l1 l2 : all_products (l1 ++ [all_products l2]) = all_products (l1 ++ l2).
Proof. induction l1 as [|x l1 IH]; cbn [app]; [apply all_products_one|]. cbn [all_products]. rewrite IH. reflexivity. Qed.

Lemma flattened_none b : wf_basic b -> flattened [] b b.
Proof.
  intros (_ & _ & Hs & _). constructor; try reflexivity.
  - exists []. split; [rewrite app_nil_r; reflexivity|]. split; [reflexivity|]. split; [reflexivity|]. cbn [map app]. rewrite all_products_one. reflexivity.
  - exact Hs.
  - intros _ s cs [|x xs] pr v Hl _; [|discriminate Hl]. cbn [concat app]. rewrite app_nil_r. reflexivity.
Qed.

Lemma flattened_one n b pre x b' : wf_basic b -> wf_basic b' -> component_moved [n] b pre x [] b' -> flattened [n] b b'.
Proof.
  intros Hw Hw' M. pose proof (cm_components _ _ _ _ _ _ M) as Ec. pose proof (cm_components' _ _ _ _ _ _ M) as Ec'. rewrite app_nil_r in Ec'.
  constructor.
  - apply (cm_samples _ _ _ _ _ _ M).
  - exists [x]. split; [rewrite Ec, Ec'; reflexivity|]. split; [cbn; rewrite (cm_moved _ _ _ _ _ _ M); reflexivity|].
    split; [apply (moved_properties_names _ _ _ _ _ _ Hw M)|]. rewrite (moved_properties_rows _ _ _ _ _ _ Hw M). cbn [map app]. change (all_products [rows x; rows (bb_properties b)]) with (flat_map (fun r => map (app r) (all_products [rows (bb_properties b)])) (rows x)). rewrite all_products_one. reflexivity.

  - apply (cm_kind _ _ _ _ _ _ M).
  - exact (proj1 (proj2 (proj2 Hw'))).
  - intros Hk. destruct (cm_data _ _ _ _ _ _ M Hk) as (_ & nd1 & Hs & ->). cbn [length] in Hs. rewrite Nat.add_0_r in Hs.
    refine (swap_axes_same _ _ _ _ Hs). destruct Hw as ((Hl & _) & _). unfold wf_nd. rewrite prod_volume. exact (Hl Hk).
  - intros Hk s cs xs pr v Hl Hf. destruct xs as [|xv [|? ?]]; try discriminate Hl. cbn [concat]. rewrite app_nil_r.
    assert (Lc : forall cs0 pr0, entry b s cs0 pr0 v -> length cs0 = length pre + 1).
    { intros cs0 pr0 He. apply entry_iff in He as (i & js & k & _ & Hj & _). destruct (located_length _ _ _ Hj) as [_ L]. rewrite L, Ec, app_length. reflexivity. }
    rewrite (moved_entry _ _ _ _ _ _ Hw M Hk (Nat.le_0_l 1)). split.
    + intros (cs1 & yv & cs2 & pr0 & L1 & -> & Ep & He). apply app_eq_length in Ep as [<- <-]; [|inversion Hf; subst; rewrite (moved_entry_length _ _ _ _ _ _ _ Hw He); assumption].
      pose proof (Lc _ _ He) as L. rewrite app_length in L. cbn in L. destruct cs2 as [|? ?]; [|cbn in L; lia]. rewrite app_nil_r. exact He.
    + intros He. exists cs, xv, [], pr. pose proof (Lc _ _ He) as L. rewrite app_length in L. cbn in L. split; [lia|]. split; [rewrite app_nil_r; reflexivity|]. split; [reflexivity|exact He].
Qed.

Lemma flattened_more names n b b1 b' : flattened [n] b b1 -> flattened names b1 b' -> flattened (names ++ [n]) b b'.
Proof.
  intros F1 F2. destruct (fl_components _ _ _ F1) as (m1 & C1 & N1 & P1 & R1). destruct (fl_components _ _ _ F2) as (m2 & C2 & N2 & P2 & R2). constructor.
  - rewrite (fl_samples _ _ _ F2). apply (fl_samples _ _ _ F1).
  - exists (m2 ++ m1). split; [rewrite C1, C2, app_assoc; reflexivity|]. split; [rewrite !map_app, N1, N2; reflexivity|].
    split; [rewrite P2, P1, app_assoc; reflexivity|]. rewrite R2, R1, all_products_app, map_app, app_assoc. reflexivity.
  - rewrite (fl_kind _ _ _ F2). apply (fl_kind _ _ _ F1).
  - apply (fl_shape _ _ _ F2).
  - intros Hk. assert (Hk1 : a_kind (bb_data b1) <> RustEmptyArray) by (rewrite (fl_kind _ _ _ F1); exact Hk). rewrite (fl_data _ _ _ F2 Hk1). apply (fl_data _ _ _ F1 Hk).
  - intros Hk s cs xs pr v Hl Hf. assert (Hk1 : a_kind (bb_data b1) <> RustEmptyArray) by (rewrite (fl_kind _ _ _ F1); exact Hk).
    destruct xs as [|x xs _] using rev_ind; [rewrite app_length in Hl; cbn in Hl; lia|]. rewrite !app_length in Hl. cbn in Hl. apply Forall_app in Hf as [Hf Hx].
    rewrite concat_app, <- app_assoc. cbn [concat]. rewrite app_nil_r. rewrite (fl_entries _ _ _ F2 Hk1) by (try exact Hf; lia).
    pose proof (fl_entries _ _ _ F1 Hk s (cs ++ xs) [x] pr v eq_refl Hx) as E. cbn [concat] in E. rewrite app_nil_r in E. rewrite E, app_assoc. reflexivity.
Qed.

Lemma last_one n front (pre post : list Labels) x : labels_names x = [n] -> NoDup (map labels_names (pre ++ x :: post)) ->
  map labels_names (pre ++ x :: post) = front ++ [[n]] -> post = [] /\ map labels_names pre = front.
Proof.
  intros Hx Hnd E. rewrite map_app in *. cbn [map] in *. rewrite Hx in *.
  assert (L : length (map labels_names pre) = length front).
  { eapply NoDup_nth_error_inj; [exact Hnd|apply nth_error_middle|]. rewrite E. apply nth_error_middle. }
  destruct (app_eq_length _ _ _ _ L E) as [-> E']. injection E' as E'. destruct post; [auto|discriminate E'].
Qed.

Lemma flat_one n names b b' : wf_block b -> wf_block b' -> last_components (names ++ [n]) b -> tensor_block_components_to_properties b [n] = (b', Ok tt) ->
  flat_block [n] b b' /\ last_components names b'.
Proof.
  intros Hw Hw' (front & El) H. assert (Hne : [n] <> []) by discriminate. destruct (block_components_ok _ _ _ Hw Hne H) as ((pre & x & post & M) & G & _).
  rewrite map_app, app_assoc in El. cbn [map] in El. pose proof El as El'. rewrite (cm_components _ _ _ _ _ _ M) in El'.
  assert (Hnd : NoDup (map labels_names (pre ++ x :: post))) by (destruct Hw as ((_ & _ & _ & _ & N) & _); rewrite <- (cm_components _ _ _ _ _ _ M); exact N).
  destruct (last_one _ _ _ _ _ (cm_moved _ _ _ _ _ _ M) Hnd El') as [-> Ep]. split; [split|].
  - exact (flattened_one _ _ _ _ _ (proj1 Hw) (proj1 Hw') M).
  - assert (K : forall g g', In g (tb_gradients b) -> In g' (tb_gradients b') ->
        fst g' = fst g /\ (exists pre x post, component_moved [n] (snd g) pre x post (snd g')) -> fst g' = fst g /\ flattened [n] (snd g) (snd g')).
    { intros [q g] [q' g'] I I' (E & p1 & x1 & o1 & Mg). cbn [fst snd] in *. split; [exact E|].
      destruct (gradient_component_place _ _ _ _ _ _ _ _ _ _ _ _ Hw I M Mg) as (_ & L & _). destruct o1; [|discriminate L].
      destruct (wf_block_gradient _ _ _ Hw I) as (Wg & _). destruct (wf_block_gradient _ _ _ Hw' I') as (Wg' & _). exact (flattened_one _ _ _ _ _ Wg Wg' Mg). }
    clear - G K. induction G as [|g g' l l' Hg G IH]; constructor.
    + apply K; [left; reflexivity|left; reflexivity|exact Hg].
    + apply IH. intros a a' I I'. apply K; right; assumption.
  - exists front. rewrite (cm_components' _ _ _ _ _ _ M), app_nil_r. exact Ep.
Qed.

Lemma flat_more names n b b1 b' : flat_block [n] b b1 -> flat_block names b1 b' -> flat_block (names ++ [n]) b b'.
Proof.
  intros [F1 G1] [F2 G2]. split; [exact (flattened_more _ _ _ _ _ F1 F2)|]. clear F1 F2. revert G2. generalize (tb_gradients b') as l'.
  induction G1 as [|g g1 l l1 [E1 Hg] G1 IH]; intros l' G2; inversion G2 as [|? g' ? l2 [E2 Hg'] G2']; subst; constructor; [|apply IH; assumption].
  split; [congruence|]. exact (flattened_more _ _ _ _ _ Hg Hg').
Qed.

Lemma flat_tensor names : forall t t', wf_tensor t -> (forall b, In b (tm_blocks t) -> last_components names b) -> moved_in_turn t (rev names) t' ->
  wf_tensor t' /\ tm_keys t' = tm_keys t /\ Forall2 (flat_block names) (tm_blocks t) (tm_blocks t').
Proof.
  induction names as [|n names IH] using rev_ind; intros t t' Ht Hl H.
  - cbn in H. inversion H; subst. split; [exact Ht|]. split; [reflexivity|]. destruct Ht as (_ & Hb & _). clear - Hb.
    induction Hb as [|b l Hb _ IHl]; constructor; [|exact IHl]. split; [apply flattened_none, Hb|]. pose proof (fun q g => wf_block_gradient b q g Hb) as G.
    clear - G. induction (tb_gradients b) as [|[q g] gs IHg]; constructor.
    + split; [reflexivity|]. apply flattened_none. exact (proj1 (G q g (or_introl eq_refl))).
    + apply IHg. intros q' g' I. apply G. right. exact I.
  - rewrite rev_app_distr in H. cbn [rev app] in H. inversion H as [|? ? t1 ? ? H1 H2]; subst. pose proof (proj1 (components_wf _ _ _ Ht H1)) as Ht1.
    assert (Hne : [n] <> []) by discriminate. destruct (components_to_properties_ok _ _ _ Hne H1) as [K1 F].
    assert (F' : Forall2 (fun b b1 => flat_block [n] b b1 /\ last_components names b1) (tm_blocks t) (tm_blocks t1)).
    { destruct Ht as (_ & Hb & _), Ht1 as (_ & Hb1 & _). clear - F Hb Hb1 Hl. induction F as [|b b1 l l1 Hc F IHf]; constructor; inversion Hb; inversion Hb1; subst.
      - apply (flat_one _ _ _ _); [assumption|assumption|apply Hl; left; reflexivity|exact Hc].
      - apply IHf; try assumption. intros x I; apply Hl; right; exact I. }
    destruct (IH t1 t' Ht1) as (Ht' & K2 & F2); [|exact H2|].
    + intros b1 I. destruct (Forall2_In_r _ _ _ _ F' I) as (b & _ & _ & L). exact L.
    + split; [exact Ht'|]. split; [congruence|]. clear - F' F2. revert F2. generalize (tm_blocks t') as l'.
      induction F' as [|b b1 l l1 [Hb _] F' IHf]; intros l' F2; inversion F2; subst; constructor; [|apply IHf; assumption]. eapply flat_more; eassumption.
Qed.

Lemma flat_accepted names : forall t, wf_tensor t -> Forall responsive_block (tm_blocks t) -> (forall b, In b (tm_blocks t) -> last_components names b) ->
  (forall b n, In b (tm_blocks t) -> In n names -> ~ In n (labels_names (bb_properties (tb_values b)))) ->
  NoDup names -> exists t', moved_in_turn t (rev names) t'.
Proof.
  induction names as [|n names IH] using rev_ind; intros t Ht Hr Hl Hn Hnd; [exists t; constructor|].
  destruct (components_succeeds t [n]) as (t1 & H1).
  - exact Ht.
  - exact Hr.
  - intros b I. destruct (Hl b I) as (front & E). rewrite E, map_app. apply in_or_app. right. apply in_or_app. right. left. reflexivity.
  - intros b m I [<-|[]]. apply Hn; [exact I|]. apply in_or_app. right. left. reflexivity.
  - pose proof (proj1 (components_wf _ _ _ Ht H1)) as Ht1. assert (Hne : [n] <> []) by discriminate. destruct (components_to_properties_ok _ _ _ Hne H1) as [_ F].
    assert (S : forall b1, In b1 (tm_blocks t1) -> exists b, In b (tm_blocks t) /\ flat_block [n] b b1 /\ last_components names b1).
    { intros b1 I1. destruct (Forall2_In_r _ _ _ _ F I1) as (b & I & Hc). exists b. split; [exact I|]. destruct Ht as (_ & Hb & _), Ht1 as (_ & Hb1 & _). rewrite Forall_forall in Hb, Hb1.
      apply flat_one; [apply Hb; exact I|apply Hb1; exact I1|apply Hl; exact I|exact Hc]. }
    destruct (NoDup_remove _ _ _ Hnd) as [Hnd1 Hnot]. rewrite app_nil_r in Hnd1, Hnot. destruct (IH t1 Ht1) as (t' & H2).
    + exact (components_responsive _ _ _ Ht Hr H1).
    + intros b1 I1. destruct (S b1 I1) as (_ & _ & _ & L). exact L.
    + intros b1 m I1 Im. destruct (S b1 I1) as (b & I & [Fb _] & _). destruct (fl_components _ _ _ Fb) as (_ & _ & _ & P & _). rewrite P. intros [->|Hin]; [contradiction|].
      revert Hin. apply Hn; [exact I|apply in_or_app; left; exact Im].
    + exact Hnd1.
    + exists t'. rewrite rev_app_distr. cbn [rev app]. econstructor; eassumption.
Qed.
