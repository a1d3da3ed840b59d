(* Lemmas about moving keys in several steps *)
From Coq Require Import Permutation Sorted.
From Verif Require Import Base BaseFacts Labels Array Block Tensor Spec SpecTensor LabelsFacts ArrayFacts BlockFacts TensorFacts KeysFacts MergeFacts GroupFacts BlocksFacts MergePropertiesFacts MovedFacts.
Local Open Scope string_scope.
Local Open Scope list_scope.
Local Open Scope nat_scope.

(** * Parts of keys *)

Lemma is_moved_true v n : is_moved v n = true <-> In n v.
Proof. unfold is_moved. destruct (in_dec string_dec n v); split; intros; try discriminate; auto; contradiction. Qed.

Lemma is_moved_app v1 v2 n : is_moved (v1 ++ v2) n = is_moved v1 n || is_moved v2 n.
Proof.
  destruct (is_moved (v1 ++ v2) n) eqn:E; symmetry.
  - apply is_moved_true in E. apply orb_true_iff. apply in_app_or in E as [E|E]; [left|right]; apply is_moved_true; assumption.
  - apply orb_false_iff. split; apply not_true_iff_false; intros K; apply is_moved_true in K; apply not_true_iff_false in E; apply E, is_moved_true, in_or_app; auto.
Qed.

Lemma filter_filter {A} (f g : A -> bool) l : filter f (filter g l) = filter (fun x => g x && f x) l.
Proof. induction l as [|x l IH]; [reflexivity|]. cbn [filter]. destruct (g x); cbn [filter andb]; rewrite IH; reflexivity. Qed.

Lemma named_kept v names : forall key, length key = length names ->
  named (kept_names v names) (kept_part v names key) = filter (fun nv => negb (is_moved v (fst nv))) (named names key).
Proof.
  unfold kept_part, kept_names, named. induction names as [|n names IH]; intros [|x key] H; cbn in H; try discriminate; [reflexivity|].
  cbn [filter combine map fst]. destruct (is_moved v n); cbn [negb map combine snd]; rewrite IH by lia; reflexivity.
Qed.

Lemma kept_names_steps v1 v2 names : kept_names v2 (kept_names v1 names) = kept_names (v1 ++ v2) names.
Proof. unfold kept_names. rewrite filter_filter. apply filter_ext. intros n. rewrite is_moved_app, negb_orb. reflexivity. Qed.

Lemma kept_part_steps v1 v2 names key : length key = length names ->
  kept_part v2 (kept_names v1 names) (kept_part v1 names key) = kept_part (v1 ++ v2) names key.
Proof.
  intros H. unfold kept_part at 1. rewrite named_kept by exact H. rewrite filter_filter. unfold kept_part. f_equal. apply filter_ext.
  intros nv. rewrite is_moved_app, negb_orb. reflexivity.
Qed.

Lemma moved_part_kept v1 v2 names key : length key = length names -> (forall n, In n v2 -> ~ In n v1) ->
  moved_part v2 (kept_names v1 names) (kept_part v1 names key) = moved_part v2 names key.
Proof.
  intros H Hd. unfold moved_part at 1. rewrite named_kept by exact H. rewrite filter_filter. unfold moved_part. f_equal. apply filter_ext.
  intros nv. destruct (is_moved v2 (fst nv)) eqn:E; [|apply andb_false_r]. apply is_moved_true in E. rewrite andb_true_r, negb_true_iff.
  apply not_true_iff_false. intros K. apply is_moved_true in K. exact (Hd _ E K).
Qed.

Lemma named_fst names : forall key : list Z, length key = length names -> map fst (named names key) = names.
Proof. unfold named. induction names as [|n names IH]; intros [|x key] H; cbn in *; try discriminate; [reflexivity|]. rewrite IH by lia. reflexivity. Qed.

Lemma map_fst_filter {B} (f : string -> bool) (l : list (string * B)) : map fst (filter (fun nv => f (fst nv)) l) = filter f (map fst l).
Proof. induction l as [|[n x] l IH]; [reflexivity|]. cbn [filter map fst]. destruct (f n); cbn [map fst]; rewrite IH; reflexivity. Qed.

Lemma filter_all {A} (f : A -> bool) l : (forall x, In x l -> f x = true) -> filter f l = l.
Proof. induction l as [|x l IH]; intros H; [reflexivity|]. cbn [filter]. rewrite (H x (or_introl eq_refl)), IH; [reflexivity|]. intros y Hy. apply H. right. exact Hy. Qed.

Lemma filter_none {A} (f : A -> bool) l : (forall x, In x l -> f x = false) -> filter f l = [].
Proof. induction l as [|x l IH]; intros H; [reflexivity|]. cbn [filter]. rewrite (H x (or_introl eq_refl)), IH; [reflexivity|]. intros y Hy. apply H. right. exact Hy. Qed.

Lemma split_map_fst {B} v1 v2 : forall l : list (string * B), map fst l = v1 ++ v2 -> exists l1 l2, l = l1 ++ l2 /\ map fst l1 = v1 /\ map fst l2 = v2.
Proof.
  induction v1 as [|n v1 IH]; intros l H; [exists [], l; auto|]. destruct l as [|[m x] l]; [discriminate|]. cbn in H. injection H as -> H.
  destruct (IH l H) as (l1 & l2 & -> & <- & <-). exists ((n, x) :: l1), l2. auto.
Qed.

Lemma moved_part_app v1 v2 names key : length key = length names -> NoDup names -> in_key_order (v1 ++ v2) names ->
  moved_part (v1 ++ v2) names key = moved_part v1 names key ++ moved_part v2 names key.
Proof.
  intros H Hn Ho. unfold in_key_order in Ho. set (l := filter (fun nv => is_moved (v1 ++ v2) (fst nv)) (named names key)).
  assert (Hl : map fst l = v1 ++ v2) by (unfold l; rewrite (map_fst_filter (is_moved (v1 ++ v2))), named_fst by exact H; exact Ho).
  assert (Hd : NoDup (v1 ++ v2)) by (rewrite <- Ho; apply NoDup_filter; exact Hn).
  assert (D : forall n, In n v1 -> In n v2 -> False).
  { intros n K1 K2. apply in_split in K1 as (a & b & ->). rewrite <- app_assoc in Hd. cbn in Hd. apply NoDup_remove_2 in Hd. apply Hd. rewrite !in_app_iff. auto. }
  destruct (split_map_fst _ _ _ Hl) as (l1 & l2 & El & E1 & E2).
  assert (P1 : moved_part v1 names key = map snd l1).
  { unfold moved_part. replace (filter (fun nv => is_moved v1 (fst nv)) (named names key)) with (filter (fun nv => is_moved v1 (fst nv)) l).
    2:{ unfold l. rewrite filter_filter. apply filter_ext. intros nv. rewrite is_moved_app. destruct (is_moved v1 (fst nv)); [reflexivity|apply andb_false_r]. }
    rewrite El, filter_app, filter_all, filter_none, app_nil_r; [reflexivity| |].
    - intros nv K. apply not_true_iff_false. intros K1. apply is_moved_true in K1. apply (D (fst nv) K1). rewrite <- E2. apply in_map. exact K.
    - intros nv K. apply is_moved_true. rewrite <- E1. apply in_map. exact K. }
  assert (P2 : moved_part v2 names key = map snd l2).
  { unfold moved_part. replace (filter (fun nv => is_moved v2 (fst nv)) (named names key)) with (filter (fun nv => is_moved v2 (fst nv)) l).
    2:{ unfold l. rewrite filter_filter. apply filter_ext. intros nv. rewrite is_moved_app. destruct (is_moved v2 (fst nv)); [rewrite orb_true_r; reflexivity|apply andb_false_r]. }
    rewrite El, filter_app, (filter_none _ l1), (filter_all _ l2); [reflexivity| |].
    - intros nv K. apply is_moved_true. rewrite <- E2. apply in_map. exact K.
    - intros nv K. apply not_true_iff_false. intros K2. apply is_moved_true in K2. apply (D (fst nv)); [|exact K2]. rewrite <- E1. apply in_map. exact K. }
  rewrite P1, P2. unfold moved_part. fold l. rewrite El, map_app. reflexivity.
Qed.

Lemma order_disjoint v1 v2 names : NoDup names -> in_key_order (v1 ++ v2) names -> forall n, In n v2 -> ~ In n v1 /\ In n names.
Proof.
  intros Hn Ho n K2. unfold in_key_order in Ho. assert (Hd : NoDup (v1 ++ v2)) by (rewrite <- Ho; apply NoDup_filter; exact Hn). split.
  - intros K1. apply in_split in K1 as (a & b & ->). rewrite <- app_assoc in Hd. cbn in Hd. apply NoDup_remove_2 in Hd. apply Hd. rewrite !in_app_iff. auto.
  - assert (K : In n (filter (is_moved (v1 ++ v2)) names)) by (rewrite Ho; apply in_or_app; auto). apply filter_In in K. apply K.
Qed.

Lemma kept_nonempty v names n : In n names -> ~ In n v -> kept_names v names <> [].
Proof.
  intros H Hn E. assert (K : In n (kept_names v names)).
  { unfold kept_names. apply filter_In. split; [exact H|]. apply negb_true_iff, not_true_iff_false. intros K. apply is_moved_true in K. contradiction. }
  rewrite E in K. exact K.
Qed.

Lemma new_key_names_kept v names : kept_names v names <> [] -> new_key_names v names = kept_names v names.
Proof. unfold new_key_names. destruct (kept_names v names); congruence. Qed.

Lemma new_key_kept v names key : kept_names v names <> [] -> new_key v names key = kept_part v names key.
Proof. unfold new_key. destruct (kept_names v names); congruence. Qed.

Lemma new_key_names_steps v1 v2 names : kept_names v1 names <> [] -> new_key_names v2 (new_key_names v1 names) = new_key_names (v1 ++ v2) names.
Proof. intros H. rewrite (new_key_names_kept v1 names H). unfold new_key_names. rewrite kept_names_steps. reflexivity. Qed.

Lemma new_key_steps v1 v2 names key : kept_names v1 names <> [] -> length key = length names ->
  new_key v2 (new_key_names v1 names) (new_key v1 names key) = new_key (v1 ++ v2) names key.
Proof.
  intros H Hl. rewrite (new_key_names_kept v1 names H), (new_key_kept v1 names key H). unfold new_key. rewrite kept_names_steps, kept_part_steps by exact Hl. reflexivity.
Qed.

Lemma new_key_swap v1 v2 names key : new_key (v1 ++ v2) names key = new_key (v2 ++ v1) names key.
Proof.
  assert (E : kept_names (v1 ++ v2) names = kept_names (v2 ++ v1) names).
  { unfold kept_names. apply filter_ext. intros n. rewrite !is_moved_app, orb_comm. reflexivity. }
  unfold new_key. rewrite E. destruct (kept_names (v2 ++ v1) names); [reflexivity|]. unfold kept_part. f_equal. apply filter_ext.
  intros nv. rewrite !is_moved_app, orb_comm. reflexivity.
Qed.

Lemma key_length t key b : wf_tensor t -> block_of t key b -> length key = length (labels_names (tm_keys t)).
Proof.
  intros ([Hk _] & _) H. apply block_of_key in H. pose proof (wf_rows _ Hk) as [K _]. rewrite Forall_forall in K. exact (K key H).
Qed.

Lemma key_names_NoDup t : wf_tensor t -> NoDup (labels_names (tm_keys t)).
Proof. intros ([Hk _] & _). apply (wf_names_good _ Hk). Qed.

(** * Order of first appearance *)

Lemma first_index {A} (l : list A) (dec : forall x y : A, {x = y} + {x <> y}) x : In x l ->
  exists a, nth_error l a = Some x /\ forall a', nth_error l a' = Some x -> a <= a'.
Proof.
  induction l as [|y l IH]; intros H; [contradiction|]. destruct (dec y x) as [->|Hne].
  - exists 0. split; [reflexivity|]. lia.
  - destruct H as [H|H]; [contradiction|]. destruct (IH H) as (a & Ha & Hm). exists (S a). split; [exact Ha|].
    intros [|a'] K; cbn in K; [congruence|]. specialize (Hm a' K). lia.
Qed.

Lemma first_appearance_map {A} (f : list A -> list A) (dec : forall x y : A, {x = y} + {x <> y}) all d d2 :
  first_appearance all d -> first_appearance (map f d) d2 -> first_appearance (map f all) d2.
Proof.
  intros (_ & Hin & Ho) (Hn2 & Hin2 & Ho2). split; [exact Hn2|]. split.
  - intros x. rewrite Hin2, !in_map_iff. split; intros (y & <- & Hy); exists y; (split; [reflexivity|]); apply Hin; exact Hy.
  - intros i j x y Hij Hi Hj. destruct (Ho2 i j x y Hij Hi Hj) as (a & Ha & Hb).
    rewrite nth_error_map in Ha. destruct (nth_error d a) as [u|] eqn:Eu; [|discriminate]. cbn in Ha. injection Ha as <-.
    assert (Hu : In u all) by (apply Hin; eapply nth_error_In; exact Eu).
    destruct (first_index all (list_eq_dec dec) u Hu) as (a0 & Ha0 & Hm). exists a0. split; [rewrite nth_error_map, Ha0; reflexivity|].
    intros b Hb'. rewrite nth_error_map in Hb'. destruct (nth_error all b) as [w|] eqn:Ew; [|discriminate]. cbn in Hb'. injection Hb' as <-.
    assert (Hw : In w d) by (apply Hin; eapply nth_error_In; exact Ew). apply In_nth_error in Hw as [bd Hbd].
    assert (Hlt : a < bd) by (apply Hb; rewrite nth_error_map, Hbd; reflexivity).
    destruct (Ho a bd u w Hlt Eu Hbd) as (a1 & Ha1 & Hb1). specialize (Hm a1 Ha1). specialize (Hb1 b Ew). lia.
Qed.

Lemma first_appearance_unique {A} (all : list A) : forall d1 d2, first_appearance all d1 -> first_appearance all d2 -> d1 = d2.
Proof.
  assert (H : forall d1 d2, first_appearance all d1 -> first_appearance all d2 -> forall i x, nth_error d1 i = Some x -> nth_error d2 i = Some x).
  2:{ intros d1 d2 H1 H2. apply nth_error_ext. intros i. destruct (nth_error d1 i) as [x|] eqn:E1.
      - symmetry. exact (H d1 d2 H1 H2 i x E1).
      - destruct (nth_error d2 i) as [y|] eqn:E2; [|reflexivity]. rewrite (H d2 d1 H2 H1 i y E2) in E1. discriminate. }
  intros d1 d2 (N1 & I1 & O1) (N2 & I2 & O2).
  assert (Hlen : length d1 = length d2).
  { apply Nat.le_antisymm; apply NoDup_incl_length; auto; intros x Hx; [apply I2, I1|apply I1, I2]; exact Hx. }
  induction i as [i IH] using lt_wf_ind. intros x Hx.
  destruct (nth_error d2 i) as [y|] eqn:Ey.
  2:{ apply nth_error_None in Ey. assert (i < length d1) by (apply nth_error_Some; congruence). lia. }
  assert (Hxd : In x d2) by (apply I2, I1; eapply nth_error_In; exact Hx). apply In_nth_error in Hxd as [j Hj].
  assert (Hyd : In y d1) by (apply I1, I2; eapply nth_error_In; exact Ey). apply In_nth_error in Hyd as [k Hk].
  destruct (Nat.lt_trichotomy j i) as [Hji|[->|Hji]]; [|congruence|].
  - destruct (nth_error d1 j) as [z|] eqn:Ez.
    2:{ apply nth_error_None in Ez. assert (j < length d2) by (apply nth_error_Some; congruence). lia. }
    pose proof (IH j Hji z Ez) as K. assert (z = x) by congruence. subst z.
    assert (i = j); [|lia]. apply (proj1 (NoDup_nth_error d1) N1); [apply nth_error_Some; congruence|congruence].
  - destruct (Nat.lt_trichotomy k i) as [Hki|[->|Hki]]; [|congruence|].
    + pose proof (IH k Hki y Hk) as K. assert (k = i); [|lia]. apply (proj1 (NoDup_nth_error d2) N2); [apply nth_error_Some; congruence|congruence].
    + destruct (O1 i k x y Hki Hx Hk) as (a & Ha & Hb). destruct (O2 i j y x Hji Ey Hj) as (a2 & Ha2 & Hb2).
      specialize (Hb a2 Ha2). specialize (Hb2 a Ha). lia.
Qed.

(** * Two moves to the samples *)

Lemma lex_irrefl r : ~ lex_lt r r.
Proof.
  intros [(common & x & y & t1 & t2 & E1 & E2 & Hlt)|(y & t2 & E)].
  - rewrite E1 in E2. apply app_inv_head in E2. injection E2 as -> _. lia.
  - apply (f_equal (@length Z)) in E. rewrite app_length in E. cbn in E. lia.
Qed.

Lemma lex_sorted_unique l1 l2 : StronglySorted lex_lt l1 -> StronglySorted lex_lt l2 -> (forall x, In x l1 <-> In x l2) -> l1 = l2.
Proof.
  assert (L : forall l, StronglySorted lex_lt l -> StronglySorted row_lt l).
  { induction 1 as [|x l Hs IH Hf]; constructor; [assumption|]. eapply Forall_impl; [|exact Hf]. intros r Hr. apply row_lt_lex. assumption. }
  intros H1 H2 H. apply sorted_unique; auto.
Qed.

(* arrays with the same axes and entries hold the same elements *)
Lemma same_elements a b : wf_basic a -> wf_basic b -> Forall2 same_labels (axes a) (axes b) ->
  (forall s cs pr v, entry a s cs pr v -> entry b s cs pr v) -> forall idx v, element (bb_data a) idx v -> element (bb_data b) idx v.
Proof.
  intros Ha Hb Hs He idx v Hel.
  assert (Hc : exists coordinates, located (axes a) idx coordinates).
  { destruct Hel as [Hin _]. destruct Ha as (_ & _ & Hsh & _). rewrite Hsh in Hin. clear - Hin. revert idx Hin. generalize (axes a).
    induction l as [|l ls IH]; intros [|i idx] H; inversion H; subst; [exists []; exact I|].
    destruct (IH _ H5) as (cs & Hcs). destruct (nth_error (rows l) i) as [r|] eqn:Er.
    - exists (r :: cs). split; assumption.
    - apply nth_error_None in Er. lia. }
  destruct Hc as (coordinates & Hl). pose proof (located_length _ _ _ Hl) as [_ Hlen].
  assert (Hform : exists s cs pr, coordinates = s :: cs ++ [pr]).
  { destruct coordinates as [|s rest]; [discriminate|]. unfold axes in Hlen. cbn in Hlen. rewrite app_length in Hlen. cbn in Hlen.
    destruct (exists_last (l := rest)) as (cs & pr & ->); [intros ->; cbn in Hlen; lia|]. exists s, cs, pr. reflexivity. }
  destruct Hform as (s & cs & pr & ->).
  destruct (He s cs pr v (ex_intro _ idx (conj Hl Hel))) as (idx' & Hl' & Hel').
  rewrite (located_same _ _ Hs) in Hl. replace idx with idx'; [exact Hel'|].
  destruct Hb as (_ & Hax & _). clear - Hl Hl' Hax. revert idx idx' Hl Hl'. generalize (s :: cs ++ [pr]). revert Hax. generalize (axes b).
  induction l as [|l ls IH]; intros Hax coords [|i1 idx1] [|i2 idx2]; destruct coords as [|c coords]; simpl; try tauto.
  intros [H1 L1] [H2 L2]. inversion Hax as [|? ? [Hl _] Hls]; subst. f_equal.
  - eapply NoDup_nth_error_inj; [apply (wf_rows_NoDup _ Hl)|exact H2|exact H1].
  - eapply IH; eauto.
Qed.

(* the samples of the blocks after a move *)
Lemma samples_of p t keys sort t' : wf_tensor t -> keys_to_samples p t keys sort = (t', Ok tt) ->
  forall e s', (exists b, block_of t' e b /\ In s' (rows (bb_samples (tb_values b)))) <->
    exists key s, (exists b, block_of t key b /\ In s (rows (bb_samples (tb_values b))))
      /\ e = new_key (labels_names keys) (labels_names (tm_keys t)) key
      /\ s' = s ++ moved_part (labels_names keys) (labels_names (tm_keys t)) key.
Proof.
  intros Ht H e s'. destruct (keys_to_samples_blocks _ _ _ _ _ Ht H) as (_ & _ & _ & _ & Hk). split.
  - intros (b' & Hb' & Hs). apply (proj1 (keys_to_samples_order _ _ _ _ _ Ht H e b' Hb')) in Hs. apply in_flat_map in Hs as ([key b] & Hin & Hs).
    apply in_merged_together in Hin as [Hb <-]. apply in_map_iff in Hs as (s & <- & Hs). exists key, s. cbn [fst snd] in *. eauto.
  - intros (key & s & (b & Hb & Hs) & -> & ->). destruct (Hk _ _ Hb) as (b' & Hb'). exists b'. split; [exact Hb'|].
    apply (proj1 (keys_to_samples_order _ _ _ _ _ Ht H _ b' Hb')). apply in_flat_map. exists (key, b). split; [apply in_merged_together; auto|].
    apply in_map_iff. exists s. auto.
Qed.

Section TwoSteps.
  Variables (p : profile) (t t1 t2 t' : TensorMap) (k1 k2 k : Labels) (sort1 sort2 sort : bool).
  Hypothesis (Ht : wf_tensor t)
    (H1 : keys_to_samples p t k1 sort1 = (t1, Ok tt))
    (H2 : keys_to_samples p t1 k2 sort2 = (t2, Ok tt))
    (H : keys_to_samples p t k sort = (t', Ok tt))
    (Hk : labels_names k = labels_names k1 ++ labels_names k2)
    (Ho : in_key_order (labels_names k) (labels_names (tm_keys t))).

  Let v1 := labels_names k1.
  Let v2 := labels_names k2.
  Let names := labels_names (tm_keys t).

  Lemma steps_wf : wf_tensor t1.
  Proof. apply (keys_to_samples_wf _ _ _ _ _ Ht H1). Qed.

  Lemma steps_v2 : v2 <> [].
  Proof.
    apply keys_to_samples_inv in H2 as (nk & pos & bs & _ & Hc & _). apply labels_count_0_names. exact Hc.
  Qed.

  Lemma steps_kept : kept_names v1 names <> [].
  Proof.
    destruct v2 as [|n rest] eqn:E; [destruct (steps_v2 E)|].
    unfold v2 in E. rewrite Hk, E in Ho.
    destruct (order_disjoint _ _ _ (key_names_NoDup _ Ht) Ho n (or_introl eq_refl)) as [K1 K2]. exact (kept_nonempty _ _ n K2 K1).
  Qed.

  Lemma steps_names1 : labels_names (tm_keys t1) = new_key_names v1 names.
  Proof. apply (keys_to_samples_keys _ _ _ _ _ Ht H1). Qed.

  Lemma steps_new_key key : length key = length names -> new_key v2 (labels_names (tm_keys t1)) (new_key v1 names key) = new_key (labels_names k) names key.
  Proof. intros Hl. rewrite steps_names1, Hk. apply new_key_steps; [exact steps_kept|exact Hl]. Qed.

  Lemma steps_moved key : length key = length names ->
    moved_part (labels_names k) names key = moved_part v1 names key ++ moved_part v2 (labels_names (tm_keys t1)) (new_key v1 names key).
  Proof.
    intros Hl. rewrite steps_names1, (new_key_names_kept _ _ steps_kept), (new_key_kept _ _ _ steps_kept), Hk.
    rewrite moved_part_kept; [|exact Hl|].
    - apply moved_part_app; [exact Hl|apply (key_names_NoDup _ Ht)|rewrite Hk in Ho; exact Ho].
    - intros n Hn. rewrite Hk in Ho. apply (order_disjoint _ _ _ (key_names_NoDup _ Ht) Ho n Hn).
  Qed.

  Lemma steps_keys : labels_names (tm_keys t2) = labels_names (tm_keys t') /\ rows (tm_keys t2) = rows (tm_keys t').
  Proof.
    destruct (keys_to_samples_keys _ _ _ _ _ Ht H1) as [_ F1]. destruct (keys_to_samples_keys _ _ _ _ _ steps_wf H2) as [N2 F2].
    destruct (keys_to_samples_keys _ _ _ _ _ Ht H) as [N F]. split.
    - rewrite N2, N, steps_names1, Hk. apply new_key_names_steps. exact steps_kept.
    - eapply first_appearance_unique; [|exact F]. pose proof (first_appearance_map _ Z.eq_dec _ _ _ F1 F2) as F3. rewrite map_map in F3.
      erewrite map_ext_in; [exact F3|]. intros key Hkey. symmetry. apply steps_new_key. apply wf_rows_length; [apply Ht|exact Hkey].
  Qed.

  (* what holds for both ways, for anything which follows the samples *)
  Lemma steps_follow {B} (P P1 P2 P' : list Z -> list Z -> B -> Prop) :
    (forall e s b, P e s b -> In e (rows (tm_keys t))) ->
    (forall e s' b, P1 e s' b <-> exists key s, P key s b /\ e = new_key v1 names key /\ s' = s ++ moved_part v1 names key) ->
    (forall e s' b, P2 e s' b <-> exists key s, P1 key s b /\ e = new_key v2 (labels_names (tm_keys t1)) key /\ s' = s ++ moved_part v2 (labels_names (tm_keys t1)) key) ->
    (forall e s' b, P' e s' b <-> exists key s, P key s b /\ e = new_key (labels_names k) names key /\ s' = s ++ moved_part (labels_names k) names key) ->
    forall e s b, P2 e s b <-> P' e s b.
  Proof.
    intros HP E1 E2 E' e s' b. rewrite E2, E'. split.
    - intros (key1 & s1 & K & -> & ->). apply E1 in K as (key & s & K & -> & ->). exists key, s. split; [exact K|].
      assert (Hl : length key = length names) by (apply wf_rows_length; [apply Ht|exact (HP _ _ _ K)]).
      rewrite steps_new_key, steps_moved, app_assoc by exact Hl. auto.
    - intros (key & s & K & -> & ->). assert (Hl : length key = length names) by (apply wf_rows_length; [apply Ht|exact (HP _ _ _ K)]).
      exists (new_key v1 names key), (s ++ moved_part v1 names key). split; [apply E1; eauto|].
      rewrite steps_new_key, steps_moved, app_assoc by exact Hl. auto.
  Qed.

  Lemma steps_entries e s cs pr v : tensor_entry t2 e s cs pr v <-> tensor_entry t' e s cs pr v.
  Proof.
    refine (steps_follow (fun e s (x : list (list Z) * list Z * Z) => tensor_entry t e s (fst (fst x)) (snd (fst x)) (snd x))
      (fun e s x => tensor_entry t1 e s (fst (fst x)) (snd (fst x)) (snd x)) (fun e s x => tensor_entry t2 e s (fst (fst x)) (snd (fst x)) (snd x))
      (fun e s x => tensor_entry t' e s (fst (fst x)) (snd (fst x)) (snd x)) _ _ _ _ e s (cs, pr, v)).
    - intros e0 s0 b0 K. apply tensor_entry_block in K as (b & K & _). eapply block_of_key; exact K.
    - intros. apply (keys_to_samples_values _ _ _ _ _ Ht H1).
    - intros. apply (keys_to_samples_values _ _ _ _ _ steps_wf H2).
    - intros. apply (keys_to_samples_values _ _ _ _ _ Ht H).
  Qed.

  Lemma steps_gradient_samples e q s rest : tensor_gradient_sample t2 e q s rest <-> tensor_gradient_sample t' e q s rest.
  Proof.
    refine (steps_follow (fun e s (x : string * list Z) => tensor_gradient_sample t e (fst x) s (snd x))
      (fun e s x => tensor_gradient_sample t1 e (fst x) s (snd x)) (fun e s x => tensor_gradient_sample t2 e (fst x) s (snd x))
      (fun e s x => tensor_gradient_sample t' e (fst x) s (snd x)) _ _ _ _ e s (q, rest)).
    - intros e0 s0 b0 (b & K & _). eapply block_of_key; exact K.
    - intros. apply (keys_to_samples_gradient_samples _ _ _ _ _ Ht H1).
    - intros. apply (keys_to_samples_gradient_samples _ _ _ _ _ steps_wf H2).
    - intros. apply (keys_to_samples_gradient_samples _ _ _ _ _ Ht H).
  Qed.

  Lemma steps_group e1 b1 key b : block_of t1 e1 b1 -> block_of t key b -> new_key v1 names key = e1 ->
    Forall2 same_labels (bb_components (tb_values b)) (bb_components (tb_values b1)) /\ same_labels (bb_properties (tb_values b)) (bb_properties (tb_values b1)).
  Proof.
    intros Hb1 Hb Hkey. destruct (keys_to_samples_blocks _ _ _ _ _ Ht H1) as (_ & _ & _ & Hm & _).
    destruct (Hm _ _ Hb1) as (k0 & b0 & others & _ & M). rewrite (sam_components _ _ _ _ _ _ _ M), (sam_properties _ _ _ _ _ _ _ M).
    pose proof (sam_same _ _ _ _ _ _ _ M) as Hs. rewrite Forall_forall in Hs. apply (Hs (moved_part v1 names key, b)). apply in_group_block_of. eauto.
  Qed.

  Lemma steps_agreeing : agreeing_groups t (labels_names k) -> agreeing_groups t v1 /\ agreeing_groups t1 v2.
  Proof.
    intros Hag. assert (Hag1 : agreeing_groups t v1).
    { intros key1 b1 key2 b2 K1 K2 E. apply (Hag key1 b1 key2 b2 K1 K2).
      change (labels_names (tm_keys t)) with names. rewrite <- !steps_new_key by (eapply key_length; [exact Ht|]; eassumption). f_equal. exact E. }
    split; [exact Hag1|]. intros e1 b1 e2 b2 K1 K2 E q g1 g2 G1 G2.
    destruct (keys_to_samples_blocks _ _ _ _ _ Ht H1) as (_ & _ & _ & Hm & _).
    destruct (Hm _ _ K1) as (ka & ba & oa & Ea & Ma). destruct (Hm _ _ K2) as (kb & bb & ob & Eb & Mb).
    assert (Ia : In (ka, ba) (group t (labels_names k1) e1)) by (rewrite Ea; left; reflexivity).
    assert (Ib : In (kb, bb) (group t (labels_names k1) e2)) by (rewrite Eb; left; reflexivity).
    pose proof (sam_gradients _ _ _ _ _ _ _ Ma) as Fa. rewrite Ea in Fa. destruct Fa as [_ Fa]. destruct (Fa q g1 G1) as (_ & ga & Ga & _ & ->).
    pose proof (sam_gradients _ _ _ _ _ _ _ Mb) as Fb. rewrite Eb in Fb. destruct Fb as [_ Fb]. destruct (Fb q g2 G2) as (_ & gb & Gb & _ & ->).
    apply in_group_block_of in Ia as (keya & Ba & <- & _). apply in_group_block_of in Ib as (keyb & Bb & <- & _).
    refine (Hag keya ba keyb bb Ba Bb _ q ga gb Ga Gb). change (labels_names (tm_keys t)) with names.
    rewrite <- !steps_new_key by (eapply key_length; [exact Ht|]; eassumption). exact E.
  Qed.

  Lemma steps_gradients : (p = Debug \/ agreeing_groups t (labels_names k)) ->
    forall e q s rest cs pr v, tensor_gradient_value t2 e q s rest cs pr v <-> tensor_gradient_value t' e q s rest cs pr v.
  Proof.
    intros Hag e q s rest cs pr v.
    assert (Hag' : agreeing_groups t (labels_names k)) by (destruct Hag as [Hp|Hag]; [eapply keys_to_samples_agreeing; eauto|exact Hag]).
    destruct (steps_agreeing Hag') as [Hag1 Hag2].
    refine (steps_follow (fun e s (x : string * list Z * list (list Z) * list Z * Z) => let '(q, rest, cs, pr, v) := x in tensor_gradient_value t e q s rest cs pr v)
      (fun e s x => let '(q, rest, cs, pr, v) := x in tensor_gradient_value t1 e q s rest cs pr v)
      (fun e s x => let '(q, rest, cs, pr, v) := x in tensor_gradient_value t2 e q s rest cs pr v)
      (fun e s x => let '(q, rest, cs, pr, v) := x in tensor_gradient_value t' e q s rest cs pr v) _ _ _ _ e s (q, rest, cs, pr, v)).
    - intros e0 s0 [[[[? ?] ?] ?] ?] (b & K & _). eapply block_of_key; exact K.
    - intros e0 s0 [[[[? ?] ?] ?] ?]. apply (keys_to_samples_gradients _ _ _ _ _ Ht H1). right. exact Hag1.
    - intros e0 s0 [[[[? ?] ?] ?] ?]. apply (keys_to_samples_gradients _ _ _ _ _ steps_wf H2). right. exact Hag2.
    - intros e0 s0 [[[[? ?] ?] ?] ?]. apply (keys_to_samples_gradients _ _ _ _ _ Ht H). right. exact Hag'.
  Qed.

  Lemma steps_axes e b2 b' : block_of t2 e b2 -> block_of t' e b' ->
    labels_names (bb_samples (tb_values b2)) = labels_names (bb_samples (tb_values b'))
    /\ (forall s, In s (rows (bb_samples (tb_values b2))) <-> In s (rows (bb_samples (tb_values b'))))
    /\ Forall2 same_labels (bb_components (tb_values b2)) (bb_components (tb_values b'))
    /\ same_labels (bb_properties (tb_values b2)) (bb_properties (tb_values b')).
  Proof.
    intros K2 K'.
    destruct (keys_to_samples_blocks _ _ _ _ _ Ht H1) as (_ & _ & _ & Hm1 & Hx1).
    destruct (keys_to_samples_blocks _ _ _ _ _ steps_wf H2) as (_ & _ & _ & Hm2 & _).
    destruct (keys_to_samples_blocks _ _ _ _ _ Ht H) as (_ & _ & _ & Hm & _).
    destruct (Hm2 _ _ K2) as (ka & ba & oa & Ea & Ma). destruct (Hm _ _ K') as (kc & bc & oc & Ec & Mc).
    assert (Ia : In (ka, ba) (group t1 (labels_names k2) e)) by (rewrite Ea; left; reflexivity).
    apply in_group_block_of in Ia as (e1 & Ba & E1 & _).
    destruct (Hm1 _ _ Ba) as (kd & bd & od & Ed & Md).
    assert (Id : In (kd, bd) (group t (labels_names k1) e1)) by (rewrite Ed; left; reflexivity).
    apply in_group_block_of in Id as (key & Bd & E0 & _).
    assert (Ic : In (moved_part (labels_names k) names key, bd) (group t (labels_names k) e)).
    { apply in_group_block_of. exists key. split; [exact Bd|]. split; [|reflexivity]. change (labels_names (tm_keys t)) with names.
      rewrite <- steps_new_key by (eapply key_length; eassumption). unfold v1, v2, names. rewrite E0. exact E1. }
    pose proof (sam_same _ _ _ _ _ _ _ Mc) as Hs. rewrite Forall_forall in Hs. destruct (Hs _ Ic) as [S1 S2]. cbn [snd] in S1, S2.
    rewrite (sam_components _ _ _ _ _ _ _ Ma), (sam_components _ _ _ _ _ _ _ Md), (sam_components _ _ _ _ _ _ _ Mc).
    rewrite (sam_properties _ _ _ _ _ _ _ Ma), (sam_properties _ _ _ _ _ _ _ Md), (sam_properties _ _ _ _ _ _ _ Mc).
    split; [|split; [|split; assumption]].
    - destruct (keys_to_samples_names _ _ _ _ _ Ht H e b' key bd K' Bd) as [-> _].
      destruct (keys_to_samples_names _ _ _ _ _ steps_wf H2 e b2 e1 ba K2 Ba) as [-> _].
      destruct (keys_to_samples_names _ _ _ _ _ Ht H1 e1 ba key bd Ba Bd) as [-> _]. rewrite Hk, app_assoc. reflexivity.
    - intros s. 
      refine (iff_trans (iff_trans _ (steps_follow (fun e s (x : unit) => exists b, block_of t e b /\ In s (rows (bb_samples (tb_values b))))
        (fun e s x => exists b, block_of t1 e b /\ In s (rows (bb_samples (tb_values b))))
        (fun e s x => exists b, block_of t2 e b /\ In s (rows (bb_samples (tb_values b))))
        (fun e s x => exists b, block_of t' e b /\ In s (rows (bb_samples (tb_values b)))) _ _ _ _ e s tt)) _).
      + split; [eauto|]. intros (b & Kb & Hb). rewrite (block_of_unique _ _ _ _ (proj1 (keys_to_samples_wf _ _ _ _ _ steps_wf H2)) K2 Kb). exact Hb.
      + intros e0 s0 _ (b & Kb & _). eapply block_of_key; exact Kb.
      + intros e0 s0 _. apply (samples_of _ _ _ _ _ Ht H1).
      + intros e0 s0 _. apply (samples_of _ _ _ _ _ steps_wf H2).
      + intros e0 s0 _. apply (samples_of _ _ _ _ _ Ht H).
      + split; [|eauto]. intros (b & Kb & Hb). rewrite (block_of_unique _ _ _ _ (proj1 (keys_to_samples_wf _ _ _ _ _ Ht H)) K' Kb). exact Hb.
  Qed.
End TwoSteps.

Lemma block_exists t e : wf_tensor t -> In e (rows (tm_keys t)) -> exists b, block_of t e b.
Proof.
  intros (_ & _ & Hlen & _) H. apply In_nth_error in H as [i Hi]. destruct (nth_error (tm_blocks t) i) as [b|] eqn:Eb; [exists b, i; auto|].
  apply nth_error_None in Eb. assert (i < length (rows (tm_keys t))) by (apply nth_error_Some; congruence). lia.
Qed.

Lemma two_steps_to_samples p t t1 t2 t' k1 k2 k sort1 sort2 sort :
  wf_tensor t ->
  keys_to_samples p t k1 sort1 = (t1, Ok tt) -> keys_to_samples p t1 k2 sort2 = (t2, Ok tt) ->
  keys_to_samples p t k sort = (t', Ok tt) ->
  labels_names k = labels_names k1 ++ labels_names k2 ->
  in_key_order (labels_names k) (labels_names (tm_keys t)) ->
  same_labels (tm_keys t2) (tm_keys t')
  /\ (forall e s cs pr v, tensor_entry t2 e s cs pr v <-> tensor_entry t' e s cs pr v)
  /\ (forall e q s rest, tensor_gradient_sample t2 e q s rest <-> tensor_gradient_sample t' e q s rest)
  /\ (p = Debug \/ agreeing_groups t (labels_names k) ->
      forall e q s rest cs pr v, tensor_gradient_value t2 e q s rest cs pr v <-> tensor_gradient_value t' e q s rest cs pr v).
Proof.
  intros Ht H1 H2 H Hk Ho. split; [|split; [|split]].
  - destruct (steps_keys _ _ _ _ _ _ _ _ _ _ _ Ht H1 H2 H Hk Ho) as [E1 E2]. split; assumption.
  - exact (steps_entries _ _ _ _ _ _ _ _ _ _ _ Ht H1 H2 H Hk Ho).
  - exact (steps_gradient_samples _ _ _ _ _ _ _ _ _ _ _ Ht H1 H2 H Hk Ho).
  - exact (steps_gradients _ _ _ _ _ _ _ _ _ _ _ Ht H1 H2 H Hk Ho).
Qed.

(* the same labels and arrays, when the samples are sorted *)
Lemma two_steps_same_blocks p t t1 t2 t' k1 k2 k sort1 :
  wf_tensor t ->
  keys_to_samples p t k1 sort1 = (t1, Ok tt) -> keys_to_samples p t1 k2 true = (t2, Ok tt) ->
  keys_to_samples p t k true = (t', Ok tt) ->
  labels_names k = labels_names k1 ++ labels_names k2 ->
  in_key_order (labels_names k) (labels_names (tm_keys t)) ->
  length (tm_blocks t2) = length (tm_blocks t')
  /\ forall i b2 b', nth_error (tm_blocks t2) i = Some b2 -> nth_error (tm_blocks t') i = Some b' ->
       Forall2 same_labels (axes (tb_values b2)) (axes (tb_values b'))
       /\ (forall idx v, element (bb_data (tb_values b2)) idx v <-> element (bb_data (tb_values b')) idx v)
       /\ forall q g2 g', In (q, g2) (tb_gradients b2) -> In (q, g') (tb_gradients b') ->
            rows (bb_samples g2) = rows (bb_samples g').
Proof.
  intros Ht H1 H2 H Hk Ho.
  destruct (steps_keys _ _ _ _ _ _ _ _ _ _ _ Ht H1 H2 H Hk Ho) as [En Er].
  pose proof (steps_wf _ _ _ _ _ Ht H1) as Ht1. pose proof (proj1 (keys_to_samples_wf _ _ _ _ _ Ht1 H2)) as Ht2.
  pose proof (proj1 (keys_to_samples_wf _ _ _ _ _ Ht H)) as Ht'.
  assert (L2 : length (tm_blocks t2) = length (rows (tm_keys t2))) by apply Ht2.
  assert (L' : length (tm_blocks t') = length (rows (tm_keys t'))) by apply Ht'.
  split; [congruence|]. intros i b2 b' Hb2 Hb'.
  destruct (nth_error (rows (tm_keys t2)) i) as [e|] eqn:Ee.
  2:{ apply nth_error_None in Ee. assert (i < length (tm_blocks t2)) by (apply nth_error_Some; congruence). lia. }
  assert (K2 : block_of t2 e b2) by (exists i; auto).
  assert (K' : block_of t' e b') by (exists i; rewrite <- Er; auto).
  destruct (steps_axes _ _ _ _ _ _ _ _ _ _ _ Ht H1 H2 H Hk Ho e b2 b' K2 K') as (A1 & A2 & A3 & A4).
  destruct (keys_to_samples_order _ _ _ _ _ Ht1 H2 e b2 K2) as (_ & S2 & _ & G2). specialize (S2 eq_refl).
  destruct (keys_to_samples_order _ _ _ _ _ Ht H e b' K') as (_ & S' & _ & G'). specialize (S' eq_refl).
  assert (Hs : rows (bb_samples (tb_values b2)) = rows (bb_samples (tb_values b'))) by (apply lex_sorted_unique; assumption).
  assert (Hax : Forall2 same_labels (axes (tb_values b2)) (axes (tb_values b'))).
  { unfold axes. constructor; [split; assumption|]. apply Forall2_app; [exact A3|]. constructor; [exact A4|constructor]. }
  pose proof (wf_tensor_block _ _ Ht2 (block_of_In _ _ _ K2)) as W2. pose proof (wf_tensor_block _ _ Ht' (block_of_In _ _ _ K')) as W'.
  split; [exact Hax|]. split.
  - intros idx v. pose proof (fun e s cs pr v => steps_entries _ _ _ _ _ _ _ _ _ _ _ Ht H1 H2 H Hk Ho e s cs pr v) as He. split.
    + apply same_elements; [apply W2|apply W'|exact Hax|]. intros s cs pr v0 K.
      destruct (proj1 (tensor_entry_block _ _ _ _ _ _) (proj1 (He e s cs pr v0) (proj2 (tensor_entry_block _ _ _ _ _ _) (ex_intro _ b2 (conj K2 K))))) as (b & Kb & Kv).
      rewrite (block_of_unique _ _ _ _ Ht' K' Kb). exact Kv.
    + apply same_elements; [apply W'|apply W2|apply Forall2_same_sym; exact Hax|]. intros s cs pr v0 K.
      destruct (proj1 (tensor_entry_block _ _ _ _ _ _) (proj2 (He e s cs pr v0) (proj2 (tensor_entry_block _ _ _ _ _ _) (ex_intro _ b' (conj K' K))))) as (b & Kb & Kv).
      rewrite (block_of_unique _ _ _ _ Ht2 K2 Kb). exact Kv.
  - assert (Hrow : forall ta tb ba bb q ga gb, wf_tensor tb -> block_of ta e ba -> block_of tb e bb -> wf_block bb ->
      gradient_samples_in_range ba -> rows (bb_samples (tb_values ba)) = rows (bb_samples (tb_values bb)) ->
      (forall q s rest, tensor_gradient_sample ta e q s rest -> tensor_gradient_sample tb e q s rest) ->
      In (q, ga) (tb_gradients ba) -> In (q, gb) (tb_gradients bb) -> forall row, In row (rows (bb_samples ga)) -> In row (rows (bb_samples gb))).
    { intros ta tb ba bb q ga gb Wb Ka Kb Wbb Hr Hsr Hf Ga Gb row Hrow. destruct (Hr q ga row Ga Hrow) as (j & rest & -> & Hj).
      destruct (nth_error (rows (bb_samples (tb_values ba))) j) as [s|] eqn:Es; [|apply nth_error_None in Es; lia].
      destruct (Hf q s rest) as (bx & Kx & (j' & gx & Ex & Gx & Rx)).
      - exists ba. split; [exact Ka|]. exists j, ga. auto.
      - rewrite <- (block_of_unique _ _ _ _ Wb Kb Kx) in Ex, Gx.
        assert (j' = j).
        { destruct Wbb as [Wv _]. destruct (wf_basic_axes _ Wv) as ([Ws _] & _). eapply NoDup_nth_error_inj; [apply (wf_rows_NoDup _ Ws)|exact Ex|congruence]. }
        subst j'. assert (gx = gb); [|subst; exact Rx].
        destruct Wbb as (_ & _ & Hnd & _). clear - Hnd Gx Gb. induction (tb_gradients bb) as [|[a c] l IH]; [contradiction|].
        cbn in Hnd. inversion Hnd as [|? ? Hni Hnd']; subst. destruct Gx as [Gx|Gx], Gb as [Gb|Gb].
        + congruence.
        + injection Gx as -> ->. exfalso. apply Hni. apply (in_map fst) in Gb. exact Gb.
        + injection Gb as -> ->. exfalso. apply Hni. apply (in_map fst) in Gx. exact Gx.
        + auto. }
    destruct (keys_to_samples_in_range _ _ _ _ _ Ht1 H2) as [_ R2]. destruct (keys_to_samples_in_range _ _ _ _ _ Ht H) as [_ R'].
    rewrite Forall_forall in R2, R'. specialize (R2 _ (block_of_In _ _ _ K2)). specialize (R' _ (block_of_In _ _ _ K')).
    pose proof (fun e q s rest => steps_gradient_samples _ _ _ _ _ _ _ _ _ _ _ Ht H1 H2 H Hk Ho e q s rest) as Hg.
    intros q g2 g' Hg2 Hg'. apply lex_sorted_unique; [exact (G2 _ _ Hg2)|exact (G' _ _ Hg')|]. intros row. split.
    + apply (Hrow t2 t' b2 b' q g2 g' Ht' K2 K' W' R2 Hs); [|exact Hg2|exact Hg']. intros q0 s rest. apply Hg.
    + apply (Hrow t' t2 b' b2 q g' g2 Ht2 K' K2 W2 R' (eq_sym Hs)); [|exact Hg'|exact Hg2]. intros q0 s rest. apply Hg.
Qed.
