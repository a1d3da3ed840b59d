(* Lemmas about moving a part of the variables *)
From Verif Require Import Base BaseFacts Labels Array Block Tensor Spec SpecTensor LabelsFacts ArrayFacts BlockFacts TensorFacts KeysFacts MergeFacts GroupFacts BlocksFacts MergePropertiesFacts MovedFacts CompleteFacts StepsFacts CommuteFacts GradientStepsFacts ComponentStepsFacts.
Local Open Scope string_scope.
Local Open Scope list_scope.
Local Open Scope nat_scope.

Lemma is_moved_part v1 v : (forall n, In n v1 -> In n v) -> forall n, is_moved (v1 ++ v) n = is_moved v n.
Proof.
  intros H n. rewrite is_moved_app. destruct (is_moved v1 n) eqn:E; [|reflexivity]. apply is_moved_true in E.
  symmetry. apply is_moved_true. apply H. exact E.
Qed.

Lemma new_key_part v1 v names key : (forall n, In n v1 -> In n v) -> new_key (v1 ++ v) names key = new_key v names key.
Proof.
  intros H. assert (E : kept_names (v1 ++ v) names = kept_names v names).
  { unfold kept_names. apply filter_ext. intros n. rewrite is_moved_part by exact H. reflexivity. }
  unfold new_key. rewrite E. destruct (kept_names v names); [reflexivity|]. unfold kept_part. f_equal. apply filter_ext.
  intros nv. rewrite is_moved_part by exact H. reflexivity.
Qed.

(* keys which are the same without a part of the variables are the same without all of them *)
Lemma new_key_finer v1 v names key1 key2 :
  (forall n, In n v1 -> In n v) -> length key1 = length names -> length key2 = length names ->
  new_key v1 names key1 = new_key v1 names key2 -> new_key v names key1 = new_key v names key2.
Proof.
  intros H L1 L2 E. destruct (kept_names v1 names) as [|n0 l0] eqn:K.
  - assert (Kv : kept_names v names = []).
    { destruct (kept_names v names) as [|n l] eqn:Kv; [reflexivity|]. exfalso.
      assert (Hn : In n (kept_names v names)) by (rewrite Kv; left; reflexivity). unfold kept_names in Hn. apply filter_In in Hn as [Hn Hm].
      apply (kept_nonempty v1 names n Hn); [|exact K]. intros K1. apply H, is_moved_true in K1. rewrite K1 in Hm. discriminate Hm. }
    unfold new_key. rewrite Kv. reflexivity.
  - assert (Kn : kept_names v1 names <> []) by (rewrite K; discriminate).
    rewrite <- (new_key_part v1 v names key1 H), <- (new_key_part v1 v names key2 H), <- !new_key_steps by assumption. rewrite E. reflexivity.
Qed.

Lemma nonempty_part {A} (l1 l : list A) : (forall x, In x l1 -> In x l) -> l1 <> [] -> l <> [].
Proof. intros H H1 ->. destruct l1 as [|x l1]; [congruence|]. destruct (H x). left. reflexivity. Qed.

Lemma part_to_samples p t t' k k1 sort sort1 :
  workable t -> wf_labels k -> wf_labels k1 -> labels_names k1 <> [] -> rows k1 = [] ->
  (p = Debug \/ agreeing_groups t (labels_names k)) ->
  keys_to_samples p t k sort = (t', Ok tt) ->
  (forall n, In n (labels_names k1) -> In n (labels_names k)) ->
  exists t1, keys_to_samples p t k1 sort1 = (t1, Ok tt).
Proof.
  intros Hw Hk Hk1 Hn1 Hr1 Hag' H Hin. pose proof Hw as (Ht & _).
  assert (Hag : agreeing_groups t (labels_names k)) by (destruct Hag' as [Hp|Hag]; [eapply keys_to_samples_agreeing; eauto|exact Hag]).
  pose proof (nonempty_part _ _ Hin Hn1) as Hn.
  pose proof (proj1 (keys_to_samples_wf _ _ _ _ _ Ht H)) as Ht'.
  assert (Hdis : forall b n, In b (tm_blocks t) -> In n (labels_names k) -> ~ In n (labels_names (bb_samples (tb_values b)))).
  { intros b n Hb Hk' Hs. destruct (block_has_key _ _ Ht Hb) as (key & K). destruct (fol_to _ _ _ (samples_follow _ _ _ _ _ Ht H) _ _ K) as (b' & K' & _).
    destruct (keys_to_samples_names _ _ _ _ _ Ht H _ _ _ _ K' K) as [N _].
    destruct (wf_basic_axes _ (proj1 (wf_tensor_block _ _ Ht' (block_of_In _ _ _ K')))) as ([Hnd _] & _). apply wf_names_good in Hnd as [_ Hnd].
    rewrite N in Hnd. exact (NoDup_app_disjoint _ _ Hnd n Hs Hk'). }
  destruct (keys_to_samples_complete p t k sort Hw Hk Hn Hag Hdis) as [[(_ & Hnames & Hc & Hp) _]|[_ [m Hm]]]; [|rewrite H in Hm; discriminate Hm].
  assert (Hf : forall key1 b1 key2 b2, block_of t key1 b1 -> block_of t key2 b2 ->
            new_key (labels_names k1) (labels_names (tm_keys t)) key1 = new_key (labels_names k1) (labels_names (tm_keys t)) key2 ->
            new_key (labels_names k) (labels_names (tm_keys t)) key1 = new_key (labels_names k) (labels_names (tm_keys t)) key2).
  { intros key1 b1 key2 b2 K1 K2 E. exact (new_key_finer _ _ _ _ _ Hin (key_length _ _ _ Ht K1) (key_length _ _ _ Ht K2) E). }
  destruct (keys_to_samples_complete p t k1 sort1 Hw Hk1 Hn1) as [[_ Hx]|[Hno _]].
  - intros key1 b1 key2 b2 K1 K2 E. exact (Hag _ _ _ _ K1 K2 (Hf _ _ _ _ K1 K2 E)).
  - intros b n Hb K. exact (Hdis b n Hb (Hin n K)).
  - exact Hx.
  - exfalso. apply Hno. split; [exact Hr1|]. split; [intros v K; exact (Hnames v (Hin v K))|].
    split; intros key1 b1 key2 b2 K1 K2 E; [exact (Hc _ _ _ _ K1 K2 (Hf _ _ _ _ K1 K2 E))|exact (Hp _ _ _ _ K1 K2 (Hf _ _ _ _ K1 K2 E))].
Qed.

Lemma part_to_properties p t t' k k1 sort sort1 :
  workable t -> wf_labels k -> wf_labels k1 -> labels_names k1 <> [] -> (rows k = [] -> rows k1 = []) ->
  (forall b, In b (tm_blocks t) -> rows (bb_properties (tb_values b)) <> []) ->
  (p = Debug /\ rows k = []) \/ agreeing_groups t (labels_names k) ->
  keys_to_properties p t k sort = (t', Ok tt) ->
  (forall n, In n (labels_names k1) -> In n (labels_names k)) ->
  exists t1, keys_to_properties p t k1 sort1 = (t1, Ok tt).
Proof.
  intros Hw Hk Hk1 Hn1 Hr1 Hpr Hag' H Hin. pose proof Hw as (Ht & _ & (kind & Hkind & Hall) & _).
  assert (Hag : agreeing_groups t (labels_names k)) by (destruct Hag' as [[Hp Hr]|Hag]; [eapply keys_to_properties_agreeing; eauto|exact Hag]).
  assert (Hkd : rows k = [] \/ forall b, In b (tm_blocks t) -> a_kind (bb_data (tb_values b)) <> RustEmptyArray).
  { right. intros b Hb. rewrite (Hall b Hb). exact Hkind. }
  pose proof (nonempty_part _ _ Hin Hn1) as Hn.
  pose proof (proj1 (keys_to_properties_wf _ _ _ _ _ Ht Hk Hkd H)) as Ht'.
  destruct (keys_to_properties_blocks _ _ _ _ _ Ht Hk Hkd H) as (_ & _ & _ & _ & Hto).
  assert (Hdis : forall b n, In b (tm_blocks t) -> In n (labels_names k) -> ~ In n (labels_names (bb_properties (tb_values b)))).
  { intros b n Hb Hk' Hs. destruct (block_has_key _ _ Ht Hb) as (key & K). destruct (Hto _ _ K) as (b' & K').
    destruct (keys_to_properties_names _ _ _ _ _ Ht Hk Hkd H _ _ _ _ K' K) as (_ & _ & N).
    destruct (wf_basic_axes _ (proj1 (wf_tensor_block _ _ Ht' (block_of_In _ _ _ K')))) as (_ & _ & [Hnd _]). apply wf_names_good in Hnd as [_ Hnd].
    rewrite N in Hnd. exact (NoDup_app_disjoint _ _ Hnd n Hk' Hs). }
  destruct (keys_to_properties_complete p t k sort Hw Hk Hn Hag Hpr Hdis) as [[(Hnames & Hc & Hp) _]|[_ [m Hm]]]; [|rewrite H in Hm; discriminate Hm].
  assert (Hf : forall key1 b1 key2 b2, block_of t key1 b1 -> block_of t key2 b2 ->
            new_key (labels_names k1) (labels_names (tm_keys t)) key1 = new_key (labels_names k1) (labels_names (tm_keys t)) key2 ->
            new_key (labels_names k) (labels_names (tm_keys t)) key1 = new_key (labels_names k) (labels_names (tm_keys t)) key2).
  { intros key1 b1 key2 b2 K1 K2 E. exact (new_key_finer _ _ _ _ _ Hin (key_length _ _ _ Ht K1) (key_length _ _ _ Ht K2) E). }
  destruct (keys_to_properties_complete p t k1 sort1 Hw Hk1 Hn1) as [[_ Hx]|[Hno _]].
  - intros key1 b1 key2 b2 K1 K2 E. exact (Hag _ _ _ _ K1 K2 (Hf _ _ _ _ K1 K2 E)).
  - exact Hpr.
  - intros b n Hb K. exact (Hdis b n Hb (Hin n K)).
  - exact Hx.
  - exfalso. apply Hno. split; [intros v K; exact (Hnames v (Hin v K))|].
    split; [intros key1 b1 key2 b2 K1 K2 E; exact (Hc _ _ _ _ K1 K2 (Hf _ _ _ _ K1 K2 E))|].
    intros Hr key1 b1 key2 b2 K1 K2 E. refine (Hp _ _ _ _ _ K1 K2 (Hf _ _ _ _ K1 K2 E)). intros Hr0. apply Hr, Hr1. exact Hr0.
Qed.
