(* Lemmas about Tensor.v: tensor maps after keys_to_samples and keys_to_properties *)
From Coq Require Import Permutation Sorted.
From Verif Require Import Base BaseFacts Labels Array Block Tensor Spec SpecTensor LabelsFacts ArrayFacts BlockFacts TensorFacts KeysFacts MergeFacts GroupFacts BlocksFacts MergePropertiesFacts.
Local Open Scope string_scope.
Local Open Scope list_scope.
Local Open Scope nat_scope.

(** * Lexicographic order *)

Lemma row_lt_lex r1 : forall r2, row_lt r1 r2 <-> lex_lt r1 r2.
Proof.
  unfold row_lt, lex_lt. induction r1 as [|x r1 IH]; intros [|y r2]; simpl.
  - split; [discriminate|]. intros [(c & a & b & t1 & t2 & E1 & _)|(b & t2 & E)].
    + destruct c; discriminate.
    + discriminate.
  - split; [|reflexivity]. intros _. right. exists y, r2. reflexivity.
  - split; [discriminate|]. intros [(c & a & b & t1 & t2 & _ & E & _)|(b & t2 & E)].
    + destruct c; discriminate.
    + discriminate.
  - destruct (Z.compare_spec x y) as [->|Hlt|Hgt].
    + rewrite IH. split.
      * intros [(c & a & b & t1 & t2 & -> & -> & H)|(b & t2 & ->)]; [left|right; eauto].
        exists (y :: c), a, b, t1, t2. auto.
      * intros [([|z c] & a & b & t1 & t2 & E1 & E2 & H)|(b & t2 & E)].
        -- simpl in *. inversion E1; inversion E2; subst. lia.
        -- simpl in *. inversion E1; inversion E2; subst. left. exists c, a, b, t1, t2. auto.
        -- right. exists b, t2. inversion E. reflexivity.
    + split; [|reflexivity]. intros _. left. exists [], x, y, r1, r2. auto.
    + split; [discriminate|]. intros [([|z c] & a & b & t1 & t2 & E1 & E2 & H)|(b & t2 & E)].
      * simpl in *. inversion E1; inversion E2; subst. lia.
      * simpl in *. inversion E1; inversion E2; subst. lia.
      * inversion E; subst. lia.
Qed.

Lemma sorted_lex l : StronglySorted row_lt l -> StronglySorted lex_lt l.
Proof.
  induction 1 as [|x l Hs IH Hf]; constructor; [assumption|].
  eapply Forall_impl; [|exact Hf]. intros r Hr. apply row_lt_lex. assumption.
Qed.

(** * Groups *)

Lemma group_merged_together t variables e :
  group t variables e
  = map (fun kb => (moved_part variables (labels_names (tm_keys t)) (fst kb), snd kb)) (merged_together t variables e).
Proof.
  unfold group, merged_together. f_equal. apply filter_ext. intros [k b]. simpl.
  destruct (list_eq_dec Z.eq_dec _ e) as [E|E]; [apply row_eqb_eq; assumption|].
  apply not_true_iff_false. rewrite row_eqb_eq. assumption.
Qed.

Lemma in_merged_together t variables e k b :
  In (k, b) (merged_together t variables e) <->
  block_of t k b /\ new_key variables (labels_names (tm_keys t)) k = e.
Proof.
  unfold merged_together, block_of. rewrite filter_In. simpl.
  destruct (list_eq_dec Z.eq_dec _ e) as [E|E].
  - split.
    + intros [H _]. apply In_nth_error in H as [i Hi]. apply nth_error_combine in Hi as [H1 H2]. eauto.
    + intros [(i & H1 & H2) _]. split; [|reflexivity]. apply (nth_error_In _ i). apply nth_error_combine. auto.
  - split; intros [H1 H2]; [discriminate|contradiction].
Qed.

Lemma in_group_block_of t variables e k b :
  In (k, b) (group t variables e) <->
  exists key, block_of t key b /\ new_key variables (labels_names (tm_keys t)) key = e
    /\ k = moved_part variables (labels_names (tm_keys t)) key.
Proof.
  rewrite in_group. unfold block_of. split.
  - intros (i & key & H1 & H2 & H3 & H4). exists key. split; [eauto|]. auto.
  - intros (key & (i & H1 & H2) & H3 & H4). exists i, key. auto.
Qed.

Lemma block_of_In t key b : block_of t key b -> In b (tm_blocks t).
Proof. intros (i & _ & H). eapply nth_error_In; eauto. Qed.

Lemma block_of_key t key b : block_of t key b -> In key (rows (tm_keys t)).
Proof. intros (i & H & _). eapply nth_error_In; eauto. Qed.

Lemma block_of_unique t key b1 b2 : wf_tensor t -> block_of t key b1 -> block_of t key b2 -> b1 = b2.
Proof.
  intros ([Hk _] & _) (i & H1 & H2) (j & H3 & H4).
  assert (i = j) by (eapply NoDup_nth_error_inj; [apply (wf_rows_NoDup _ Hk)| |]; eauto). subst. congruence.
Qed.

Lemma tensor_entry_block t key s cs pr v :
  tensor_entry t key s cs pr v <-> exists b, block_of t key b /\ entry (tb_values b) s cs pr v.
Proof.
  unfold tensor_entry, block_of. split.
  - intros (i & b & H1 & H2 & H3). exists b. eauto.
  - intros (b & (i & H1 & H2) & H3). eauto 10.
Qed.

Lemma group_wf t variables e : wf_tensor t -> Forall (fun kb : KeyAndBlock => wf_block (snd kb)) (group t variables e).
Proof.
  intros (_ & Hb & _). apply Forall_forall. intros [k b] H. apply group_blocks in H. rewrite Forall_forall in Hb. apply Hb. assumption.
Qed.

Lemma group_same_gradients t variables e k1 b1 k2 b2 :
  wf_tensor t -> In (k1, b1) (group t variables e) -> In (k2, b2) (group t variables e) -> same_gradient_names b1 b2.
Proof.
  intros (_ & _ & _ & H) H1 H2. apply group_blocks in H1, H2. apply (H _ _ H1 H2).
Qed.

(* the blocks after a move: one for each new key, merged from its group *)
Lemma moved_blocks t variables new_keys positions merge bs :
  wf_tensor t ->
  remove_variables_from_keys (tm_keys t) variables = Ok (new_keys, positions) ->
  (forall b, merge [] <> Ok b) ->
  merged_blocks t new_keys positions merge = Ok bs ->
  length bs = length (rows new_keys)
  /\ (forall e b', block_of (mk_tensor new_keys bs) e b' ->
        merge (group t variables e) = Ok b' /\ group t variables e <> [])
  /\ (forall key b, block_of t key b ->
        exists b', block_of (mk_tensor new_keys bs) (new_key variables (labels_names (tm_keys t)) key) b').
Proof.
  intros Ht Hrem Hmerge Hbs.
  destruct (new_keys_after _ _ _ _ _ _ Ht Hrem Hmerge Hbs) as (_ & _ & (_ & Hin & _) & Hrows & _).
  rewrite (merged_blocks_ok _ _ _ _ _ _ Ht Hrem) in Hbs. rewrite <- Hrows in Hbs.
  pose proof (Forall2_len _ _ _ Hbs) as Hlen.
  split; [congruence|]. split.
  - intros e b' (i & H1 & H2). simpl in *.
    destruct (Forall2_nth_error_l _ _ _ _ _ Hbs H1) as (b & Hb & Hm).
    assert (b = b') by congruence. subst b. split; [assumption|].
    intros E. rewrite E in Hm. eapply Hmerge; eauto.
  - intros key b Hk. apply block_of_key in Hk.
    assert (Hi : In (new_key variables (labels_names (tm_keys t)) key) (rows new_keys)).
    { apply Hin. apply in_map. assumption. }
    apply In_nth_error in Hi as [i Hi]. destruct (nth_error bs i) as [b'|] eqn:Eb.
    + exists b', i. auto.
    + exfalso. apply nth_error_None in Eb. assert (i < length (rows new_keys)) by (apply nth_error_Some; congruence). lia.
Qed.

(** * keys_to_samples *)

Lemma labels_count_0_names keys : labels_count keys = Ok 0 -> labels_names keys <> [].
Proof. intros H E. unfold labels_count, labels_size in H. unfold labels_names in E. rewrite E in H. discriminate. Qed.

Lemma keys_to_samples_blocks p t keys sort t' :
  wf_tensor t -> keys_to_samples p t keys sort = (t', Ok tt) ->
  let variables := labels_names keys in
  axis_labels (tm_keys t')
  /\ length (tm_blocks t') = length (rows (tm_keys t'))
  /\ (forall v, In v variables -> In v (labels_names (tm_keys t)))
  /\ (forall e b', block_of t' e b' -> exists k0 b0 others, group t variables e = (k0, b0) :: others
        /\ samples_merged p (group t variables e) variables sort k0 b0 b')
  /\ (forall key b, block_of t key b -> exists b', block_of t' (new_key variables (labels_names (tm_keys t)) key) b').
Proof.
  intros Ht H variables. apply keys_to_samples_inv in H as (nk & pos & bs & Hrem & Hc & Hm & ->).
  assert (Hnil : forall b, (fun bs => merge_blocks_along_samples p bs (labels_names keys) sort) [] <> Ok b) by discriminate.
  destruct (new_keys_after _ _ _ _ _ _ Ht Hrem Hnil Hm) as (Hv & _ & _ & _ & Hax).
  destruct (moved_blocks _ _ _ _ _ _ Ht Hrem Hnil Hm) as (Hlen & Hb & Hk).
  split; [assumption|]. split; [assumption|]. split; [assumption|]. split; [|assumption].
  intros e b' He. apply Hb in He as [He Hne]. fold variables in He, Hne.
  destruct (group t variables e) as [|[k0 b0] others] eqn:Eg; [contradiction|].
  exists k0, b0, others. split; [reflexivity|].
  pose proof (group_wf t variables e Ht) as G1.
  pose proof (fun k1 b1 k2 b2 => group_same_gradients t variables e k1 b1 k2 b2 Ht) as G2.
  pose proof (group_keys_distinct t variables e Ht) as G3.
  pose proof (fun k b => group_keys_length t variables e k b Ht) as G4.
  rewrite Eg in G1, G2, G3, G4.
  apply merge_blocks_along_samples_ok; auto.
  - intros k1 b1 k2 b2 H1 H2. rewrite (G4 _ _ H1), (G4 _ _ H2). reflexivity.
  - apply labels_count_0_names. assumption.
Qed.

(* C18 *)
Lemma keys_to_samples_values p t keys sort t' :
  wf_tensor t -> keys_to_samples p t keys sort = (t', Ok tt) ->
  forall e s' cs pr v,
    tensor_entry t' e s' cs pr v <->
    exists key s, tensor_entry t key s cs pr v
      /\ e = new_key (labels_names keys) (labels_names (tm_keys t)) key
      /\ s' = s ++ moved_part (labels_names keys) (labels_names (tm_keys t)) key.
Proof.
  intros Ht H e s' cs pr v. destruct (keys_to_samples_blocks _ _ _ _ _ Ht H) as (_ & _ & _ & Hb & Hk).
  rewrite tensor_entry_block. split.
  - intros (b' & Hb' & He). destruct (Hb _ _ Hb') as (k0 & b0 & others & _ & M).
    apply (sam_values _ _ _ _ _ _ _ M) in He as (k & b & s & Hkb & -> & He).
    apply in_group_block_of in Hkb as (key & Hkey & <- & ->). exists key, s.
    rewrite tensor_entry_block. eauto 10.
  - intros (key & s & He & -> & ->). apply tensor_entry_block in He as (b & Hkb & He).
    destruct (Hk _ _ Hkb) as (b' & Hb'). exists b'. split; [assumption|].
    destruct (Hb _ _ Hb') as (k0 & b0 & others & _ & M). apply (sam_values _ _ _ _ _ _ _ M).
    exists (moved_part (labels_names keys) (labels_names (tm_keys t)) key), b, s. split; [|auto].
    apply in_group_block_of. eauto.
Qed.

(* the old key and sample of a new sample are determined *)
Lemma moved_sample_unique t variables key1 b1 s1 key2 b2 s2 :
  wf_tensor t -> block_of t key1 b1 -> block_of t key2 b2 ->
  new_key variables (labels_names (tm_keys t)) key1 = new_key variables (labels_names (tm_keys t)) key2 ->
  s1 ++ moved_part variables (labels_names (tm_keys t)) key1 = s2 ++ moved_part variables (labels_names (tm_keys t)) key2 ->
  key1 = key2 /\ s1 = s2.
Proof.
  intros Ht H1 H2 E1 E2. pose proof Ht as ([Hk _] & _).
  pose proof (wf_rows_length _ _ Hk (block_of_key _ _ _ H1)) as L1.
  pose proof (wf_rows_length _ _ Hk (block_of_key _ _ _ H2)) as L2.
  assert (L : length s1 = length s2).
  { apply (f_equal (@length Z)) in E2. rewrite !app_length, !moved_part_length in E2 by assumption. lia. }
  apply app_eq_length in E2 as [Es Em]; [|assumption].
  split; [|assumption]. apply (new_key_parts_inj variables (labels_names (tm_keys t))); auto.
Qed.

Lemma moved_property_unique t variables key1 b1 p1 key2 b2 p2 :
  wf_tensor t -> block_of t key1 b1 -> block_of t key2 b2 ->
  new_key variables (labels_names (tm_keys t)) key1 = new_key variables (labels_names (tm_keys t)) key2 ->
  moved_part variables (labels_names (tm_keys t)) key1 ++ p1 = moved_part variables (labels_names (tm_keys t)) key2 ++ p2 ->
  key1 = key2 /\ p1 = p2.
Proof.
  intros Ht H1 H2 E1 E2. pose proof Ht as ([Hk _] & _).
  pose proof (wf_rows_length _ _ Hk (block_of_key _ _ _ H1)) as L1.
  pose proof (wf_rows_length _ _ Hk (block_of_key _ _ _ H2)) as L2.
  apply app_eq_length in E2 as [Es Em]; [|rewrite !moved_part_length; auto].
  split; [|assumption]. apply (new_key_parts_inj variables (labels_names (tm_keys t))); auto.
Qed.

Lemma entry_function b s cs pr v1 v2 : wf_basic b -> entry b s cs pr v1 -> entry b s cs pr v2 -> v1 = v2.
Proof.
  intros Hb (idx1 & L1 & E1) (idx2 & L2 & E2).
  assert (idx1 = idx2).
  { destruct Hb as (_ & Hax & _). clear E1 E2. revert idx1 idx2 L1 L2. generalize (s :: cs ++ [pr]). revert Hax. generalize (axes b).
    induction l as [|l ls IH]; intros Hax coords [|i1 idx1] [|i2 idx2]; destruct coords as [|c coords]; simpl; try tauto.
    intros [H1 L1] [H2 L2]. inversion Hax as [|? ? [Hl _] Hls]; subst. f_equal.
    - eapply NoDup_nth_error_inj; [apply (wf_rows_NoDup _ Hl)| |]; eauto.
    - eapply IH; eauto. }
  subst idx2. destruct E1 as [_ E1], E2 as [_ E2]. congruence.
Qed.

(* C19 *)
Lemma keys_to_samples_gradient_samples p t keys sort t' :
  wf_tensor t -> keys_to_samples p t keys sort = (t', Ok tt) ->
  forall e q s' rest,
    tensor_gradient_sample t' e q s' rest <->
    exists key s, tensor_gradient_sample t key q s rest
      /\ e = new_key (labels_names keys) (labels_names (tm_keys t)) key
      /\ s' = s ++ moved_part (labels_names keys) (labels_names (tm_keys t)) key.
Proof.
  intros Ht H e q s' rest. destruct (keys_to_samples_blocks _ _ _ _ _ Ht H) as (_ & _ & _ & Hb & Hk).
  unfold tensor_gradient_sample. split.
  - intros (b' & Hb' & He). destruct (Hb _ _ Hb') as (k0 & b0 & others & _ & M).
    apply (sam_gradient_samples _ _ _ _ _ _ _ M) in He as (k & b & s & Hkb & -> & He).
    apply in_group_block_of in Hkb as (key & Hkey & <- & ->). exists key, s. eauto 10.
  - intros (key & s & (b & Hkb & He) & -> & ->).
    destruct (Hk _ _ Hkb) as (b' & Hb'). exists b'. split; [assumption|].
    destruct (Hb _ _ Hb') as (k0 & b0 & others & _ & M). apply (sam_gradient_samples _ _ _ _ _ _ _ M).
    exists (moved_part (labels_names keys) (labels_names (tm_keys t)) key), b, s. split; [|auto].
    apply in_group_block_of. eauto.
Qed.

Lemma keys_to_samples_agreeing p t keys sort t' :
  wf_tensor t -> keys_to_samples p t keys sort = (t', Ok tt) ->
  p = Debug -> agreeing_groups t (labels_names keys).
Proof.
  intros Ht H Hp key1 b1 key2 b2 H1 H2 E. destruct (keys_to_samples_blocks _ _ _ _ _ Ht H) as (_ & _ & _ & Hb & Hk).
  destruct (Hk _ _ H1) as (b' & Hb'). destruct (Hb _ _ Hb') as (k0 & b0 & others & _ & M).
  refine (sam_debug _ _ _ _ _ _ _ M Hp _ b1 _ b2 _ _).
  - apply in_group_block_of. eauto.
  - apply in_group_block_of. exists key2. split; [exact H2|]. split; [congruence|reflexivity].
Qed.

Lemma keys_to_samples_gradients p t keys sort t' :
  wf_tensor t -> keys_to_samples p t keys sort = (t', Ok tt) ->
  (p = Debug \/ agreeing_groups t (labels_names keys)) ->
  forall e q s' rest cs pr v,
    tensor_gradient_value t' e q s' rest cs pr v <->
    exists key s, tensor_gradient_value t key q s rest cs pr v
      /\ e = new_key (labels_names keys) (labels_names (tm_keys t)) key
      /\ s' = s ++ moved_part (labels_names keys) (labels_names (tm_keys t)) key.
Proof.
  intros Ht H Hag e q s' rest cs pr v.
  assert (Hag' : agreeing_groups t (labels_names keys)).
  { destruct Hag as [Hp|Hag]; [|assumption]. eapply keys_to_samples_agreeing; eauto. }
  clear Hag. destruct (keys_to_samples_blocks _ _ _ _ _ Ht H) as (_ & _ & _ & Hb & Hk).
  assert (Hga : forall e k1 b1 k2 b2, In (k1, b1) (group t (labels_names keys) e) ->
    In (k2, b2) (group t (labels_names keys) e) -> agreeing_gradients b1 b2).
  { intros e0 k1 b1 k2 b2 H1 H2. apply in_group_block_of in H1 as (key1 & H1 & E1 & _), H2 as (key2 & H2 & E2 & _).
    eapply Hag'; [exact H1|exact H2|congruence]. }
  unfold tensor_gradient_value. split.
  - intros (b' & Hb' & He). destruct (Hb _ _ Hb') as (k0 & b0 & others & _ & M).
    apply (sam_gradient_values _ _ _ _ _ _ _ M (Hga e)) in He as (k & b & s & Hkb & -> & He).
    apply in_group_block_of in Hkb as (key & Hkey & <- & ->). exists key, s. eauto 10.
  - intros (key & s & (b & Hkb & He) & -> & ->).
    destruct (Hk _ _ Hkb) as (b' & Hb'). exists b'. split; [assumption|].
    destruct (Hb _ _ Hb') as (k0 & b0 & others & _ & M). apply (sam_gradient_values _ _ _ _ _ _ _ M (Hga _)).
    exists (moved_part (labels_names keys) (labels_names (tm_keys t)) key), b, s. split; [|auto].
    apply in_group_block_of. eauto.
Qed.

(** * keys_to_properties *)

Lemma moved_names_length keys variables :
  axis_labels keys -> NoDup variables -> (forall v, In v variables -> In v (labels_names keys)) ->
  length (filter (is_moved variables) (labels_names keys)) = length variables.
Proof.
  intros [Hk _] Hnd Hv. apply Permutation_length. apply NoDup_Permutation.
  - apply NoDup_filter. apply wf_labels_is_labels in Hk. apply Hk.
  - assumption.
  - intros x. rewrite filter_In, is_moved_true. split; [tauto|]. auto.
Qed.

Definition explicit (keys : Labels) : option (list (list Z)) :=
  match rows keys with [] => None | entries => Some entries end.

Lemma keys_to_properties_blocks p t keys sort t' :
  wf_tensor t -> wf_labels keys ->
  (rows keys = [] \/ forall b, In b (tm_blocks t) -> a_kind (bb_data (tb_values b)) <> RustEmptyArray) ->
  keys_to_properties p t keys sort = (t', Ok tt) ->
  let variables := labels_names keys in
  axis_labels (tm_keys t')
  /\ length (tm_blocks t') = length (rows (tm_keys t'))
  /\ (forall v, In v variables -> In v (labels_names (tm_keys t)))
  /\ (forall e b', block_of t' e b' -> exists k0 b0 others, group t variables e = (k0, b0) :: others
        /\ properties_merged p (group t variables e) (explicit keys) variables sort b0 b')
  /\ (forall key b, block_of t key b -> exists b', block_of t' (new_key variables (labels_names (tm_keys t)) key) b').
Proof.
  intros Ht Hkeys Hkind H variables. apply keys_to_properties_inv in H as (nk & pos & count & bs & Hrem & Hc & Hm & ->).
  match type of Hm with merged_blocks _ _ _ ?f = _ => assert (Hnil : forall b, f [] <> Ok b) by discriminate end.
  destruct (new_keys_after _ _ _ _ _ _ Ht Hrem Hnil Hm) as (Hv & _ & _ & _ & Hax).
  destruct (moved_blocks _ _ _ _ _ _ Ht Hrem Hnil Hm) as (Hlen & Hb & Hk).
  split; [assumption|]. split; [assumption|]. split; [assumption|]. split; [|assumption].
  apply (labels_count_ok _ _ Hkeys) in Hc as [Hkn ->].
  intros e b' He. apply Hb in He as [He Hne]. fold variables in He, Hne.
  destruct (group t variables e) as [|[k0 b0] others] eqn:Eg; [contradiction|].
  exists k0, b0, others. split; [reflexivity|].
  pose proof (group_wf t variables e Ht) as G1.
  pose proof (fun k1 b1 k2 b2 => group_same_gradients t variables e k1 b1 k2 b2 Ht) as G2.
  pose proof (group_keys_distinct t variables e Ht) as G3.
  pose proof (fun k b => group_keys_length t variables e k b Ht) as G4.
  pose proof (fun k b => group_blocks t variables e k b) as G5.
  rewrite Eg in G1, G2, G3, G4, G5.
  replace (explicit keys) with (option_map rows (if length (rows keys) =? 0 then None else Some keys)).
  2:{ unfold explicit. destruct (rows keys) eqn:Er; simpl; [reflexivity|]. rewrite Er. reflexivity. }
  eapply merge_blocks_along_properties_ok; eauto.
  destruct (rows keys) as [|r rs] eqn:Er; [exact I|]. simpl.
  split; [split; assumption|]. split.
  - symmetry. apply moved_names_length; [apply Ht| |assumption].
    apply wf_labels_is_labels in Hkeys. apply Hkeys.
  - destruct Hkind as [E|Hkind]; [discriminate|]. apply Hkind. apply (G5 k0). simpl; auto.
Qed.

Lemma requested_explicit keys names key :
  requested (explicit keys) (moved_part (labels_names keys) names key) <-> requested_key keys names key.
Proof.
  unfold requested, explicit, requested_key. destruct (rows keys) as [|r rs]; [tauto|].
  split; [tauto|]. intros [H|H]; [discriminate|assumption].
Qed.

(* C21, C22 *)
Lemma keys_to_properties_values p t keys sort t' :
  wf_tensor t -> wf_labels keys ->
  (rows keys = [] \/ forall b, In b (tm_blocks t) -> a_kind (bb_data (tb_values b)) <> RustEmptyArray) ->
  keys_to_properties p t keys sort = (t', Ok tt) ->
  forall e s cs pr' v,
    tensor_entry t' e s cs pr' v <->
    (exists key pr, tensor_entry t key s cs pr v
       /\ requested_key keys (labels_names (tm_keys t)) key
       /\ e = new_key (labels_names keys) (labels_names (tm_keys t)) key
       /\ pr' = moved_part (labels_names keys) (labels_names (tm_keys t)) key ++ pr)
    \/ (v = 0%Z
        /\ (exists b', block_of t' e b' /\ In s (rows (bb_samples (tb_values b')))
            /\ (exists js, located (bb_components (tb_values b')) js cs)
            /\ In pr' (rows (bb_properties (tb_values b'))))
        /\ forall key b pr, block_of t key b -> requested_key keys (labels_names (tm_keys t)) key ->
             e = new_key (labels_names keys) (labels_names (tm_keys t)) key ->
             pr' = moved_part (labels_names keys) (labels_names (tm_keys t)) key ++ pr ->
             In s (rows (bb_samples (tb_values b))) -> ~ In pr (rows (bb_properties (tb_values b)))).
Proof.
  intros Ht Hkeys Hkind H e s cs pr' v. destruct (keys_to_properties_blocks _ _ _ _ _ Ht Hkeys Hkind H) as (Hax & Hlen' & _ & Hb & Hk).
  rewrite tensor_entry_block. split.
  - intros (b' & Hb' & He). destruct (Hb _ _ Hb') as (k0 & b0 & others & _ & M).
    apply (pro_values _ _ _ _ _ _ _ M) in He as [(k & b & pr & Hkb & Hq & -> & He)|(H1 & H2 & H3 & H4 & H5)].
    + left. apply in_group_block_of in Hkb as (key & Hkey & <- & ->). exists key, pr.
      rewrite tensor_entry_block. split; [eauto|]. split; [apply requested_explicit; assumption|]. auto.
    + right. split; [assumption|]. split; [eauto|].
      intros key b pr Hkb Hq -> -> Hs. apply (H4 (moved_part (labels_names keys) (labels_names (tm_keys t)) key) b pr); auto.
      * apply in_group_block_of. eauto.
      * apply requested_explicit; assumption.
  - intros [(key & pr & He & Hq & -> & ->)|(H1 & (b' & Hb' & H2 & H3 & H4) & H5)].
    + apply tensor_entry_block in He as (b & Hkb & He).
      destruct (Hk _ _ Hkb) as (b' & Hb'). exists b'. split; [assumption|].
      destruct (Hb _ _ Hb') as (k0 & b0 & others & _ & M). apply (pro_values _ _ _ _ _ _ _ M). left.
      exists (moved_part (labels_names keys) (labels_names (tm_keys t)) key), b, pr. split; [apply in_group_block_of; eauto|].
      split; [apply requested_explicit; assumption|]. auto.
    + exists b'. split; [assumption|]. destruct (Hb _ _ Hb') as (k0 & b0 & others & _ & M).
      apply (pro_values _ _ _ _ _ _ _ M). right. split; [assumption|]. split; [assumption|]. split; [assumption|].
      split; [|assumption]. intros k b pr Hkb Hq E Hs. apply in_group_block_of in Hkb as (key & Hkb & E1 & ->).
      apply (H5 key b pr); auto. apply requested_explicit; assumption.
Qed.

(* the properties of the new blocks *)
Lemma keys_to_properties_properties p t keys sort t' :
  wf_tensor t -> wf_labels keys ->
  (rows keys = [] \/ forall b, In b (tm_blocks t) -> a_kind (bb_data (tb_values b)) <> RustEmptyArray) ->
  keys_to_properties p t keys sort = (t', Ok tt) ->
  forall e b', block_of t' e b' ->
    (rows keys = [] -> rows (bb_properties (tb_values b')) =
       flat_map (fun kb => map (app (moved_part (labels_names keys) (labels_names (tm_keys t)) (fst kb)))
                               (rows (bb_properties (tb_values (snd kb)))))
                (merged_together t (labels_names keys) e))
    /\ (rows keys <> [] -> forall key b, block_of t key b -> e = new_key (labels_names keys) (labels_names (tm_keys t)) key ->
          rows (bb_properties (tb_values b')) =
          flat_map (fun entry => map (app entry) (rows (bb_properties (tb_values b)))) (rows keys)).
Proof.
  intros Ht Hkeys Hkind H e b' Hb'. destruct (keys_to_properties_blocks _ _ _ _ _ Ht Hkeys Hkind H) as (_ & _ & _ & Hb & Hk).
  destruct (Hb _ _ Hb') as (k0 & b0 & others & _ & M). split.
  - intros Er. rewrite (pro_properties _ _ _ _ _ _ _ M). unfold explicit. rewrite Er. simpl.
    rewrite group_merged_together, flat_map_map. reflexivity.
  - intros Er key b Hkb ->. rewrite (pro_properties _ _ _ _ _ _ _ M). unfold explicit.
    destruct (rows keys) as [|r rs] eqn:E; [contradiction|]. rewrite <- E. simpl.
    pose proof (pro_same _ _ _ _ _ _ _ M) as Hs. rewrite Forall_forall in Hs.
    destruct (Hs (moved_part (labels_names keys) (labels_names (tm_keys t)) key, b)) as [_ Hs'].
    { apply in_group_block_of. eauto. }
    unfold explicit in Hs'. rewrite E in Hs'. destruct Hs' as [_ Hs']; [discriminate|]. simpl in Hs'.
    unfold block_properties. rewrite Hs'. reflexivity.
Qed.

(* C23 *)
Lemma keys_to_properties_gradient_samples p t keys sort t' :
  wf_tensor t -> wf_labels keys ->
  (rows keys = [] \/ forall b, In b (tm_blocks t) -> a_kind (bb_data (tb_values b)) <> RustEmptyArray) ->
  keys_to_properties p t keys sort = (t', Ok tt) ->
  forall e q s rest,
    tensor_gradient_sample t' e q s rest <->
    exists key, tensor_gradient_sample t key q s rest
      /\ e = new_key (labels_names keys) (labels_names (tm_keys t)) key.
Proof.
  intros Ht Hkeys Hkind H e q s rest. destruct (keys_to_properties_blocks _ _ _ _ _ Ht Hkeys Hkind H) as (_ & _ & _ & Hb & Hk).
  unfold tensor_gradient_sample. split.
  - intros (b' & Hb' & He). destruct (Hb _ _ Hb') as (k0 & b0 & others & _ & M).
    apply (pro_gradient_samples _ _ _ _ _ _ _ M) in He as (k & b & Hkb & He).
    apply in_group_block_of in Hkb as (key & Hkey & <- & ->). exists key. eauto 10.
  - intros (key & (b & Hkb & He) & ->).
    destruct (Hk _ _ Hkb) as (b' & Hb'). exists b'. split; [assumption|].
    destruct (Hb _ _ Hb') as (k0 & b0 & others & _ & M). apply (pro_gradient_samples _ _ _ _ _ _ _ M).
    exists (moved_part (labels_names keys) (labels_names (tm_keys t)) key), b. split; [|auto].
    apply in_group_block_of. eauto.
Qed.

Lemma keys_to_properties_agreeing p t keys sort t' :
  wf_tensor t -> wf_labels keys ->
  rows keys = [] -> keys_to_properties p t keys sort = (t', Ok tt) ->
  p = Debug -> agreeing_groups t (labels_names keys).
Proof.
  intros Ht Hkeys Hnone H Hp key1 b1 key2 b2 H1 H2 E. destruct (keys_to_properties_blocks _ _ _ _ _ Ht Hkeys (or_introl Hnone) H) as (_ & _ & _ & Hb & Hk).
  destruct (Hk _ _ H1) as (b' & Hb'). destruct (Hb _ _ Hb') as (k0 & b0 & others & _ & M).
  refine (pro_debug _ _ _ _ _ _ _ M Hp _ _ b1 _ b2 _ _).
  - intros k b _. unfold explicit. rewrite Hnone. exact I.
  - apply in_group_block_of. eauto.
  - apply in_group_block_of. exists key2. split; [exact H2|]. split; [congruence|reflexivity].
Qed.

Lemma keys_to_properties_gradients p t keys sort t' :
  wf_tensor t -> wf_labels keys ->
  (rows keys = [] \/ forall b, In b (tm_blocks t) -> a_kind (bb_data (tb_values b)) <> RustEmptyArray) ->
  keys_to_properties p t keys sort = (t', Ok tt) ->
  ((p = Debug /\ rows keys = []) \/ agreeing_groups t (labels_names keys)) ->
  forall e q s rest cs pr' v,
    tensor_gradient_value t' e q s rest cs pr' v <->
    (exists key pr, tensor_gradient_value t key q s rest cs pr v
       /\ requested_key keys (labels_names (tm_keys t)) key
       /\ e = new_key (labels_names keys) (labels_names (tm_keys t)) key
       /\ pr' = moved_part (labels_names keys) (labels_names (tm_keys t)) key ++ pr)
    \/ (v = 0%Z
        /\ tensor_gradient_sample t' e q s rest
        /\ (exists b' g js, block_of t' e b' /\ In (q, g) (tb_gradients b') /\ located (bb_components g) js cs
            /\ In pr' (rows (bb_properties (tb_values b'))))
        /\ forall key b pr, block_of t key b -> requested_key keys (labels_names (tm_keys t)) key ->
             e = new_key (labels_names keys) (labels_names (tm_keys t)) key ->
             pr' = moved_part (labels_names keys) (labels_names (tm_keys t)) key ++ pr ->
             gradient_sample b q s rest -> ~ In pr (rows (bb_properties (tb_values b)))).
Proof.
  intros Ht Hkeys Hkind H Hag e q s rest cs pr' v.
  assert (Hag' : agreeing_groups t (labels_names keys)).
  { destruct Hag as [[Hp Hnone]|Hag]; [|assumption]. eapply keys_to_properties_agreeing; eauto. }
  clear Hag. destruct (keys_to_properties_blocks _ _ _ _ _ Ht Hkeys Hkind H) as (Hax & Hlen' & _ & Hb & Hk).
  assert (Hga : forall e k1 b1 k2 b2, In (k1, b1) (group t (labels_names keys) e) ->
    In (k2, b2) (group t (labels_names keys) e) -> agreeing_gradients b1 b2).
  { intros e0 k1 b1 k2 b2 H1 H2. apply in_group_block_of in H1 as (key1 & H1 & E1 & _), H2 as (key2 & H2 & E2 & _).
    eapply Hag'; [exact H1|exact H2|congruence]. }
  assert (Huniq : forall e b1 b2, block_of t' e b1 -> block_of t' e b2 -> b1 = b2).
  { intros e0 b1 b2 (i & H1 & H2) (j & H3 & H4).
    assert (i = j) by (eapply NoDup_nth_error_inj; [apply (wf_rows_NoDup _ (proj1 Hax))| |]; eauto). subst. congruence. }
  unfold tensor_gradient_value. split.
  - intros (b' & Hb' & He). destruct (Hb _ _ Hb') as (k0 & b0 & others & _ & M).
    apply (pro_gradient_values _ _ _ _ _ _ _ M (Hga e)) in He as [(k & b & pr & Hkb & Hq & -> & He)|(H1 & (g & js & H2 & H2') & H3 & H4 & H5)].
    + left. apply in_group_block_of in Hkb as (key & Hkey & <- & ->). exists key, pr.
      split; [eauto|]. split; [apply requested_explicit; assumption|]. auto.
    + right. split; [assumption|]. split; [exists b'; auto|]. split; [exists b', g, js; auto|].
      intros key b pr Hkb Hq -> -> Hs. apply (H4 (moved_part (labels_names keys) (labels_names (tm_keys t)) key) b pr); auto.
      * apply in_group_block_of. eauto.
      * apply requested_explicit; assumption.
  - intros [(key & pr & (b & Hkb & He) & Hq & -> & ->)|(H1 & (b1 & Hb1 & H0) & (b' & g & js & Hb' & H2 & H3 & H4) & H5)].
    + destruct (Hk _ _ Hkb) as (b' & Hb'). exists b'. split; [assumption|].
      destruct (Hb _ _ Hb') as (k0 & b0 & others & _ & M). apply (pro_gradient_values _ _ _ _ _ _ _ M (Hga _)). left.
      exists (moved_part (labels_names keys) (labels_names (tm_keys t)) key), b, pr. split; [apply in_group_block_of; eauto|].
      split; [apply requested_explicit; assumption|]. auto.
    + rewrite (Huniq _ _ _ Hb1 Hb') in H0.
      exists b'. split; [assumption|]. destruct (Hb _ _ Hb') as (k0 & b0 & others & _ & M).
      apply (pro_gradient_values _ _ _ _ _ _ _ M (Hga _)). right. split; [assumption|]. split; [eauto|]. split; [assumption|].
      split; [|assumption]. intros k b pr Hkb Hq E Hs. apply in_group_block_of in Hkb as (key & Hkb & E1 & ->).
      apply (H5 key b pr); auto. apply requested_explicit; assumption.
Qed.

(** * Order of the merged samples (C20) *)

Lemma merged_samples_order (sort : bool) l :
  let merged := if sort then sort_rows (nub l) else nub l in
  (forall s, In s merged <-> In s l)
  /\ (sort = true -> StronglySorted lex_lt merged) /\ (sort = false -> first_appearance l merged).
Proof.
  simpl. split; [intros s; apply merged_rows|]. destruct sort; split; try discriminate; intros _.
  - apply sorted_lex. apply sort_rows_sorted. apply nub_NoDup.
  - apply nub_first_appearance.
Qed.

Lemma keys_to_samples_order p t keys sort t' :
  wf_tensor t -> keys_to_samples p t keys sort = (t', Ok tt) ->
  forall e b', block_of t' e b' ->
    let all := flat_map (fun kb => map (fun s => s ++ moved_part (labels_names keys) (labels_names (tm_keys t)) (fst kb))
                                       (rows (bb_samples (tb_values (snd kb)))))
                        (merged_together t (labels_names keys) e) in
    let merged := rows (bb_samples (tb_values b')) in
    (forall s, In s merged <-> In s all)
    /\ (sort = true -> StronglySorted lex_lt merged) /\ (sort = false -> first_appearance all merged)
    /\ forall q g, In (q, g) (tb_gradients b') -> StronglySorted lex_lt (rows (bb_samples g)).
Proof.
  intros Ht H e b' Hb' all merged. destruct (keys_to_samples_blocks _ _ _ _ _ Ht H) as (_ & _ & _ & Hb & _).
  destruct (Hb _ _ Hb') as (k0 & b0 & others & Eg & M).
  assert (Hall : all = all_samples true (group t (labels_names keys) e)).
  { unfold all, all_samples. rewrite group_merged_together, flat_map_map. reflexivity. }
  unfold merged. rewrite (sam_rows _ _ _ _ _ _ _ M), Hall.
  destruct (merged_samples_order sort (all_samples true (group t (labels_names keys) e))) as (H1 & H2 & H3).
  split; [assumption|]. split; [assumption|]. split; [assumption|].
  intros q g Hg. pose proof (sam_gradients _ _ _ _ _ _ _ M) as Hf. rewrite Eg in Hf. destruct Hf as [_ Hf].
  apply sorted_lex. apply (Hf _ _ Hg).
Qed.

Lemma keys_to_properties_order p t keys sort t' :
  wf_tensor t -> wf_labels keys ->
  (rows keys = [] \/ forall b, In b (tm_blocks t) -> a_kind (bb_data (tb_values b)) <> RustEmptyArray) ->
  keys_to_properties p t keys sort = (t', Ok tt) ->
  forall e b', block_of t' e b' ->
    let all := flat_map (fun kb => rows (bb_samples (tb_values (snd kb)))) (merged_together t (labels_names keys) e) in
    let merged := rows (bb_samples (tb_values b')) in
    (forall s, In s merged <-> In s all)
    /\ (sort = true -> StronglySorted lex_lt merged) /\ (sort = false -> first_appearance all merged)
    /\ forall q g, In (q, g) (tb_gradients b') -> StronglySorted lex_lt (rows (bb_samples g)).
Proof.
  intros Ht Hkeys Hkind H e b' Hb' all merged.
  destruct (keys_to_properties_blocks _ _ _ _ _ Ht Hkeys Hkind H) as (_ & _ & _ & Hb & _).
  destruct (Hb _ _ Hb') as (k0 & b0 & others & Eg & M).
  assert (Hall : all = all_samples false (group t (labels_names keys) e)).
  { unfold all, all_samples. rewrite group_merged_together, flat_map_map. apply flat_map_ext.
    intros kb. simpl. rewrite map_id. reflexivity. }
  unfold merged. rewrite (pro_samples _ _ _ _ _ _ _ M), Hall.
  destruct (merged_samples_order sort (all_samples false (group t (labels_names keys) e))) as (H1 & H2 & H3).
  split; [assumption|]. split; [assumption|]. split; [assumption|].
  intros q g Hg. pose proof (pro_gradients _ _ _ _ _ _ _ M) as Hf. rewrite Eg in Hf. destruct Hf as [_ Hf].
  apply sorted_lex. apply (Hf _ _ Hg).
Qed.

(** * Well-formed tensor maps (C25) *)

Lemma same_gradient_names_trans b1 b2 b3 : same_gradient_names b1 b2 -> same_gradient_names b2 b3 -> same_gradient_names b1 b3.
Proof.
  intros H1 H2 q g1 Hg1. destruct (H1 _ _ Hg1) as (g2 & Hg2 & E1 & E2). destruct (H2 _ _ Hg2) as (g3 & Hg3 & E3 & E4).
  exists g3. split; [assumption|]. split; congruence.
Qed.

Lemma gradients_follow_names k0 b0 others nb :
  wf_block b0 -> gradients_follow ((k0, b0) :: others) nb -> same_gradient_names b0 nb /\ same_gradient_names nb b0.
Proof.
  intros Hb0 [Hn Hf]. split.
  - intros q g0 Hg0.
    assert (Hq : In q (map fst (tb_gradients nb))) by (rewrite Hn; apply (in_map fst) in Hg0; exact Hg0).
    apply in_map_iff in Hq as ([q' newg] & E & Hq). simpl in E. subst q'.
    destruct (Hf _ _ Hq) as (_ & g1 & Hg1 & E1 & E2). exists newg. split; [assumption|].
    assert (g1 = g0).
    { apply (wf_block_gradient _ _ _ Hb0) in Hg0 as (_ & _ & Hg0). apply (wf_block_gradient _ _ _ Hb0) in Hg1 as (_ & _ & Hg1). congruence. }
    subst g1. rewrite E1, E2. auto.
  - intros q newg Hq. destruct (Hf _ _ Hq) as (_ & g1 & Hg1 & E1 & E2). exists g1. rewrite E1, E2. auto.
Qed.

Lemma moved_homogeneous t t' (new_samples new_properties : list string -> list string) :
  wf_tensor t -> axis_labels (tm_keys t') -> length (tm_blocks t') = length (rows (tm_keys t')) ->
  (forall e b', block_of t' e b' -> reachable_block b' /\ exists b0, In b0 (tm_blocks t)
     /\ labels_names (bb_samples (tb_values b')) = new_samples (labels_names (bb_samples (tb_values b0)))
     /\ labels_names (bb_properties (tb_values b')) = new_properties (labels_names (bb_properties (tb_values b0)))
     /\ bb_components (tb_values b') = bb_components (tb_values b0)
     /\ same_gradient_names b0 b' /\ same_gradient_names b' b0) ->
  wf_tensor t' /\ Forall reachable_block (tm_blocks t') /\ tensor_map_new (tm_keys t') (tm_blocks t') = Ok t'.
Proof.
  intros (_ & _ & _ & Hsame) Hax Hlen Hb.
  assert (Hof : forall b', In b' (tm_blocks t') -> exists e, block_of t' e b').
  { intros b' H. apply In_nth_error in H as [i Hi].
    destruct (nth_error (rows (tm_keys t')) i) as [e|] eqn:Ee; [exists e, i; auto|].
    apply nth_error_None in Ee. assert (i < length (tm_blocks t')) by (apply nth_error_Some; congruence). lia. }
  assert (Hr : Forall reachable_block (tm_blocks t')).
  { apply Forall_forall. intros b' H. apply Hof in H as [e H]. apply (Hb _ _ H). }
  assert (Hw : Forall wf_block (tm_blocks t')) by (eapply Forall_impl; [|exact Hr]; apply reachable_wf).
  assert (Hhom : homogeneous (tm_keys t') (tm_blocks t')).
  { split; [assumption|]. intros b1 b2 H1 H2. apply Hof in H1 as [e1 H1], H2 as [e2 H2].
    destruct (Hb _ _ H1) as (_ & c1 & I1 & S1 & P1 & C1 & G1 & G1'). destruct (Hb _ _ H2) as (_ & c2 & I2 & S2 & P2 & C2 & G2 & G2').
    destruct (Hsame _ _ I1 I2) as (E1 & E2 & E3 & E4 & E5).
    split; [congruence|]. split; [congruence|]. split; [congruence|]. split.
    - eapply same_gradient_names_trans; [exact G1'|]. eapply same_gradient_names_trans; [exact E4|exact G2].
    - eapply same_gradient_names_trans; [exact G2'|]. eapply same_gradient_names_trans; [exact E5|exact G1]. }
  split; [split; [assumption|split; assumption]|]. split; [assumption|].
  apply tensor_map_new_ok; auto. split; [assumption|]. destruct t'; reflexivity.
Qed.

Lemma keys_to_samples_wf p t keys sort t' :
  wf_tensor t -> keys_to_samples p t keys sort = (t', Ok tt) ->
  wf_tensor t' /\ Forall reachable_block (tm_blocks t') /\ tensor_map_new (tm_keys t') (tm_blocks t') = Ok t'.
Proof.
  intros Ht H. destruct (keys_to_samples_blocks _ _ _ _ _ Ht H) as (Hax & Hlen & _ & Hb & _).
  apply (moved_homogeneous t t' (fun names => names ++ labels_names keys) (fun names => names) Ht Hax Hlen).
  intros e b' He. destruct (Hb _ _ He) as (k0 & b0 & others & Eg & M). split; [apply (sam_reachable _ _ _ _ _ _ _ M)|].
  exists b0. assert (Hin : In (k0, b0) (group t (labels_names keys) e)) by (rewrite Eg; simpl; auto).
  apply group_blocks in Hin. split; [assumption|]. split; [apply (sam_names _ _ _ _ _ _ _ M)|].
  split; [rewrite (sam_properties _ _ _ _ _ _ _ M); reflexivity|]. split; [apply (sam_components _ _ _ _ _ _ _ M)|].
  apply (gradients_follow_names k0 b0 others).
  - destruct Ht as (_ & Hw & _). rewrite Forall_forall in Hw. apply Hw. assumption.
  - rewrite <- Eg. apply (sam_gradients _ _ _ _ _ _ _ M).
Qed.

Lemma keys_to_properties_wf p t keys sort t' :
  wf_tensor t -> wf_labels keys ->
  (rows keys = [] \/ forall b, In b (tm_blocks t) -> a_kind (bb_data (tb_values b)) <> RustEmptyArray) ->
  keys_to_properties p t keys sort = (t', Ok tt) ->
  wf_tensor t' /\ Forall reachable_block (tm_blocks t') /\ tensor_map_new (tm_keys t') (tm_blocks t') = Ok t'.
Proof.
  intros Ht Hkeys Hkind H. destruct (keys_to_properties_blocks _ _ _ _ _ Ht Hkeys Hkind H) as (Hax & Hlen & _ & Hb & _).
  apply (moved_homogeneous t t' (fun names => names) (fun names => labels_names keys ++ names) Ht Hax Hlen).
  intros e b' He. destruct (Hb _ _ He) as (k0 & b0 & others & Eg & M). split; [apply (pro_reachable _ _ _ _ _ _ _ M)|].
  exists b0. assert (Hin : In (k0, b0) (group t (labels_names keys) e)) by (rewrite Eg; simpl; auto).
  apply group_blocks in Hin. split; [assumption|]. split; [apply (pro_sample_names _ _ _ _ _ _ _ M)|].
  split; [apply (pro_property_names _ _ _ _ _ _ _ M)|]. split; [apply (pro_components _ _ _ _ _ _ _ M)|].
  apply (gradients_follow_names k0 b0 others).
  - destruct Ht as (_ & Hw & _). rewrite Forall_forall in Hw. apply Hw. assumption.
  - rewrite <- Eg. apply (pro_gradients _ _ _ _ _ _ _ M).
Qed.

(** * The names of moved variables (C26) *)

Lemma named_filter (f : string -> bool) names : forall key : list Z,
  length key = length names ->
  combine (filter f names) (map snd (filter (fun nv => f (fst nv)) (combine names key)))
  = filter (fun nv => f (fst nv)) (combine names key).
Proof.
  induction names as [|n names IH]; intros [|k key] H; simpl in *; try discriminate; [reflexivity|].
  destruct (f n); simpl; [f_equal|]; apply IH; lia.
Qed.

Lemma combine_app {A B} (l1 : list A) : forall (r1 : list B) l2 r2,
  length l1 = length r1 -> combine (l1 ++ l2) (r1 ++ r2) = combine l1 r1 ++ combine l2 r2.
Proof. induction l1 as [|x l1 IH]; intros [|y r1] l2 r2 H; simpl in *; try discriminate; [reflexivity|]. f_equal. apply IH. lia. Qed.

Lemma named_moved variables names key :
  in_key_order variables names -> length key = length names ->
  named variables (moved_part variables names key) = filter (fun nv => is_moved variables (fst nv)) (named names key).
Proof.
  intros Ho Hl. unfold named, moved_part, named.
  transitivity (combine (filter (is_moved variables) names) (map snd (filter (fun nv => is_moved variables (fst nv)) (combine names key)))).
  - rewrite Ho. reflexivity.
  - apply named_filter. assumption.
Qed.

Lemma wf_tensor_block t b : wf_tensor t -> In b (tm_blocks t) -> wf_block b.
Proof. intros (_ & Hw & _) H. rewrite Forall_forall in Hw. auto. Qed.

Lemma keys_to_samples_names p t keys sort t' :
  wf_tensor t -> keys_to_samples p t keys sort = (t', Ok tt) ->
  forall e b' key b, block_of t' e b' -> block_of t key b ->
    labels_names (bb_samples (tb_values b')) = labels_names (bb_samples (tb_values b)) ++ labels_names keys
    /\ map labels_names (bb_components (tb_values b')) = map labels_names (bb_components (tb_values b))
    /\ labels_names (bb_properties (tb_values b')) = labels_names (bb_properties (tb_values b)).
Proof.
  intros Ht H e b' key b He Hkey. destruct (keys_to_samples_blocks _ _ _ _ _ Ht H) as (_ & _ & _ & Hb & _).
  destruct (Hb _ _ He) as (k0 & b0 & others & Eg & M).
  assert (Hin : In (k0, b0) (group t (labels_names keys) e)) by (rewrite Eg; simpl; auto). apply group_blocks in Hin.
  destruct Ht as (_ & _ & _ & Hs). destruct (Hs _ _ Hin (block_of_In _ _ _ Hkey)) as (E1 & E2 & E3 & _).
  rewrite (sam_names _ _ _ _ _ _ _ M), (sam_components _ _ _ _ _ _ _ M), (sam_properties _ _ _ _ _ _ _ M), E1, E2, E3. auto.
Qed.

Lemma keys_to_samples_named p t keys sort t' :
  wf_tensor t -> keys_to_samples p t keys sort = (t', Ok tt) ->
  in_key_order (labels_names keys) (labels_names (tm_keys t)) ->
  forall e b' key b s, block_of t' e b' -> block_of t key b -> In s (rows (bb_samples (tb_values b))) ->
    named (labels_names (bb_samples (tb_values b')))
          (s ++ moved_part (labels_names keys) (labels_names (tm_keys t)) key)
    = named (labels_names (bb_samples (tb_values b))) s
      ++ filter (fun nv => is_moved (labels_names keys) (fst nv)) (named (labels_names (tm_keys t)) key).
Proof.
  intros Ht H Ho e b' key b s He Hkey Hs.
  destruct (keys_to_samples_names _ _ _ _ _ Ht H e b' key b He Hkey) as (-> & _).
  unfold named at 1. rewrite combine_app.
  - f_equal. apply named_moved; [assumption|]. apply wf_rows_length; [apply Ht|]. eapply block_of_key; eauto.
  - pose proof (wf_tensor_block _ _ Ht (block_of_In _ _ _ Hkey)) as [Hv _]. destruct (wf_basic_axes _ Hv) as ([Hsw _] & _).
    symmetry. apply wf_rows_length; assumption.
Qed.

Lemma keys_to_properties_names p t keys sort t' :
  wf_tensor t -> wf_labels keys ->
  (rows keys = [] \/ forall b, In b (tm_blocks t) -> a_kind (bb_data (tb_values b)) <> RustEmptyArray) ->
  keys_to_properties p t keys sort = (t', Ok tt) ->
  forall e b' key b, block_of t' e b' -> block_of t key b ->
    labels_names (bb_samples (tb_values b')) = labels_names (bb_samples (tb_values b))
    /\ map labels_names (bb_components (tb_values b')) = map labels_names (bb_components (tb_values b))
    /\ labels_names (bb_properties (tb_values b')) = labels_names keys ++ labels_names (bb_properties (tb_values b)).
Proof.
  intros Ht Hkeys Hkind H e b' key b He Hkey.
  destruct (keys_to_properties_blocks _ _ _ _ _ Ht Hkeys Hkind H) as (_ & _ & _ & Hb & _).
  destruct (Hb _ _ He) as (k0 & b0 & others & Eg & M).
  assert (Hin : In (k0, b0) (group t (labels_names keys) e)) by (rewrite Eg; simpl; auto). apply group_blocks in Hin.
  destruct Ht as (_ & _ & _ & Hs). destruct (Hs _ _ Hin (block_of_In _ _ _ Hkey)) as (E1 & E2 & E3 & _).
  rewrite (pro_sample_names _ _ _ _ _ _ _ M), (pro_components _ _ _ _ _ _ _ M), (pro_property_names _ _ _ _ _ _ _ M), E1, E2, E3. auto.
Qed.

Lemma keys_to_properties_named p t keys sort t' :
  wf_tensor t -> wf_labels keys ->
  (rows keys = [] \/ forall b, In b (tm_blocks t) -> a_kind (bb_data (tb_values b)) <> RustEmptyArray) ->
  keys_to_properties p t keys sort = (t', Ok tt) ->
  in_key_order (labels_names keys) (labels_names (tm_keys t)) ->
  forall e b' key b pr, block_of t' e b' -> block_of t key b -> In pr (rows (bb_properties (tb_values b))) ->
    named (labels_names (bb_properties (tb_values b')))
          (moved_part (labels_names keys) (labels_names (tm_keys t)) key ++ pr)
    = filter (fun nv => is_moved (labels_names keys) (fst nv)) (named (labels_names (tm_keys t)) key)
      ++ named (labels_names (bb_properties (tb_values b))) pr.
Proof.
  intros Ht Hkeys Hkind H Ho e b' key b pr He Hkey Hs.
  destruct (keys_to_properties_names _ _ _ _ _ Ht Hkeys Hkind H e b' key b He Hkey) as (_ & _ & ->).
  pose proof (wf_rows_length _ _ (proj1 (proj1 Ht)) (block_of_key _ _ _ Hkey)) as Hl.
  unfold named at 1. rewrite combine_app.
  - f_equal. apply named_moved; assumption.
  - rewrite moved_part_length by assumption. rewrite Ho. reflexivity.
Qed.

(** * Statements for the property files *)

Lemma keys_to_samples_origin p t keys sort t' :
  wf_tensor t -> keys_to_samples p t keys sort = (t', Ok tt) ->
  forall e s' cs pr v, tensor_entry t' e s' cs pr v ->
    exists! ks : list Z * list Z, tensor_entry t (fst ks) (snd ks) cs pr v
      /\ e = new_key (labels_names keys) (labels_names (tm_keys t)) (fst ks)
      /\ s' = snd ks ++ moved_part (labels_names keys) (labels_names (tm_keys t)) (fst ks).
Proof.
  intros Ht H e s' cs pr v He. apply (keys_to_samples_values _ _ _ _ _ Ht H) in He as (key & s & He & E1 & E2).
  exists (key, s). split; [auto|]. intros [key2 s2] (He2 & E3 & E4). simpl in *.
  apply tensor_entry_block in He as (b & Hb & _), He2 as (b2 & Hb2 & _).
  destruct (moved_sample_unique t (labels_names keys) key b s key2 b2 s2 Ht Hb Hb2) as [-> ->]; congruence.
Qed.

Lemma tensor_entry_function t key s cs pr v1 v2 :
  wf_tensor t -> tensor_entry t key s cs pr v1 -> tensor_entry t key s cs pr v2 -> v1 = v2.
Proof.
  intros Ht H1 H2. apply tensor_entry_block in H1 as (b1 & Hb1 & H1), H2 as (b2 & Hb2 & H2).
  rewrite (block_of_unique _ _ _ _ Ht Hb2 Hb1) in H2.
  eapply entry_function; [|exact H1|exact H2]. apply (wf_tensor_block _ _ Ht (block_of_In _ _ _ Hb1)).
Qed.

Lemma gradient_value_function b q s rest cs pr v1 v2 :
  wf_block b -> gradient_value b q s rest cs pr v1 -> gradient_value b q s rest cs pr v2 -> v1 = v2.
Proof.
  intros Hb (i & g & Hi & Hg & He) (j & g' & Hj & Hg' & He').
  assert (i = j).
  { destruct (wf_basic_axes _ (proj1 Hb)) as ([Hsw _] & _). eapply NoDup_nth_error_inj; [apply (wf_rows_NoDup _ Hsw)| |]; eauto. }
  destruct (wf_block_gradient _ _ _ Hb Hg) as (Hw & _ & E). destruct (wf_block_gradient _ _ _ Hb Hg') as (_ & _ & E').
  assert (g = g') by congruence. subst. eapply entry_function; eauto.
Qed.

Lemma tensor_gradient_function t key q s rest cs pr v1 v2 :
  wf_tensor t -> tensor_gradient_value t key q s rest cs pr v1 -> tensor_gradient_value t key q s rest cs pr v2 -> v1 = v2.
Proof.
  intros Ht (b1 & Hb1 & H1) (b2 & Hb2 & H2).
  rewrite (block_of_unique _ _ _ _ Ht Hb2 Hb1) in H2.
  eapply gradient_value_function; [|exact H1|exact H2]. apply (wf_tensor_block _ _ Ht (block_of_In _ _ _ Hb1)).
Qed.

Lemma keys_to_samples_gradient_origin p t keys sort t' :
  wf_tensor t -> keys_to_samples p t keys sort = (t', Ok tt) ->
  (p = Debug \/ agreeing_groups t (labels_names keys)) ->
  forall e q s' rest cs pr v, tensor_gradient_value t' e q s' rest cs pr v ->
    exists! ks : list Z * list Z, tensor_gradient_value t (fst ks) q (snd ks) rest cs pr v
      /\ e = new_key (labels_names keys) (labels_names (tm_keys t)) (fst ks)
      /\ s' = snd ks ++ moved_part (labels_names keys) (labels_names (tm_keys t)) (fst ks).
Proof.
  intros Ht H Hag e q s' rest cs pr v He. apply (keys_to_samples_gradients _ _ _ _ _ Ht H Hag) in He as (key & s & He & E1 & E2).
  exists (key, s). split; [auto|]. intros [key2 s2] (He2 & E3 & E4). simpl in *.
  destruct He as (b & Hb & _), He2 as (b2 & Hb2 & _).
  destruct (moved_sample_unique t (labels_names keys) key b s key2 b2 s2 Ht Hb Hb2) as [-> ->]; congruence.
Qed.

Lemma block_at t b : wf_tensor t -> In b (tm_blocks t) -> exists e, block_of t e b.
Proof.
  intros (_ & _ & Hlen & _) H. apply In_nth_error in H as [i Hi].
  destruct (nth_error (rows (tm_keys t)) i) as [e|] eqn:Ee; [exists e, i; auto|].
  apply nth_error_None in Ee. assert (i < length (tm_blocks t)) by (apply nth_error_Some; congruence). lia.
Qed.

Lemma keys_to_samples_in_range p t keys sort t' :
  wf_tensor t -> keys_to_samples p t keys sort = (t', Ok tt) ->
  Forall gradient_samples_in_range (tm_blocks t) /\ Forall gradient_samples_in_range (tm_blocks t').
Proof.
  intros Ht H. destruct (keys_to_samples_blocks _ _ _ _ _ Ht H) as (_ & _ & _ & Hb & Hk).
  destruct (keys_to_samples_wf _ _ _ _ _ Ht H) as (Ht' & _).
  split; apply Forall_forall; intros b Hin.
  - destruct (block_at _ _ Ht Hin) as (key & Hkey). destruct (Hk _ _ Hkey) as (b' & Hb').
    destruct (Hb _ _ Hb') as (k0 & b0 & others & _ & M). eapply (sam_were_in_range _ _ _ _ _ _ _ M).
    apply in_group_block_of. eauto.
  - destruct (block_at _ _ Ht' Hin) as (e & He). destruct (Hb _ _ He) as (k0 & b0 & others & _ & M).
    apply (sam_in_range _ _ _ _ _ _ _ M).
Qed.

Lemma keys_to_properties_in_range p t keys sort t' :
  wf_tensor t -> wf_labels keys ->
  (rows keys = [] \/ forall b, In b (tm_blocks t) -> a_kind (bb_data (tb_values b)) <> RustEmptyArray) ->
  keys_to_properties p t keys sort = (t', Ok tt) ->
  Forall gradient_samples_in_range (tm_blocks t) /\ Forall gradient_samples_in_range (tm_blocks t').
Proof.
  intros Ht Hkeys Hkind H. destruct (keys_to_properties_blocks _ _ _ _ _ Ht Hkeys Hkind H) as (_ & _ & _ & Hb & Hk).
  destruct (keys_to_properties_wf _ _ _ _ _ Ht Hkeys Hkind H) as (Ht' & _).
  split; apply Forall_forall; intros b Hin.
  - destruct (block_at _ _ Ht Hin) as (key & Hkey). destruct (Hk _ _ Hkey) as (b' & Hb').
    destruct (Hb _ _ Hb') as (k0 & b0 & others & _ & M). eapply (pro_were_in_range _ _ _ _ _ _ _ M).
    apply in_group_block_of. eauto.
  - destruct (block_at _ _ Ht' Hin) as (e & He). destruct (Hb _ _ He) as (k0 & b0 & others & _ & M).
    apply (pro_in_range _ _ _ _ _ _ _ M).
Qed.

Lemma requested_all keys names key : rows keys = [] -> requested_key keys names key.
Proof. left. assumption. Qed.

Lemma requested_listed keys names key :
  rows keys <> [] -> (requested_key keys names key <-> In (moved_part (labels_names keys) names key) (rows keys)).
Proof. unfold requested_key. tauto. Qed.

Lemma or_iff_both (A A' B B' : Prop) : (A <-> A') -> (B <-> B') -> (A \/ B <-> A' \/ B').
Proof. tauto. Qed.

Lemma keys_to_properties_values_names p t keys sort t' :
  wf_tensor t -> wf_labels keys -> rows keys = [] ->
  keys_to_properties p t keys sort = (t', Ok tt) ->
  forall e s cs pr' v,
    tensor_entry t' e s cs pr' v <->
    (exists key pr, tensor_entry t key s cs pr v
       /\ e = new_key (labels_names keys) (labels_names (tm_keys t)) key
       /\ pr' = moved_part (labels_names keys) (labels_names (tm_keys t)) key ++ pr)
    \/ (v = 0%Z
        /\ (exists b', block_of t' e b' /\ In s (rows (bb_samples (tb_values b')))
            /\ (exists js, located (bb_components (tb_values b')) js cs)
            /\ In pr' (rows (bb_properties (tb_values b'))))
        /\ forall key b pr, block_of t key b ->
             e = new_key (labels_names keys) (labels_names (tm_keys t)) key ->
             pr' = moved_part (labels_names keys) (labels_names (tm_keys t)) key ++ pr ->
             In s (rows (bb_samples (tb_values b))) -> ~ In pr (rows (bb_properties (tb_values b)))).
Proof.
  intros Ht Hkeys Hr H e s cs pr' v.
  rewrite (keys_to_properties_values _ _ _ _ _ Ht Hkeys (or_introl Hr) H).
  apply or_iff_both; [|apply and_iff_compat_l, and_iff_compat_l].
  - split; intros (key & pr & H1 & H2); exists key, pr; intuition auto using requested_all.
  - split; intros H1 key b pr; [intros H2; apply (H1 key b pr H2); auto using requested_all|intros H2 _; apply (H1 key b pr H2)].
Qed.

Lemma keys_to_properties_values_entries p t keys sort t' :
  wf_tensor t -> wf_labels keys -> rows keys <> [] ->
  (forall b, In b (tm_blocks t) -> a_kind (bb_data (tb_values b)) <> RustEmptyArray) ->
  keys_to_properties p t keys sort = (t', Ok tt) ->
  forall e s cs pr' v,
    tensor_entry t' e s cs pr' v <->
    (exists key pr, tensor_entry t key s cs pr v
       /\ In (moved_part (labels_names keys) (labels_names (tm_keys t)) key) (rows keys)
       /\ e = new_key (labels_names keys) (labels_names (tm_keys t)) key
       /\ pr' = moved_part (labels_names keys) (labels_names (tm_keys t)) key ++ pr)
    \/ (v = 0%Z
        /\ (exists b', block_of t' e b' /\ In s (rows (bb_samples (tb_values b')))
            /\ (exists js, located (bb_components (tb_values b')) js cs)
            /\ In pr' (rows (bb_properties (tb_values b'))))
        /\ forall key b pr, block_of t key b ->
             e = new_key (labels_names keys) (labels_names (tm_keys t)) key ->
             pr' = moved_part (labels_names keys) (labels_names (tm_keys t)) key ++ pr ->
             In s (rows (bb_samples (tb_values b))) -> ~ In pr (rows (bb_properties (tb_values b)))).
Proof.
  intros Ht Hkeys Hr Hkind H e s cs pr' v.
  rewrite (keys_to_properties_values _ _ _ _ _ Ht Hkeys (or_intror Hkind) H).
  apply or_iff_both; [|apply and_iff_compat_l].
  - split; intros (key & pr & H1 & H2 & H3); exists key, pr; (split; [exact H1|]); (split; [|exact H3]);
      apply (requested_listed _ _ _ Hr); assumption.
  - split; intros [(b' & Hb' & I1 & I2 & I3) H1]; (split; [exists b'; auto|]); intros key b pr Hkb.
    + intros E1 E2 Hs Hp. refine (H1 key b pr Hkb _ E1 E2 Hs Hp). apply (requested_listed _ _ _ Hr).
      destruct (keys_to_properties_properties _ _ _ _ _ Ht Hkeys (or_intror Hkind) H e b' Hb') as [_ Hrows].
      rewrite (Hrows Hr key b Hkb E1) in I3. apply in_flat_map in I3 as (entry & He & I3).
      apply in_map_iff in I3 as (pr1 & E & _). rewrite E2 in E.
      destruct (keys_to_properties_blocks _ _ _ _ _ Ht Hkeys (or_intror Hkind) H) as (_ & _ & Hv & _).
      apply app_eq_length in E as [<- _]; [assumption|].
      rewrite (wf_rows_length _ _ Hkeys He), moved_part_length.
      * symmetry. apply moved_names_length; [apply Ht| |assumption]. apply wf_labels_is_labels in Hkeys. apply Hkeys.
      * apply wf_rows_length; [apply Ht|]. eapply block_of_key; eauto.
    + intros Hq. apply (H1 key b pr Hkb).
Qed.
