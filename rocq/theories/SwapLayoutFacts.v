(* The layout of an array after swapping and merging axes, as in
   components_to_properties *)
From Verif Require Import Base BaseFacts Layout LayoutFacts.
Local Open Scope list_scope.
Local Open Scope nat_scope.

(** * Arrays are in standard layout when the positions are in order *)

Lemma steps_length n s : length (steps n s) = n.
Proof. unfold steps. rewrite map_length, seq_length. reflexivity. Qed.

Lemma nth_steps n s i : i < n -> nth i (steps n s) 0 = i * s.
Proof.
  intros H. unfold steps. rewrite (nth_indep _ 0 (0 * s)) by (rewrite map_length, seq_length; exact H).
  rewrite map_nth with (f := fun i => i * s). rewrite seq_nth by exact H. reflexivity.
Qed.

Lemma shifted_length l1 l2 : length (shifted l1 l2) = length l1 * length l2.
Proof.
  unfold shifted. induction l1 as [|x l1 IH]; [reflexivity|]. cbn [flat_map]. rewrite app_length, map_length, IH. reflexivity.
Qed.

Lemma nth_shifted l1 l2 : forall i j, i < length l1 -> j < length l2 ->
  nth (i * length l2 + j) (shifted l1 l2) 0 = nth i l1 0 + nth j l2 0.
Proof.
  induction l1 as [|x l1 IH]; intros i j Hi Hj; cbn [length] in Hi; [lia|].
  change (shifted (x :: l1) l2) with (map (Nat.add x) l2 ++ shifted l1 l2).
  destruct i as [|i].
  - rewrite app_nth1 by (rewrite map_length; cbn [Nat.mul]; lia). cbn [Nat.mul Nat.add nth].
    rewrite (nth_indep _ 0 (x + 0)) by (rewrite map_length; exact Hj). apply map_nth.
  - rewrite app_nth2 by (rewrite map_length; cbn [Nat.mul]; lia). rewrite map_length.
    replace (S i * length l2 + j - length l2) with (i * length l2 + j) by (cbn [Nat.mul]; lia).
    rewrite IH by lia. reflexivity.
Qed.

Lemma offsets_standard axes : forall k, 0 < k -> Forall (fun n => 0 < n) (map fst axes) ->
  offsets axes = steps (prod (map fst axes)) k -> layout_c_loop (rev axes) k = true.
Proof.
  induction axes as [|[n s] axes IH] using rev_ind; intros k Hk Hf H; [reflexivity|].
  rewrite map_app in Hf. apply Forall_app in Hf as [Hf Hn]. apply Forall_inv in Hn. cbn [fst] in Hn.
  pose proof (prod_pos _ Hf) as Hp.
  rewrite rev_app_distr. cbn [rev app layout_c_loop].
  rewrite offsets_app, offsets_one, map_app, prod_app in H. cbn [map fst prod] in H. rewrite Nat.mul_1_r in H.
  destruct (n =? 1) eqn:E.
  - apply Nat.eqb_eq in E. subst n. rewrite steps_1, shifted_0_r, Nat.mul_1_r in H. apply IH; assumption.
  - apply Nat.eqb_neq in E.
    assert (Hl : length (offsets axes) = prod (map fst axes)) by apply offsets_length.
    assert (Hget : forall i j, i < prod (map fst axes) -> j < n -> nth i (offsets axes) 0 + j * s = (i * n + j) * k).
    { intros i j Hi Hj. pose proof (nth_shifted (offsets axes) (steps n s) i j) as X.
      rewrite Hl, steps_length in X. specialize (X Hi Hj). rewrite nth_steps in X by exact Hj. rewrite <- X, H.
      apply nth_steps. nia. }
    assert (s = k) as ->.
    { pose proof (Hget 0 0 Hp ltac:(lia)). pose proof (Hget 0 1 Hp ltac:(lia)). lia. }
    rewrite Nat.eqb_refl. apply IH; [nia|exact Hf|].
    apply nth_ext with (d := 0) (d' := 0); [rewrite Hl, steps_length; reflexivity|].
    intros i Hi. rewrite Hl in Hi. rewrite nth_steps by exact Hi. pose proof (Hget i 0 Hi ltac:(lia)). nia.
Qed.

Lemma standard_iff shape strides : length strides = length shape ->
  (is_standard_layout shape strides = true <-> offsets (combine shape strides) = seq 0 (prod shape)).
Proof.
  intros Hl. split; [apply standard_offsets; exact Hl|]. intros H. unfold is_standard_layout. apply orb_true_iff.
  destruct (prod shape) eqn:E; [left; apply existsb_zero; exact E|]. right.
  apply offsets_standard; [lia| |]; rewrite combine_fst by exact Hl.
  - apply prod_nonzero. lia.
  - rewrite E, steps_seq. exact H.
Qed.

(* the strides after to_shape and to_owned *)
Lemma to_shape_cases shape strides shape' r : length strides = length shape ->
  to_shape_strides shape strides shape' = Some r -> 0 < prod shape ->
  prod shape' = prod shape
  /\ ((exists view, reshape_dim shape strides shape' = inl view /\ length view = length shape'
         /\ offsets (combine shape' view) = offsets (combine shape strides)
         /\ r = if is_contiguous shape' view then view else default_strides shape')
      \/ (exists e, reshape_dim shape strides shape' = inr e) /\ r = default_strides shape').
Proof.
  intros Hl H Hp. unfold to_shape_strides in H. destruct (prod shape' =? prod shape) eqn:E; [|discriminate].
  apply Nat.eqb_eq in E. split; [exact E|].
  destruct (prod shape =? 0) eqn:E0; [apply Nat.eqb_eq in E0; lia|].
  destruct (reshape_dim shape strides shape') as [view|e] eqn:Er.
  - left. exists view. split; [reflexivity|]. unfold reshape_dim in Er. apply reshape_dim_c_sound in Er.
    + destruct Er as [H1 H2]. split; [exact H1|]. split; [exact H2|]. congruence.
    + rewrite combine_fst by exact Hl. apply prod_nonzero. lia.
    + apply prod_nonzero. lia.
  - right. split; [exists e; reflexivity|]. destruct e; [discriminate|congruence].
Qed.

Lemma to_shape_length shape strides shape' r : length strides = length shape ->
  to_shape_strides shape strides shape' = Some r -> length r = length shape'.
Proof.
  intros Hl H. destruct (prod shape) eqn:E.
  - unfold to_shape_strides in H. rewrite E in H. destruct (prod shape' =? 0); [|discriminate]. cbn in H. inversion H. apply default_strides_length.
  - destruct (to_shape_cases _ _ _ _ Hl H ltac:(lia)) as (_ & [(view & _ & Hv & _ & ->)|[_ ->]]); [|apply default_strides_length].
    destruct (is_contiguous shape' view); [exact Hv|apply default_strides_length].
Qed.

(* reshaping keeps the standard layout *)
Lemma reshape_standard shape strides shape' r : length strides = length shape ->
  is_standard_layout shape strides = true -> to_shape_strides shape strides shape' = Some r ->
  is_standard_layout shape' r = true.
Proof.
  intros Hl Hs H. pose proof (to_shape_length _ _ _ _ Hl H) as Hr. destruct (prod shape) as [|n] eqn:E.
  - unfold to_shape_strides in H. rewrite E in H. destruct (prod shape' =? 0) eqn:E'; [|discriminate].
    apply Nat.eqb_eq in E'. apply existsb_zero in E'. unfold is_standard_layout. rewrite E'. reflexivity.
  - destruct (to_shape_cases _ _ _ _ Hl H ltac:(lia)) as (Ep & [(view & _ & Hv & Ho & ->)|[_ ->]]); [|apply default_standard].
    destruct (is_contiguous shape' view); [|apply default_standard].
    apply standard_iff; [exact Hv|]. rewrite Ho, Ep. apply standard_offsets; assumption.
Qed.

(** * Swapping two axes *)

Definition several (axis : nat * nat) : bool := negb (fst axis =? 1).

(* axes of length one do not matter *)
Lemma contiguous_filter axes : forall c, contiguous_loop (filter several axes) c = contiguous_loop axes c.
Proof.
  induction axes as [|[n s] axes IH]; intros c; [reflexivity|]. unfold several at 1. cbn [filter fst]. cbn [contiguous_loop].
  destruct (n =? 1) eqn:E; cbn [negb orb].
  - apply Nat.eqb_eq in E. subst n. rewrite IH. f_equal. lia.
  - cbn [contiguous_loop]. rewrite E. cbn [orb]. destruct (s =? c); [apply IH|reflexivity].
Qed.

Lemma layout_filter axes : forall c, layout_c_loop (filter several axes) c = layout_c_loop axes c.
Proof.
  induction axes as [|[n s] axes IH]; intros c; [reflexivity|]. unfold several at 1. cbn [filter fst layout_c_loop].
  destruct (n =? 1) eqn:E; cbn [negb]; [apply IH|]. cbn [layout_c_loop]. rewrite E. destruct (s =? c); [apply IH|reflexivity].
Qed.

(* sorted by stride *)
Fixpoint ascending (axes : list (nat * nat)) : Prop :=
  match axes with
  | [] => True
  | x :: axes' => (forall y, In y axes' -> snd x <= snd y) /\ ascending axes'
  end.

Lemma in_insert x l y : In y (insert_axis x l) <-> y = x \/ In y l.
Proof.
  induction l as [|z l IH]; cbn [insert_axis]; [cbn; intuition|].
  destruct (snd x <=? snd z); cbn [In]; [intuition|]. rewrite IH. cbn [In]. intuition.
Qed.

Lemma insert_ascending x l : ascending l -> ascending (insert_axis x l).
Proof.
  induction l as [|z l IH]; cbn [insert_axis ascending]; [intros _; split; [intros y []|exact I]|].
  intros [H1 H2]. destruct (snd x <=? snd z) eqn:E.
  - apply Nat.leb_le in E. cbn [ascending]. split; [|split; assumption].
    intros y [<-|Hy]; [exact E|]. specialize (H1 y Hy). lia.
  - apply Nat.leb_gt in E. cbn [ascending]. split; [|apply IH; exact H2].
    intros y Hy. apply in_insert in Hy as [->|Hy]; [lia|apply H1; exact Hy].
Qed.

Lemma order_ascending axes : ascending (fastest_varying_order axes).
Proof. induction axes as [|x axes IH]; [exact I|]. cbn. apply insert_ascending. exact IH. Qed.

Lemma filter_insert_out x l : several x = false -> filter several (insert_axis x l) = filter several l.
Proof.
  intros Hx. induction l as [|z l IH]; cbn [insert_axis]; [cbn; rewrite Hx; reflexivity|].
  destruct (snd x <=? snd z); cbn [filter]; [rewrite Hx; reflexivity|]. rewrite IH. reflexivity.
Qed.

Lemma filter_insert_in x l : several x = true -> ascending l ->
  filter several (insert_axis x l) = insert_axis x (filter several l).
Proof.
  intros Hx. induction l as [|z l IH]; cbn [insert_axis ascending]; intros Ha; [cbn; rewrite Hx; reflexivity|].
  destruct Ha as [H1 H2]. destruct (snd x <=? snd z) eqn:E.
  - cbn [filter]. rewrite Hx. destruct (several z); cbn [insert_axis]; [rewrite E; reflexivity|].
    apply Nat.leb_le in E. clear IH H2. destruct (filter several l) as [|y ys] eqn:El; [reflexivity|].
    cbn [insert_axis]. assert (Hy : In y l) by (eapply proj1, filter_In; rewrite El; left; reflexivity).
    specialize (H1 y Hy). destruct (snd x <=? snd y) eqn:E2; [reflexivity|]. apply Nat.leb_gt in E2. lia.
  - cbn [filter]. destruct (several z); cbn [insert_axis]; [rewrite E, IH by exact H2; reflexivity|apply IH; exact H2].
Qed.

Lemma filter_order axes : filter several (fastest_varying_order axes) = fastest_varying_order (filter several axes).
Proof.
  induction axes as [|x axes IH]; [reflexivity|].
  change (fastest_varying_order (x :: axes)) with (insert_axis x (fastest_varying_order axes)). cbn [filter].
  destruct (several x) eqn:E.
  - rewrite filter_insert_in by (try exact E; apply order_ascending). rewrite IH. reflexivity.
  - rewrite filter_insert_out by exact E. exact IH.
Qed.

Lemma insert_last x l : (forall y, In y l -> snd y < snd x) -> insert_axis x l = l ++ [x].
Proof.
  induction l as [|z l IH]; intros H; [reflexivity|]. cbn [insert_axis app].
  pose proof (H z (or_introl eq_refl)). destruct (snd x <=? snd z) eqn:E; [apply Nat.leb_le in E; lia|].
  rewrite IH; [reflexivity|]. intros y Hy. apply H. right. exact Hy.
Qed.

(* axes of length at least two which follow each other are already sorted *)
Lemma layout_order axes : forall c base, 0 < c -> Forall (fun n => 0 < n) (map fst axes) ->
  forallb several axes = true -> layout_c_loop (rev axes) c = true ->
  ascending base -> (forall y, In y base -> snd y < c) ->
  fold_right insert_axis base axes = base ++ rev axes /\ contiguous_loop (rev axes) c = true.
Proof.
  induction axes as [|[n s] axes IH] using rev_ind; intros c base Hc Hf Hm H Ha Hb.
  - cbn. rewrite app_nil_r. split; reflexivity.
  - rewrite map_app in Hf. apply Forall_app in Hf as [Hf Hn]. apply Forall_inv in Hn. cbn [fst] in Hn.
    rewrite forallb_app in Hm. apply andb_prop in Hm as [Hm Hm']. cbn [forallb] in Hm'. rewrite andb_true_r in Hm'.
    unfold several in Hm'. cbn [fst] in Hm'. apply negb_true_iff in Hm'. rewrite rev_app_distr in H |- *. cbn [rev app layout_c_loop] in H.
    rewrite Hm' in H. destruct (s =? c) eqn:E; [|discriminate]. pose proof E as E'. apply Nat.eqb_eq in E'. subst s.
    apply Nat.eqb_neq in Hm'.
    rewrite fold_right_app. cbn [fold_right]. rewrite insert_last by exact Hb.
    destruct (IH (c * n) (base ++ [(n, c)])) as [H1 H2]; [nia|exact Hf|exact Hm|exact H| | |].
    + pose proof (insert_ascending (n, c) base Ha) as X. rewrite insert_last in X by exact Hb. exact X.
    + intros y Hy. apply in_app_or in Hy as [Hy|[<-|[]]]; [specialize (Hb y Hy); nia|cbn [snd]; nia].
    + split; [rewrite H1, <- app_assoc; reflexivity|]. cbn [rev app contiguous_loop]. rewrite E, orb_true_r. exact H2.
Qed.

Lemma filter_rev {A} (f : A -> bool) l : filter f (rev l) = rev (filter f l).
Proof.
  induction l as [|x l IH]; [reflexivity|]. cbn [rev filter]. rewrite filter_app, IH. cbn [filter].
  destruct (f x); [reflexivity|apply app_nil_r].
Qed.

(* the two last axes in the wrong order *)
Lemma swapped_contiguous pre strides c d :
  length strides = length pre -> pre <> [] -> Forall (fun n => 0 < n) pre -> 2 <= c -> 2 <= d ->
  layout_c_loop (rev (combine pre strides)) (d * c) = true ->
  is_contiguous (pre ++ [d; c]) (strides ++ [1; d]) = true.
Proof.
  intros Hl Hne Hf Hc Hd H. unfold is_contiguous. destruct (list_eq_dec _ _ _); [reflexivity|].
  rewrite app_length. destruct pre as [|n0 pre0]; [congruence|].
  replace (length (n0 :: pre0) + length [d; c] =? 1) with false by (symmetry; apply Nat.eqb_neq; cbn [length]; lia).
  remember (n0 :: pre0) as pre eqn:Epre. clear Epre Hne n.
  rewrite <- contiguous_filter, filter_order, combine_app_eq by exact Hl. rewrite filter_app. cbn [combine filter].
  unfold several at 2 3. cbn [fst].
  replace (d =? 1) with false by (symmetry; apply Nat.eqb_neq; lia).
  replace (c =? 1) with false by (symmetry; apply Nat.eqb_neq; lia). cbn [negb].
  unfold fastest_varying_order. rewrite fold_right_app. cbn [fold_right insert_axis snd].
  replace (1 <=? d) with true by (symmetry; apply Nat.leb_le; lia).
  assert (Hfilter : forall axes, Forall (fun n => 0 < n) (map fst axes) -> Forall (fun n => 0 < n) (map fst (filter several axes))).
  { clear. intros axes H. rewrite Forall_forall in *. intros n Hn. apply in_map_iff in Hn as (x & <- & Hx).
    apply filter_In in Hx as [Hx _]. apply H. apply in_map. exact Hx. }
  destruct (layout_order (filter several (combine pre strides)) (d * c) [(d, 1); (c, d)]) as [H1 H2].
  - nia.
  - apply Hfilter. rewrite combine_fst by exact Hl. exact Hf.
  - apply forallb_forall. intros x Hx. apply filter_In in Hx as [_ Hx]. exact Hx.
  - rewrite <- filter_rev, layout_filter. exact H.
  - cbn. split; [intros y [<-|[]]; cbn; lia|]. split; [intros y []|exact I].
  - intros y [<-|[<-|[]]]; cbn [snd]; nia.
  - rewrite H1. cbn [app contiguous_loop]. rewrite Nat.eqb_refl, !orb_true_r. cbn [Nat.mul]. rewrite !Nat.add_0_r.
    rewrite Nat.eqb_refl, orb_true_r. exact H2.
Qed.

(* removing a last axis of length one *)
Lemma reshape_drop_one l strides x fuel : length strides = length l -> length l <= fuel ->
  reshape_dim_c fuel (combine l strides ++ [(1, x)]) l = inl strides.
Proof.
  revert strides fuel. induction l as [|n l IH]; intros [|s strides] fuel Hl Hf; cbn [length] in *; try discriminate.
  - destruct fuel; reflexivity.
  - destruct fuel as [|fuel]; [lia|]. cbn [combine app reshape_dim_c]. rewrite Nat.eqb_refl.
    rewrite IH by lia. reflexivity.
Qed.

Local Ltac fin := let H := fresh in intros H; repeat split; intros; try congruence; try lia;
  match type of H with layout_c_loop _ ?k = _ => match goal with |- layout_c_loop _ ?k' = _ => replace k' with k by lia end end; exact H.

Lemma layout_last_three pre strides c d p sc sd sp : length strides = length pre ->
  layout_c_loop (rev (combine (pre ++ [c; d; p]) (strides ++ [sc; sd; sp]))) 1 = true ->
  (p <> 1 -> sp = 1) /\ (d <> 1 -> sd = p) /\ (c <> 1 -> sc = d * p)
  /\ layout_c_loop (rev (combine pre strides)) (p * d * c) = true.
Proof.
  intros Hl.  rewrite combine_app_eq by exact Hl. rewrite rev_app_distr. cbn [combine rev app layout_c_loop].
  destruct (Nat.eqb_spec p 1) as [->|Hp].
  - destruct (Nat.eqb_spec d 1) as [->|Hd].
    + destruct (Nat.eqb_spec c 1) as [->|Hc].
      * fin.
      * destruct (Nat.eqb_spec sc 1) as [->|]; [|discriminate]. fin.
    + destruct (Nat.eqb_spec sd 1) as [->|]; [|discriminate]. destruct (Nat.eqb_spec c 1) as [->|Hc].
      * fin.
      * destruct (Nat.eqb_spec sc (1 * d)) as [->|]; [|discriminate]. fin.
  - destruct (Nat.eqb_spec sp 1) as [->|]; [|discriminate]. rewrite (Nat.mul_1_l p).
    destruct (Nat.eqb_spec d 1) as [->|Hd].
    + rewrite Nat.mul_1_r. destruct (Nat.eqb_spec c 1) as [->|Hc].
      * fin.
      * destruct (Nat.eqb_spec sc p) as [->|]; [|discriminate]. fin.
    + destruct (Nat.eqb_spec sd p) as [->|]; [|discriminate]. destruct (Nat.eqb_spec c 1) as [->|Hc].
      * fin.
      * destruct (Nat.eqb_spec sc (p * d)) as [->|]; [|discriminate]. fin.
Qed.

(* which arrays are in standard layout once the second axis from the last two was
   swapped and merged with the last one *)
Lemma swapped_standard pre strides c d p sc sd sp r :
  pre <> [] -> length strides = length pre ->
  is_standard_layout (pre ++ [c; d; p]) (strides ++ [sc; sd; sp]) = true ->
  to_shape_strides (pre ++ [d; c; p]) (strides ++ [sd; sc; sp]) (pre ++ [d; c * p]) = Some r ->
  (is_standard_layout (pre ++ [d; c * p]) r = true <-> ~ (p = 1 /\ 2 <= c /\ 2 <= d /\ prod pre <> 0)).
Proof.
  intros Hne Hl Hs H.
  assert (Hl' : length (strides ++ [sd; sc; sp]) = length (pre ++ [d; c; p])) by (rewrite !app_length; cbn [length]; lia).
  destruct (Nat.eq_dec (prod (pre ++ [d; c; p])) 0) as [E0|E0].
  { assert (is_standard_layout (pre ++ [d; c * p]) r = true) as ->.
    { unfold is_standard_layout. replace (existsb (Nat.eqb 0) (pre ++ [d; c * p])) with true; [reflexivity|].
      symmetry. apply existsb_zero. rewrite prod_app in *. cbn [prod] in *. nia. }
    split; [intros _ (-> & Hc & Hd & Hpre)|reflexivity]. rewrite prod_app in E0. cbn [prod] in E0. nia. }
  assert (Hpos := prod_nonzero _ E0). apply Forall_app in Hpos as [Hpre Hdcp].
  pose proof (Forall_inv Hdcp) as Hd. pose proof (Forall_inv (Forall_inv_tail Hdcp)) as Hc.
  pose proof (Forall_inv (Forall_inv_tail (Forall_inv_tail Hdcp))) as Hp. cbv beta in Hd, Hc, Hp. clear Hdcp.
  assert (Hnz : prod pre <> 0) by (rewrite prod_app in E0; nia).
  assert (Hloop : layout_c_loop (rev (combine (pre ++ [c; d; p]) (strides ++ [sc; sd; sp]))) 1 = true).
  { unfold is_standard_layout in Hs. apply orb_prop in Hs as [Hs|Hs]; [|exact Hs].
    apply existsb_zero in Hs. rewrite prod_app in *. cbn [prod] in *. nia. }
  destruct (layout_last_three _ _ _ _ _ _ _ _ Hl Hloop) as (H1 & H2 & H3 & H4).
  destruct (Nat.eq_dec c 1) as [Ec|Ec]; [|destruct (Nat.eq_dec d 1) as [Ed|Ed]].
  (* nothing moves when one of the axes has length one *)
  1, 2: split; [lia|intros _];
    apply (reshape_standard (pre ++ [d; c; p]) (strides ++ [sd; sc; sp])); [exact Hl'| |exact H];
    unfold is_standard_layout; apply orb_true_iff; right;
    rewrite combine_app_eq by exact Hl; rewrite rev_app_distr; cbn [combine rev app layout_c_loop];
    destruct (Nat.eqb_spec p 1) as [->|Hp1]; try rewrite (H1 Hp1), Nat.eqb_refl, Nat.mul_1_l.
  1, 2: subst c; rewrite Nat.eqb_refl; destruct (Nat.eqb_spec d 1) as [->|Hd1];
    try (rewrite (H2 Hd1), Nat.eqb_refl); match type of H4 with layout_c_loop _ ?k = _ => match goal with |- layout_c_loop _ ?k' = _ => replace k' with k by lia end end; exact H4.
  1, 2: subst d; rewrite Nat.eqb_refl; destruct (Nat.eqb_spec c 1) as [|_]; [congruence|]; rewrite (H3 Ec), Nat.mul_1_l, Nat.eqb_refl;
    match type of H4 with layout_c_loop _ ?k = _ => match goal with |- layout_c_loop _ ?k' = _ => replace k' with k by lia end end; exact H4.
  destruct (to_shape_cases _ _ _ _ Hl' H ltac:(lia)) as (Ep & Hcases).
  destruct (Nat.eq_dec p 1) as [Hp1|Hp1].
  - (* the swapped axes are kept *)
    subst p. split; [|intros X; exfalso; apply X; repeat split; try lia; exact Hnz]. intros Hr. exfalso.
    rewrite Nat.mul_1_r in *. specialize (H2 Ed). specialize (H3 Ec). subst sd sc.
    assert (Ev : reshape_dim (pre ++ [d; c; 1]) (strides ++ [1; d; sp]) (pre ++ [d; c]) = inl (strides ++ [1; d])).
    { unfold reshape_dim.
      replace (combine (pre ++ [d; c; 1]) (strides ++ [1; d; sp])) with (combine (pre ++ [d; c]) (strides ++ [1; d]) ++ [(1, sp)])
        by (rewrite !combine_app_eq by exact Hl; rewrite <- app_assoc; reflexivity).
      apply reshape_drop_one; rewrite !app_length; cbn [length]; lia. }
    rewrite Ev in Hcases. destruct Hcases as [(view & E & _ & Ho & ->)|[[e E] _]]; [|discriminate]. inversion E. subst view.
    rewrite swapped_contiguous in Hr; try assumption; try lia; [|rewrite Nat.mul_1_l in H4; exact H4].
    unfold is_standard_layout in Hr. apply orb_prop in Hr as [Hr|Hr].
    + apply existsb_zero in Hr. rewrite prod_app in Hr. cbn [prod] in Hr. nia.
    + rewrite combine_app_eq, rev_app_distr in Hr by exact Hl. cbn [combine rev app layout_c_loop] in Hr.
      destruct (Nat.eqb_spec c 1) as [|_]; [lia|]. destruct (Nat.eqb_spec d 1) as [|_]; [lia|discriminate].
  - (* the elements are copied *)
    split; [intros _; lia|intros _]. specialize (H1 Hp1). specialize (H2 Ed). specialize (H3 Ec). subst sp sd sc.
    destruct Hcases as [(view & E & Hv & Ho & _)|[_ ->]]; [|apply default_standard]. exfalso.
    destruct (exists_last (l := view)) as (view1 & s1 & ->).
    { intros ->. rewrite app_length in Hv. cbn [length] in Hv. lia. }
    assert (Hv1 : length view1 = length (pre ++ [d])) by (rewrite !app_length in *; cbn [length] in *; lia).
    replace (pre ++ [d; c * p]) with ((pre ++ [d]) ++ [c * p]) in Ho by (rewrite <- app_assoc; reflexivity).
    rewrite combine_app_eq in Ho by exact Hv1. rewrite offsets_app in Ho. cbn [combine] in Ho. rewrite offsets_one in Ho.
    replace (combine (pre ++ [d; c; p]) (strides ++ [p; d * p; 1]))
      with (combine (pre ++ [d]) (strides ++ [p]) ++ [(c, d * p); (p, 1)]) in Ho
      by (rewrite !combine_app_eq by exact Hl; rewrite <- app_assoc; reflexivity).
    rewrite offsets_app in Ho. change [(c, d * p); (p, 1)] with ([(c, d * p)] ++ [(p, 1)]) in Ho.
    rewrite offsets_app, !offsets_one in Ho.
    set (o1 := offsets (combine (pre ++ [d]) view1)) in Ho. set (o2 := offsets (combine (pre ++ [d]) (strides ++ [p]))) in Ho.
    assert (L1 : length o1 = prod (pre ++ [d])) by (unfold o1; rewrite offsets_length, combine_fst by exact Hv1; reflexivity).
    assert (L2 : length o2 = prod (pre ++ [d])) by (unfold o2; rewrite offsets_length, combine_fst by (rewrite !app_length; cbn [length]; lia); reflexivity).
    assert (P0 : 0 < prod (pre ++ [d])) by (rewrite prod_app; cbn [prod]; nia).
    assert (X : forall q k, q < c -> k < p -> nth 0 o1 0 + (q * p + k) * s1 = nth 0 o2 0 + (q * (d * p) + k * 1)).
    { intros q k Hq Hk. assert (Hqk : q * p + k < c * p) by nia.
      pose proof (nth_shifted o1 (steps (c * p) s1) 0 (q * p + k)) as Y. rewrite L1, steps_length in Y.
      specialize (Y P0 Hqk). rewrite nth_steps in Y by exact Hqk. cbn [Nat.mul Nat.add] in Y.
      pose proof (nth_shifted o2 (shifted (steps c (d * p)) (steps p 1)) 0 (q * p + k)) as Z.
      rewrite L2, shifted_length, !steps_length in Z. specialize (Z P0 Hqk).
      pose proof (nth_shifted (steps c (d * p)) (steps p 1) q k) as W. rewrite !steps_length in W.
      specialize (W Hq Hk). rewrite !nth_steps in W by assumption. rewrite W in Z. cbn [Nat.mul Nat.add] in Z.
      rewrite Ho in Y. rewrite Z in Y. symmetry. exact Y. }
    pose proof (X 0 0 ltac:(lia) ltac:(lia)) as X0. pose proof (X 0 1 ltac:(lia) ltac:(lia)) as X1. pose proof (X 1 0 ltac:(lia) ltac:(lia)) as X2.
    assert (s1 = 1) as -> by lia. nia.
Qed.
