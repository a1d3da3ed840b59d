(* Lemmas about Tensor.v: merging a group of blocks along the properties *)
From Coq Require Import Permutation Sorted.
From Verif Require Import Base BaseFacts Labels Array Block Tensor Spec SpecTensor LabelsFacts ArrayFacts BlockFacts TensorFacts KeysFacts MergeFacts GroupFacts BlocksFacts.
Local Open Scope string_scope.
Local Open Scope list_scope.
Local Open Scope nat_scope.

(** * The new properties *)

Definition block_properties (b : TensorBlock) : list (list Z) := rows (bb_properties (tb_values b)).

(* the rows of the new properties *)
Definition new_properties (keys : option (list (list Z))) (blocks : list KeyAndBlock) (b0 : TensorBlock) : list (list Z) :=
  match keys with
  | None => flat_map (fun kb : KeyAndBlock => map (app (fst kb)) (block_properties (snd kb))) blocks
  | Some entries => flat_map (fun e => map (app e) (block_properties b0)) entries
  end.

(* is the data of the block with this moved key kept? *)
Definition requested (keys : option (list (list Z))) (k : list Z) : Prop :=
  match keys with
  | None => True
  | Some entries => In k entries
  end.

Lemma app_eq_length {A} (l1 l2 r1 r2 : list A) : length l1 = length l2 -> l1 ++ r1 = l2 ++ r2 -> l1 = l2 /\ r1 = r2.
Proof.
  revert l2. induction l1 as [|x l1 IH]; intros [|y l2] Hl H; simpl in *; try discriminate; [auto|].
  inversion H; subst. destruct (IH l2) as [-> ->]; auto.
Qed.

Lemma NoDup_app_intro {A} (l r : list A) :
  NoDup l -> NoDup r -> (forall x, In x l -> ~ In x r) -> NoDup (l ++ r).
Proof.
  induction 1 as [|x l Hx Hl IH]; simpl; intros Hr Hd; [assumption|]. constructor.
  - intros H. apply in_app_or in H as [H|H]; [contradiction|]. apply (Hd x); auto.
  - apply IH; auto.
Qed.

Lemma prefixed_NoDup {A} (pre : A -> list Z) (props : A -> list (list Z)) l n :
  NoDup (map pre l) -> (forall x, In x l -> length (pre x) = n) -> (forall x, In x l -> NoDup (props x)) ->
  NoDup (flat_map (fun x => map (app (pre x)) (props x)) l).
Proof.
  induction l as [|x l IH]; simpl; intros Hnd Hl Hp; [constructor|].
  inversion Hnd as [|? ? Hx Hl']; subst.
  apply NoDup_app_intro; auto.
  - apply map_NoDup; auto. intros a b. apply app_inv_head.
  - intros r Hr Hr'. apply in_map_iff in Hr as (r1 & <- & Hr1).
    apply in_flat_map in Hr' as (y & Hy & Hr'). apply in_map_iff in Hr' as (r2 & E & Hr2).
    apply app_eq_length in E as [E _].
    + apply Hx. rewrite <- E. apply in_map. assumption.
    + rewrite (Hl y), (Hl x); auto.
Qed.

Lemma prefixed_nth {A} (pre : A -> list Z) (props : A -> list (list Z)) l x i r0 :
  NoDup (flat_map (fun x => map (app (pre x)) (props x)) l) ->
  In x l -> nth_error (props x) 0 = Some r0 ->
  nth_error (flat_map (fun x => map (app (pre x)) (props x)) l) i = Some (pre x ++ r0) ->
  forall k r, nth_error (props x) k = Some r ->
    nth_error (flat_map (fun x => map (app (pre x)) (props x)) l) (i + k) = Some (pre x ++ r).
Proof.
  intros Hnd Hx H0 Hi k r Hk. apply in_split in Hx as (l1 & l2 & ->).
  rewrite flat_map_app in *. simpl in *.
  set (before := flat_map _ l1) in *. set (after := flat_map _ l2) in *.
  assert (i = length before).
  { eapply NoDup_nth_error_inj; [exact Hnd|exact Hi|].
    rewrite nth_error_app2, Nat.sub_diag by lia.
    destruct (props x) as [|r1 ps]; [discriminate|]. simpl in *. congruence. }
  subst i. rewrite nth_error_app2 by lia. replace (length before + k - length before) with k by lia.
  rewrite nth_error_app1 by (rewrite map_length; apply nth_error_Some; congruence).
  rewrite nth_error_map, Hk. reflexivity.
Qed.

Lemma filter_false {A} (f : A -> bool) l : (forall x, In x l -> f x = false) -> filter f l = [].
Proof. induction l as [|x l IH]; simpl; intros H; [reflexivity|]. rewrite (H x) by auto. apply IH; auto. Qed.

Lemma mem_row_In x l : mem row_eqb x l = true <-> In x l.
Proof. apply mem_spec. intros a b. apply row_eqb_eq. Qed.

Lemma NoDup_app_left {A} (l r : list A) : NoDup (l ++ r) -> NoDup l.
Proof.
  induction l as [|x l IH]; simpl; intros H; [constructor|]. inversion H as [|? ? Hx Hl]; subst.
  constructor; auto. intros Hi. apply Hx. apply in_or_app. auto.
Qed.

Lemma NoDup_app_right {A} (l r : list A) : NoDup (l ++ r) -> NoDup r.
Proof. induction l as [|x l IH]; simpl; intros H; [assumption|]. inversion H; auto. Qed.

Lemma NoDup_app_disjoint {A} (l r : list A) : NoDup (l ++ r) -> forall x, In x l -> ~ In x r.
Proof.
  induction l as [|y l IH]; simpl; intros H x [].
  - subst y. inversion H as [|? ? Hx Hl]; subst. intros Hr. apply Hx. apply in_or_app. auto.
  - inversion H; subst. apply IH; auto.
Qed.

Lemma is_insert_all_app s l r :
  is_insert_all row_eqb s (l ++ r) = is_insert_all row_eqb (is_insert_all row_eqb s l) r.
Proof. unfold is_insert_all. apply fold_left_app. Qed.

Lemma is_insert_all_incl s l : incl l s -> is_insert_all row_eqb s l = s.
Proof.
  intros H. rewrite is_insert_all_acc. rewrite (filter_false _ (nub l)); [apply app_nil_r|].
  intros x Hx. rewrite nub_In in Hx. apply H in Hx. apply negb_false_iff. apply mem_row_In. assumption.
Qed.

Lemma is_insert_all_new s l : NoDup l -> (forall x, In x l -> ~ In x s) -> is_insert_all row_eqb s l = s ++ l.
Proof.
  intros Hnd H. rewrite is_insert_all_acc, nub_NoDup_id by assumption. f_equal. apply filter_true.
  intros x Hx. apply negb_true_iff. apply not_true_iff_false. intros E. apply mem_row_In in E. exact (H x Hx E).
Qed.

Lemma is_insert_all_repeat {A} s l (f : A -> list (list Z)) a (blocks : list A) :
  NoDup l -> (forall x, In x l -> ~ In x s) -> (forall b, In b (a :: blocks) -> f b = l) ->
  is_insert_all row_eqb s (flat_map f (a :: blocks)) = s ++ l.
Proof.
  intros Hnd Hd Hf. simpl. rewrite is_insert_all_app, (Hf a) by (simpl; auto). rewrite (is_insert_all_new s l) by assumption.
  apply is_insert_all_incl. intros x Hx. apply in_flat_map in Hx as (b & Hb & Hx).
  rewrite Hf in Hx by (simpl; auto). apply in_or_app. auto.
Qed.

Lemma blocks_properties_ok blocks properties :
  Forall (fun kb : KeyAndBlock => wf_block (snd kb)) blocks ->
  blocks_properties blocks = Ok properties ->
  properties = map (fun kb : KeyAndBlock => (fst kb, block_properties (snd kb))) blocks.
Proof.
  intros Hwf H. unfold blocks_properties in H. rewrite (mapM_ok_map _ (fun kb : KeyAndBlock => (fst kb, block_properties (snd kb)))) in H.
  - inversion H. reflexivity.
  - intros kb Hkb. rewrite Forall_forall in Hwf. apply Hwf in Hkb. destruct Hkb as [Hv _].
    destruct (wf_basic_axes _ Hv) as (_ & _ & [Hp Hne]). rewrite (proj2 (labels_iter_ok _ _ Hp) (conj Hne eq_refl)). reflexivity.
Qed.

Lemma flat_map_map {A B C} (f : B -> list C) (g : A -> B) l : flat_map f (map g l) = flat_map (fun x => f (g x)) l.
Proof. induction l as [|x l IH]; simpl; [reflexivity|]. rewrite IH. reflexivity. Qed.

Lemma flat_map_cons {A B} (f : A -> list B) x l : flat_map f (x :: l) = f x ++ flat_map f l.
Proof. reflexivity. Qed.

Lemma new_properties_NoDup (keys : option Labels) k0 b0 others n :
  let blocks := (k0, b0) :: others in
  Forall (fun kb : KeyAndBlock => wf_block (snd kb)) blocks ->
  NoDup (map fst blocks) -> (forall k b, In (k, b) blocks -> length k = n) ->
  match keys with Some l => axis_labels l | None => True end ->
  NoDup (new_properties (option_map rows keys) blocks b0).
Proof.
  intros blocks Hwf Hnd Hlen Hk.
  assert (Hp : forall k b, In (k, b) blocks -> NoDup (block_properties b)).
  { intros k b Hin. rewrite Forall_forall in Hwf. apply Hwf in Hin. destruct Hin as [Hv _].
    destruct (wf_basic_axes _ Hv) as (_ & _ & [Hp _]). apply wf_rows_NoDup. assumption. }
  destruct keys as [l|]; simpl.
  - apply (prefixed_NoDup (fun e => e) (fun _ => block_properties b0) (rows l) (length (labels_names l))).
    + rewrite map_id. apply wf_rows_NoDup. apply Hk.
    + intros x Hx. apply wf_rows_length; [apply Hk|assumption].
    + intros _ _. apply (Hp k0). simpl; auto.
  - apply (prefixed_NoDup fst (fun kb : KeyAndBlock => block_properties (snd kb)) blocks n); auto.
    + intros [k b] Hin. apply (Hlen k b Hin).
    + intros [k b] Hin. apply (Hp k b Hin).
Qed.

Lemma merged_properties_ok (keys : option Labels) k0 b0 others n result :
  let blocks := (k0, b0) :: others in
  Forall (fun kb : KeyAndBlock => wf_block (snd kb)) blocks ->
  NoDup (map fst blocks) -> (forall k b, In (k, b) blocks -> length k = n) ->
  match keys with
  | Some l => axis_labels l /\ (forall k b, In (k, b) blocks -> block_properties b = block_properties b0)
  | None => True
  end ->
  merged_properties (tb_values b0) keys blocks = Ok result ->
  result = new_properties (option_map rows keys) blocks b0.
Proof.
  intros blocks Hwf Hnd Hlen Hk H.
  assert (HND : NoDup (new_properties (option_map rows keys) blocks b0)).
  { apply (new_properties_NoDup keys k0 b0 others n); auto. destruct keys; tauto. }
  destruct keys as [l|]; unfold merged_properties in H.
  - destruct Hk as [Hl Hsame]. bind_inv H. apply (labels_iter_ok _ _ (proj1 Hl)) in Hb as [_ ->].
    bind_inv H. apply (blocks_properties_ok _ _ Hwf) in Hb. subst a. bind_inv H. bind_inv H. bind_inv H. inversion H; subst result.
    simpl option_map in *. unfold new_properties in *. clear H Hb Hb0 Hb1.
    rewrite (flat_map_ext _ (fun e => flat_map (fun kb : KeyAndBlock => map (app e) (block_properties (snd kb))) blocks)).
    2:{ intros e. rewrite flat_map_map. reflexivity. }
    assert (G : forall entries s, NoDup (s ++ flat_map (fun e => map (app e) (block_properties b0)) entries) ->
       is_insert_all row_eqb s (flat_map (fun e => flat_map (fun kb : KeyAndBlock => map (app e) (block_properties (snd kb))) blocks) entries)
       = s ++ flat_map (fun e => map (app e) (block_properties b0)) entries).
    { induction entries as [|e entries IH]; intros s HN; [rewrite app_nil_r; reflexivity|].
      rewrite !flat_map_cons in *. rewrite app_assoc in HN. rewrite is_insert_all_app. unfold blocks at 1.
      rewrite (is_insert_all_repeat s (map (app e) (block_properties b0)) _ (k0, b0) others).
      - rewrite IH by assumption. rewrite <- app_assoc. reflexivity.
      - apply NoDup_app_left in HN. apply NoDup_app_right in HN. assumption.
      - apply NoDup_app_left in HN. intros x Hx Hs. apply (NoDup_app_disjoint _ _ HN x Hs Hx).
      - intros [k b] Hkb. simpl. rewrite (Hsame k b Hkb). reflexivity. }
    apply (G (rows l) []). assumption.
  - bind_inv H. apply (blocks_properties_ok _ _ Hwf) in Hb. subst a. inversion H; subst result. simpl.
    rewrite flat_map_map, is_insert_all_nub. apply nub_NoDup_id. assumption.
Qed.

Lemma property_range_ok (keys : option Labels) k0 b0 others n newp k b range :
  let blocks := (k0, b0) :: others in
  Forall (fun kb : KeyAndBlock => wf_block (snd kb)) blocks ->
  (forall k b, In (k, b) blocks -> length k = n) ->
  match keys with
  | Some l => axis_labels l /\ length (labels_names l) = n
              /\ (forall k b, In (k, b) blocks -> block_properties b = block_properties b0)
  | None => True
  end ->
  wf_labels newp -> rows newp = new_properties (option_map rows keys) blocks b0 ->
  In (k, b) blocks -> property_range newp (k, b) = Ok range ->
  block_properties b <> []
  /\ (range <> None <-> requested (option_map rows keys) k)
  /\ forall start stop, range = Some (start, stop) ->
       stop = start + length (block_properties b)
       /\ forall j r, nth_error (block_properties b) j = Some r -> nth_error (rows newp) (start + j) = Some (k ++ r).
Proof.
  intros blocks Hwf Hlen Hk Hnewp Hrows Hin H. unfold property_range in H.
  assert (Hax : axis_labels (bb_properties (tb_values b))).
  { rewrite Forall_forall in Hwf. apply Hwf in Hin. apply (wf_basic_axes _ (proj1 Hin)). }
  rewrite (labels_count_axis _ Hax) in H. cbn [bind] in H. bind_inv H. rename a into r0.
  apply (labels_index_ok _ _ _ (proj1 Hax) (proj2 Hax)) in Hb. fold (block_properties b) in Hb, H.
  bind_inv H. inversion H; subst range. clear H.
  assert (Hne : block_properties b <> []) by (destruct (block_properties b); [discriminate|congruence]).
  assert (Hr0 : In r0 (block_properties b)) by (eapply nth_error_In; eauto).
  split; [assumption|].
  assert (Hreq : In (k ++ r0) (rows newp) <-> requested (option_map rows keys) k).
  { rewrite Hrows. destruct keys as [l|]; cbn [option_map new_properties requested].
    - destruct Hk as (Hl & Hln & Hsame). rewrite in_flat_map. split.
      + intros (e & He & Hi). apply in_map_iff in Hi as (r & E & Hr).
        apply app_eq_length in E as [-> _]; [assumption|].
        rewrite (Hlen _ _ Hin), <- Hln. apply wf_rows_length; [apply Hl|assumption].
      + intros He. exists k. split; [assumption|]. apply in_map. rewrite <- (Hsame _ _ Hin). assumption.
    - split; [auto|]. intros _. apply (in_flat_map (fun kb : KeyAndBlock => map (app (fst kb)) (block_properties (snd kb)))).
      exists (k, b). split; [assumption|]. simpl. apply in_map. assumption. }
  pose proof (wf_rows_NoDup _ Hnewp) as Hnd.
  destruct a as [i|].
  - apply (labels_position_ok _ _ _ Hnewp) in Hb0. assert (Hi := nth_error_In _ _ Hb0).
    split; [split; [intros _; apply Hreq; assumption|discriminate]|].
    intros start stop E. inversion E; subst start stop. split; [reflexivity|]. intros j r Hr.
    apply Hreq in Hi. rewrite Hrows in *. destruct keys as [l|]; cbn [option_map new_properties requested] in *.
    + destruct Hk as (Hl & Hln & Hsame).
      apply (prefixed_nth (fun e => e) (fun _ => block_properties b0) (rows l) k i r0); auto;
        rewrite <- (Hsame _ _ Hin); assumption.
    + apply (prefixed_nth fst (fun kb : KeyAndBlock => block_properties (snd kb)) blocks (k, b) i r0); auto.
  - apply (labels_position_none _ _ Hnewp) in Hb0. split; [|discriminate].
    split; [congruence|]. intros Hq. apply Hreq in Hq. contradiction.
Qed.

Lemma check_same_properties_ok first hk blocks :
  wf_basic first -> Forall (fun kb : KeyAndBlock => wf_block (snd kb)) blocks ->
  (check_same_labels_for_properties first hk blocks = Ok tt <->
   Forall (fun kb : KeyAndBlock => Forall2 same_labels (bb_components (tb_values (snd kb))) (bb_components first)
     /\ (hk = true -> same_labels (bb_properties (tb_values (snd kb))) (bb_properties first))) blocks).
Proof.
  intros Hf. induction blocks as [|[k b] blocks IH]; intros Hwf; simpl; [split; [constructor|reflexivity]|].
  inversion Hwf as [|? ? Hb Hbs]; subst. simpl in Hb.
  destruct (wf_basic_axes _ (proj1 Hb)) as (_ & Hc1 & Hp1). destruct (wf_basic_axes _ Hf) as (_ & Hc2 & Hp2).
  pose proof (labels_list_eqb_same _ _ (axes_wf _ Hc1) (axes_wf _ Hc2)) as E1.
  pose proof (labels_eqb_same _ _ (axis_wf _ Hp1) (axis_wf _ Hp2)) as E2.
  destruct (labels_list_eqb _ _); simpl.
  - destruct hk; simpl.
    + destruct (labels_eqb _ _); simpl.
      * rewrite IH by assumption. split.
        -- intros H. constructor; [|assumption]. simpl. split; [apply E1; reflexivity|intros _; apply E2; reflexivity].
        -- intros H. inversion H; assumption.
      * split; [discriminate|]. intros H. inversion H as [|? ? [_ H1] _]; subst. specialize (H1 eq_refl). apply E2 in H1. discriminate.
    + rewrite IH by assumption. split.
      * intros H. constructor; [|assumption]. simpl. split; [apply E1; reflexivity|discriminate].
      * intros H. inversion H; assumption.
  - split; [discriminate|]. intros H. inversion H as [|? ? [H1 _] _]; subst. apply E1 in H1. discriminate.
Qed.

(** * merge_blocks_along_properties *)

Record properties_merged (p : profile) (blocks : list KeyAndBlock) (keys : option (list (list Z)))
    (extracted : list string) (sort : bool) (b0 : TensorBlock) (nb : TensorBlock) : Prop := {
  pro_reachable : reachable_block nb;
  pro_sample_names : labels_names (bb_samples (tb_values nb)) = labels_names (bb_samples (tb_values b0));
  pro_samples : rows (bb_samples (tb_values nb))
    = (if sort then sort_rows (nub (all_samples false blocks)) else nub (all_samples false blocks));
  pro_components : bb_components (tb_values nb) = bb_components (tb_values b0);
  pro_property_names : labels_names (bb_properties (tb_values nb)) = extracted ++ labels_names (bb_properties (tb_values b0));
  pro_properties : rows (bb_properties (tb_values nb)) = new_properties keys blocks b0;
  pro_same : Forall (fun kb : KeyAndBlock =>
      Forall2 same_labels (bb_components (tb_values (snd kb))) (bb_components (tb_values b0))
      /\ (keys <> None -> same_labels (bb_properties (tb_values (snd kb))) (bb_properties (tb_values b0)))) blocks;
  pro_values : forall s cs pr' v, entry (tb_values nb) s cs pr' v <->
      (exists k b pr, In (k, b) blocks /\ requested keys k /\ pr' = k ++ pr /\ entry (tb_values b) s cs pr v)
      \/ (In s (rows (bb_samples (tb_values nb))) /\ (exists js, located (bb_components (tb_values nb)) js cs)
          /\ In pr' (rows (bb_properties (tb_values nb)))
          /\ (forall k b pr, In (k, b) blocks -> requested keys k -> pr' = k ++ pr ->
                In s (rows (bb_samples (tb_values b))) -> ~ In pr (block_properties b))
          /\ v = 0%Z);
  pro_gradients : gradients_follow blocks nb;
  pro_gradient_samples : forall q s rest, gradient_sample nb q s rest <->
      exists k b, In (k, b) blocks /\ gradient_sample b q s rest;
  pro_in_range : gradient_samples_in_range nb;
  pro_were_in_range : forall k b, In (k, b) blocks -> gradient_samples_in_range b;
  pro_debug : p = Debug -> (forall k b, In (k, b) blocks -> requested keys k) ->
      forall k1 b1 k2 b2, In (k1, b1) blocks -> In (k2, b2) blocks -> agreeing_gradients b1 b2;
  pro_gradient_values :
      (forall k1 b1 k2 b2, In (k1, b1) blocks -> In (k2, b2) blocks -> agreeing_gradients b1 b2) ->
      forall q s rest cs pr' v, gradient_value nb q s rest cs pr' v <->
      (exists k b pr, In (k, b) blocks /\ requested keys k /\ pr' = k ++ pr /\ gradient_value b q s rest cs pr v)
      \/ (gradient_sample nb q s rest
          /\ (exists newg js, In (q, newg) (tb_gradients nb) /\ located (bb_components newg) js cs)
          /\ In pr' (rows (bb_properties (tb_values nb)))
          /\ (forall k b pr, In (k, b) blocks -> requested keys k -> pr' = k ++ pr ->
                gradient_sample b q s rest -> ~ In pr (block_properties b))
          /\ v = 0%Z)
}.

Lemma Forall2_combine_In {A B} (R : A -> B -> Prop) l r x y : Forall2 R l r -> In (x, y) (combine l r) -> R x y.
Proof. induction 1; simpl; intros H1; [contradiction|]. destruct H1 as [E|H1]; [inversion E; subst; assumption|auto]. Qed.

Lemma merge_blocks_along_properties_ok p k0 b0 others (keys : option Labels) extracted sort n nb :
  let blocks := (k0, b0) :: others in
  Forall (fun kb : KeyAndBlock => wf_block (snd kb)) blocks ->
  (forall k1 b1 k2 b2, In (k1, b1) blocks -> In (k2, b2) blocks -> same_gradient_names b1 b2) ->
  NoDup (map fst blocks) ->
  (forall k b, In (k, b) blocks -> length k = n) ->
  match keys with
  | Some l => axis_labels l /\ length (labels_names l) = n /\ a_kind (bb_data (tb_values b0)) <> RustEmptyArray
  | None => True
  end ->
  merge_blocks_along_properties p blocks keys extracted sort = Ok nb ->
  properties_merged p blocks (option_map rows keys) extracted sort b0 nb.
Proof.
  intros blocks Hwf Hsame Hkeys Hklen Hkeys' H.
  unfold merge_blocks_along_properties in H. unfold blocks in H at 1. fold blocks in H.
  assert (Hb0 : wf_block b0) by (inversion Hwf; assumption).
  pose proof (proj1 Hb0) as Hv0. destruct (wf_basic_axes _ Hv0) as (Hs0 & Hc0 & Hp0).
  bind_inv H. destruct a. rename Hb into Hchk. rewrite (check_same_properties_ok _ _ _ Hv0 Hwf) in Hchk.
  bind_inv H. destruct a as [merged maps]. rename Hb into Hms.
  apply merge_samples_ok in Hms; [|exact Hwf|apply Hs0].
  rewrite Nat.ltb_irrefl in Hms. destruct Hms as [Hmerged Hmaps].
  assert (Hmax : axis_labels merged).
  { split; [eexists; eexists; exact Hmerged|]. rewrite (is_labels_names _ _ _ Hmerged). apply Hs0. }
  pose proof (Forall2_len _ _ _ Hmaps) as Hlen.
  set (krows := option_map rows keys) in *.
  assert (Hkeys2 : match keys with
    | Some l => axis_labels l /\ length (labels_names l) = n
                /\ (forall k b, In (k, b) blocks -> block_properties b = block_properties b0)
    | None => True end).
  { destruct keys as [l|]; [|exact I]. destruct Hkeys' as (H1 & H2 & _). split; [exact H1|]. split; [exact H2|].
    intros k b Hin. rewrite Forall_forall in Hchk. apply Hchk in Hin as [_ Hin]. destruct (Hin eq_refl) as [_ E]. exact E. }
  bind_inv H. rename a into nprows. rename Hb into Hnp.
  apply (merged_properties_ok keys k0 b0 others n) in Hnp; auto; [|destruct keys; tauto].
  fold blocks in Hnp. fold krows in Hnp.
  bind_inv H. rename a into newp. rename Hb into Hnewp.
  assert (Hnpne : extracted ++ labels_names (bb_properties (tb_values b0)) <> []).
  { intros E. apply app_eq_nil in E as [_ E]. apply (proj2 Hp0 E). }
  apply labels_build_is_labels in Hnewp; [|assumption].
  assert (Hnewax : axis_labels newp).
  { split; [eexists; eexists; exact Hnewp|]. rewrite (is_labels_names _ _ _ Hnewp). assumption. }
  assert (Hnewrows : rows newp = new_properties krows blocks b0).
  { rewrite (is_labels_rows _ _ _ Hnewp). assumption. }
  rewrite (labels_count_axis _ Hnewax) in H. cbn [bind] in H.
  bind_inv H. apply array_shape_ok in Hb as [_ ->]. rewrite (wf_basic_shape _ Hv0) in H.
  rewrite (labels_count_axis _ Hmax) in H. cbn [bind] in H.
  bind_inv H. apply set_slice_first in Hb. subst a.
  bind_inv H. apply set_slice_last in Hb. subst a.
  bind_inv H. rename a into s0. rename Hb into Hcreate.
  bind_inv H. rename a into ranges. rename Hb into Hranges. rewrite mapM_ok in Hranges.
  pose proof (Forall2_len _ _ _ Hranges) as Hrlen.
  bind_inv H. rename a into data. rename Hb into Hfold.
  bind_inv H. apply expect_ok in Hb. rename a into nb0. rename Hb into Hnew.
  set (parts := combine (combine blocks maps) ranges : list part).
  assert (Hclen : length (combine blocks maps) = length ranges) by (rewrite combine_length; rewrite <- Hlen, Nat.min_id; exact Hrlen).
  assert (Hpkbm : map fst parts = combine blocks maps) by (apply combine_fst; exact Hclen).
  assert (Hpkb : map part_kb parts = blocks).
  { transitivity (map fst (map fst parts)); [rewrite map_map; reflexivity|]. rewrite Hpkbm. apply combine_fst. exact Hlen. }
  assert (Hpm : map part_mapping parts = maps).
  { transitivity (map snd (map fst parts)); [rewrite map_map; reflexivity|]. rewrite Hpkbm. apply combine_snd. exact Hlen. }
  assert (Hpr : map part_range parts = ranges) by (apply combine_snd; exact Hclen).
  assert (Hblk : forall x, In x parts -> In (part_key x, part_block x) blocks).
  { intros x Hx. rewrite <- Hpkb. apply in_map_iff. exists x. split; [|assumption].
    unfold part_kb, part_key, part_block. destruct (fst (fst x)). reflexivity. }
  assert (Hpart_range : forall x, In x parts -> property_range newp (part_key x, part_block x) = Ok (part_range x)).
  { intros [[[k b] ms] rg] Hx. apply In_nth_error in Hx as [i Hi]. apply nth_error_combine in Hi as [Hi1 Hi2].
    apply nth_error_combine in Hi1 as [Hi1 _].
    destruct (Forall2_nth_error_l _ _ _ _ _ Hranges Hi1) as (rg' & Hrg & E). assert (rg' = rg) by congruence. subst rg'. exact E. }
  assert (Hparts_in : forall k b, In (k, b) blocks -> exists x, In x parts /\ part_key x = k /\ part_block x = b).
  { intros k b Hx. rewrite <- Hpkb in Hx. apply in_map_iff in Hx as (x & E & Hx). exists x. split; [assumption|].
    unfold part_kb in E. unfold part_key, part_block. rewrite E. auto. }
  assert (Hwf_parts : Forall (fun x => wf_block (part_block x)) parts).
  { apply Forall_forall. intros x Hx. apply Hblk in Hx. rewrite Forall_forall in Hwf. apply (Hwf _ Hx). }
  assert (Hrange : forall x, In x parts ->
     block_properties (part_block x) <> []
     /\ (part_range x <> None <-> requested krows (part_key x))
     /\ forall start stop, part_range x = Some (start, stop) ->
       stop = start + length (block_properties (part_block x))
       /\ forall j r, nth_error (block_properties (part_block x)) j = Some r -> nth_error (rows newp) (start + j) = Some (part_key x ++ r)).
  { intros x Hx. apply (property_range_ok keys k0 b0 others n newp (part_key x) (part_block x) (part_range x)); auto. apply Hnewax. }
  (* the values *)
  assert (Hfold' : foldM move_step (map (value_item false) parts) s0 = Ok data).
  { rewrite foldM_map. rewrite <- Hfold. apply foldM_ext. intros s [[[k b] ms] rg] _. destruct rg as [[start stop]|]; reflexivity. }
  assert (Hwdata : wf_array data).
  { apply array_create_ok in Hcreate as (_ & _ & Hw & _).
    apply (foldM_inv _ wf_array) in Hfold; auto. intros s [[[k b] ms] [[start stop]|]] s' _ Hs Hst.
    - eapply array_move_wf; eauto.
    - inversion Hst; subst s'; assumption. }
  assert (Hr0 : reachable_block nb0).
  { eapply reachable_new; [exact Hwdata| | | |exact Hnew]; [apply Hmax|apply axes_wf; assumption|apply Hnewax]. }
  assert (Hv : tb_values nb0 = mk_basic data merged (bb_components (tb_values b0)) newp /\ tb_gradients nb0 = []).
  { pose proof (tensor_block_new_answers _ _ _ _ _ Hnew) as Hans.
    apply tensor_block_new_ok in Hnew as [_ ->]; auto using axis_wf, axes_wf. }
  destruct Hv as [Hv Hg0].
  (* the gradients *)
  apply (gradient_loop _ (made_gradient p (tb_values b0) parts newp) newp) in H as (Hr & Hvals & news & Hnews & HF); auto.
  2:{ intros nb1 q g nb1' Hqg Hst. cbv beta iota in Hst.
      destruct (wf_block_gradient _ _ _ Hb0 Hqg) as (Hg & (_ & _ & Hgp & _) & _).
      destruct (wf_basic_axes _ Hg) as (_ & Hgc & _).
      bind_inv Hst. bind_inv Hst. apply array_shape_ok in Hb1 as [_ ->].
      bind_inv Hst. rewrite (wf_basic_shape _ Hg) in Hst. bind_inv Hst. apply set_slice_first in Hb2. subst a1.
      bind_inv Hst. apply set_slice_last in Hb2. subst a1.
      bind_inv Hst. bind_inv Hst.
      assert (Hga : wf_labels a /\ a0 = length (rows a)).
      { apply merge_gradient_samples_ok in Hb as (gts & _ & Hwa & _); [|assumption|symmetry; exact Hlen].
        split; [assumption|]. apply (labels_count_ok _ _ Hwa) in Hb1. tauto. }
      destruct Hga as [Hwa ->].
      exists a2, a. split; [|split; [assumption|split; [apply axes_wf; assumption|split; [assumption|]]]].
      - apply array_create_ok in Hb2 as (_ & _ & Hw & _).
        apply (foldM_inv _ wf_array) in Hb3; auto. intros s [[[k b] ms] [[start stop]|]] s' _ Hs Hss.
        + unfold move_gradient in Hss. bind_inv Hss. bind_inv Hss. bind_inv Hss. bind_inv Hss. eapply array_move_wf; eauto.
        + inversion Hss; subst s'; assumption.
      - unfold made_gradient; simpl. split; [rewrite Hpkb, Hpm; assumption|]. split; [reflexivity|]. split; [reflexivity|].
        exists a1. split; [assumption|].
        rewrite <- Hb3. apply foldM_ext. intros s [[[k b] ms] rg] _. destruct rg as [[start stop]|]; reflexivity. }
  2:{ rewrite Hv. reflexivity. }
  rewrite Hg0 in Hnews. simpl in Hnews. rewrite Hv in Hvals.
  pose proof (reachable_wf _ Hr) as Hnb.
  (* the first part *)
  destruct maps as [|m0 maps]; [discriminate|]. destruct ranges as [|rg0 ranges]; [discriminate|].
  set (x0 := (((k0, b0), m0), rg0) : part).
  assert (Hx0 : nth_error parts 0 = Some x0) by reflexivity.
  assert (Hx0in : In x0 parts) by (eapply nth_error_In; eauto).
  assert (Hkind : a_kind (bb_data (tb_values (part_block x0))) <> RustEmptyArray).
  { destruct keys as [l|]; [apply Hkeys'|].
    assert (Hsome : rg0 <> None) by (apply (Hrange x0 Hx0in); exact I).
    pose proof Hfold' as Hf. unfold parts in Hf. simpl in Hf. apply bind_ok in Hf as (s1 & Hf & _).
    unfold move_step in Hf. simpl in Hf. unfold part_range, part_block in Hf. simpl in Hf.
    revert Hsome Hf. unfold x0, part_block. simpl. case rg0; [|congruence]. intros [start stop] _ Hf.
    apply array_move_ok in Hf as [[Hm1 Hm2] _]. rewrite <- Hm1. exact Hm2. }
  destruct (array_create_ok _ _ _ Hcreate) as (_ & Hsh & _ & Hz). destruct (Hz Hkind) as [Hz1 Hz2].
  assert (Hmap : Forall (fun x => mapping_for (rows (bb_samples (tb_values nb))) (part_samples false x) (part_mapping x)) parts).
  { rewrite Hvals. simpl. apply Forall_forall. intros [[[k b] ms] rg] Hx.
    apply In_nth_error in Hx as [i Hi]. apply nth_error_combine in Hi as [Hi1 Hi2].
    apply nth_error_combine in Hi1 as [Hi1 Hi3].
    destruct (Forall2_nth_error_l _ _ _ _ _ Hmaps Hi1) as (ms' & Hms' & Hm).
    assert (ms' = ms) by congruence. subst ms'. exact Hm. }
  assert (Hprop : Forall (part_properties true (rows (bb_properties (tb_values nb)))) parts).
  { rewrite Hvals. simpl. apply Forall_forall. intros x Hx start stop Hrg. apply (Hrange x Hx) in Hrg. exact Hrg. }
  assert (Hdis : disjoint_parts false parts).
  { intros n1 n2 x1 x2 s k Hn1 Hn2 _ _ (a1 & e1 & Hg1 & Hk1) (a2 & e2 & Hg2 & Hk2).
    pose proof (nth_error_In _ _ Hn1) as Hi1. pose proof (nth_error_In _ _ Hn2) as Hi2.
    destruct (Hrange x1 Hi1) as (_ & _ & Hr1). destruct (Hr1 _ _ Hg1) as [E1 Hr1'].
    destruct (Hrange x2 Hi2) as (_ & _ & Hr2). destruct (Hr2 _ _ Hg2) as [E2 Hr2'].
    destruct (nth_error (block_properties (part_block x1)) (k - a1)) as [r1|] eqn:N1.
    2:{ apply nth_error_None in N1. lia. }
    destruct (nth_error (block_properties (part_block x2)) (k - a2)) as [r2|] eqn:N2.
    2:{ apply nth_error_None in N2. lia. }
    apply Hr1' in N1. apply Hr2' in N2. replace (a1 + (k - a1)) with k in N1 by lia. replace (a2 + (k - a2)) with k in N2 by lia.
    rewrite N1 in N2. inversion N2 as [E]. apply app_eq_length in E as [E _].
    2:{ rewrite (Hklen _ _ (Hblk _ Hi1)), (Hklen _ _ (Hblk _ Hi2)). reflexivity. }
    assert (Hpk : map part_key parts = map fst blocks) by (rewrite <- Hpkb, map_map; reflexivity).
    eapply NoDup_nth_error_inj; [exact Hkeys| |].
    - rewrite <- Hpk, nth_error_map, Hn1. reflexivity.
    - rewrite <- Hpk, nth_error_map, Hn2. simpl. congruence. }
  assert (Hle : forall x start stop, In x parts -> part_range x = Some (start, stop) ->
     stop <= length (rows (bb_properties (tb_values nb)))).
  { rewrite Hvals. simpl. intros x start stop Hx Hrg. destruct (Hrange x Hx) as (Hne & _ & Hrr).
    destruct (Hrr _ _ Hrg) as [-> Hn]. destruct (length (block_properties (part_block x))) as [|m] eqn:El.
    { apply length_zero_iff_nil in El. contradiction. }
    destruct (nth_error (block_properties (part_block x)) m) as [r|] eqn:Er.
    2:{ apply nth_error_None in Er. lia. }
    apply Hn in Er. assert (start + m < length (rows newp)) by (apply nth_error_Some; congruence). lia. }
  assert (Hcomp : Forall (fun x => Forall2 same_labels (bb_components (tb_values (part_block x))) (bb_components (tb_values nb))) parts).
  { rewrite Hvals. simpl. apply Forall_forall. intros x Hx. apply Hblk in Hx.
    rewrite Forall_forall in Hchk. apply Hchk in Hx as [Hx _]. exact Hx. }
  assert (Hsame' : forall x1 x2, In x1 parts -> In x2 parts -> same_gradient_names (part_block x1) (part_block x2)).
  { intros x1 x2 H1 H2. apply Hblk in H1, H2. eapply Hsame; eauto. }
  assert (HF' : Forall2 (fun qg qn => fst qg = fst qn
     /\ made_gradient p (tb_values (part_block x0)) parts (bb_properties (tb_values nb)) (fst qg) (snd qg) (snd qn))
     (tb_gradients (part_block x0)) (tb_gradients nb)).
  { rewrite Hvals, Hnews. exact HF. }
  constructor.
  - assumption.
  - rewrite Hvals. simpl. apply (is_labels_names _ _ _ Hmerged).
  - rewrite Hvals. simpl. apply (is_labels_rows _ _ _ Hmerged).
  - rewrite Hvals. reflexivity.
  - rewrite Hvals. simpl. apply (is_labels_names _ _ _ Hnewp).
  - rewrite Hvals. exact Hnewrows.
  - eapply Forall_impl; [|exact Hchk]. intros kb [H1 H2]. split; [exact H1|]. intros Hk. apply H2. unfold krows in Hk. destruct keys; [reflexivity|contradiction].
  - intros s' cs pr v.
    rewrite (value_entries false true parts (tb_values nb) (proj1 Hnb) Hwf_parts Hmap Hprop Hdis Hcomp Hle s0);
      auto.
    2:{ rewrite Hsh, Hvals. unfold axes. simpl. rewrite map_app. reflexivity. }
    2:{ rewrite Hvals. assumption. }
    split.
    + intros [(x & s & pr' & Hx & Hrg & -> & -> & He)|(Hs' & Hc' & Hpr' & Hun & Hz')].
      * left. exists (part_key x), (part_block x), pr'. split; [apply Hblk; assumption|].
        split; [apply (Hrange x Hx); assumption|]. auto.
      * right. split; [assumption|]. split; [assumption|]. split; [assumption|]. split; [|assumption].
        intros k b pr1 Hkb Hq E Hs Hp1. destruct (Hparts_in _ _ Hkb) as (x & Hx & Ek & Eb).
        apply (Hun x s' pr1 Hx); auto.
        -- apply (Hrange x Hx). rewrite Ek. assumption.
        -- simpl. congruence.
        -- rewrite Eb. assumption.
        -- rewrite Eb. assumption.
    + intros [(k & b & pr1 & Hkb & Hq & -> & He)|(Hs' & Hc' & Hpr' & Hun & Hz')].
      * left. destruct (Hparts_in _ _ Hkb) as (x & Hx & Ek & Eb).
        exists x, s', pr1. split; [assumption|]. split; [apply (Hrange x Hx); rewrite Ek; assumption|].
        simpl. rewrite Ek, Eb. auto.
      * right. split; [assumption|]. split; [assumption|]. split; [assumption|]. split; [|assumption].
        intros x s pr1 Hx Hrg E1 E2 Hs. apply (Hun (part_key x) (part_block x) pr1); auto.
        -- apply (Hrange x Hx). assumption.
        -- simpl in E1. subst s'. assumption.
  - unfold gradients_follow, blocks.
    destruct (merged_gradient_names p parts nb x0 Hx0 Hwf_parts Hkind HF') as [Hn1 Hn2].
    split; [exact Hn1|]. intros q newg Hq. split; [|exact (Hn2 _ _ Hq)].
    eapply (merged_gradient_sorted p parts nb x0 Hx0 Hwf_parts Hkind HF'); eauto.
  - intros q s' rest.
    rewrite (merged_gradient_samples p false parts nb x0 Hx0 Hnb Hwf_parts Hmap Hkind HF' Hsame').
    split.
    + intros (x & s & Hx & -> & Hg). apply Hblk in Hx. exists (part_key x), (part_block x). auto.
    + intros (k & b & Hkb & Hg). destruct (Hparts_in _ _ Hkb) as (x & Hx & Ek & Eb).
      exists x, s'. rewrite Eb. auto.
  - eapply (merged_gradient_in_range p false parts nb x0); eassumption.
  - intros k b Hkb. destruct (Hparts_in _ _ Hkb) as (x & Hx & _ & <-).
    eapply (parts_gradient_in_range p false parts nb x0); eassumption.
  - intros Hp Hall k1 b1 k2 b2 Hi1 Hi2. destruct (Hparts_in _ _ Hi1) as (x1 & Hx1 & _ & <-). destruct (Hparts_in _ _ Hi2) as (x2 & Hx2 & _ & <-).
    assert (Hrange_some : forall x, In x parts -> part_range x <> None).
    { intros x Hx. apply (Hrange x Hx). apply (Hall _ _ (Hblk x Hx)). }
    eapply (merged_debug_agree p parts nb x0 Hx0 Hwf_parts Hkind HF' Hsame' Hp Hrange_some); eauto.
  - intros Hag q s' rest cs pr v.
    rewrite (merged_gradient_values p false true parts nb x0 Hx0 Hnb Hwf_parts Hmap Hprop Hdis Hle Hkind HF' Hsame').
    2:{ intros x1 x2 H1 H2. apply Hblk in H1, H2. eapply Hag; eauto. }
    split.
    + intros [(x & s & pr' & Hx & Hrg & -> & -> & He)|(Hs' & Hc' & Hpr' & Hun & Hz')].
      * left. exists (part_key x), (part_block x), pr'. split; [apply Hblk; assumption|].
        split; [apply (Hrange x Hx); assumption|]. auto.
      * right. split; [assumption|]. split; [assumption|]. split; [assumption|]. split; [|assumption].
        intros k b pr1 Hkb Hq E Hs Hp1. destruct (Hparts_in _ _ Hkb) as (x & Hx & Ek & Eb).
        apply (Hun x s' pr1 Hx); auto.
        -- apply (Hrange x Hx). rewrite Ek. assumption.
        -- simpl. congruence.
        -- rewrite Eb. assumption.
        -- rewrite Eb. assumption.
    + intros [(k & b & pr1 & Hkb & Hq & -> & He)|(Hs' & Hc' & Hpr' & Hun & Hz')].
      * left. destruct (Hparts_in _ _ Hkb) as (x & Hx & Ek & Eb).
        exists x, s', pr1. split; [assumption|]. split; [apply (Hrange x Hx); rewrite Ek; assumption|].
        simpl. rewrite Ek, Eb. auto.
      * right. split; [assumption|]. split; [assumption|]. split; [assumption|]. split; [|assumption].
        intros x s pr1 Hx Hrg E1 E2 Hs. apply (Hun (part_key x) (part_block x) pr1); auto.
        -- apply (Hrange x Hx). assumption.
        -- simpl in E1. subst s'. assumption.
Qed.
