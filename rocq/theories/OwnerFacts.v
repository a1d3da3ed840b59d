(* The arrays of a program: each one has one owner, or was destroyed once *)
From Coq Require Import Permutation.
From Verif Require Import Base BaseFacts Labels Array Block Tensor Npy Io Origin CApi Spec SpecTensor SpecIo SpecApi
  LabelsFacts ApiFacts.
Local Open Scope string_scope.
Local Open Scope list_scope.
Local Open Scope nat_scope.

(** * Counting arrays *)

Definition cnt (x : nat) (l : list nat) : nat := count_occ Nat.eq_dec l x.
Arguments cnt : simpl never.

Lemma cnt_app x l1 l2 : cnt x (l1 ++ l2) = cnt x l1 + cnt x l2.
Proof. apply count_occ_app. Qed.

Lemma cnt_nil x : cnt x [] = 0.
Proof. reflexivity. Qed.

Lemma cnt_seq x start n : cnt x (seq start n) = if (start <=? x) && (x <? start + n) then 1 else 0.
Proof.
  revert start. induction n as [|n IH]; intros start; cbn [seq].
  - destruct (Nat.leb_spec start x), (Nat.ltb_spec x (start + 0)); try reflexivity. lia.
  - unfold cnt in *. cbn [count_occ]. rewrite IH.
    destruct (Nat.eq_dec start x), (Nat.leb_spec (S start) x), (Nat.ltb_spec x (S start + n)),
      (Nat.leb_spec start x), (Nat.ltb_spec x (start + S n)); cbn [andb]; lia.
Qed.

Lemma cnt_seq_extend x n k : cnt x (seq 0 (n + k)) = cnt x (seq 0 n) + cnt x (seq n k).
Proof. rewrite seq_app, cnt_app. reflexivity. Qed.

Lemma cnt_perm l1 l2 : (forall x, cnt x l1 = cnt x l2) -> Permutation l1 l2.
Proof. intros H. apply (Permutation_count_occ Nat.eq_dec). exact H. Qed.

(** * Handles *)

Definition handles_ok {A} (next : nat) (l : list (nat * A)) : Prop :=
  NoDup (map fst l) /\ Forall (fun ha => fst ha < next) l.

Lemma handles_cons {A} next (l : list (nat * A)) a : handles_ok next l -> handles_ok (S next) ((next, a) :: l).
Proof.
  intros [H1 H2]. split; cbn [map fst].
  - constructor; [|assumption]. intros H. apply in_map_iff in H as ([h b] & E & H). cbn in E. subst h.
    rewrite Forall_forall in H2. specialize (H2 _ H). cbn in H2. lia.
  - constructor; [cbn; lia|]. eapply Forall_impl; [|exact H2]. cbn. lia.
Qed.

Lemma handles_next {A} next (l : list (nat * A)) : handles_ok next l -> handles_ok (S next) l.
Proof. intros [H1 H2]. split; [assumption|]. eapply Forall_impl; [|exact H2]. cbn. lia. Qed.

Lemma handles_remove {A} next (l : list (nat * A)) h : handles_ok next l -> handles_ok next (remove_handle h l).
Proof.
  intros [H1 H2]. split; unfold remove_handle.
  - clear H2. induction l as [|[k a] l IH]; cbn [filter map fst]; [constructor|]. cbn [map fst] in H1.
    apply NoDup_cons_iff in H1 as [H1 H3]. destruct (k =? h); cbn [negb map fst]; [auto|]. constructor; [|auto].
    intros H. apply H1. apply in_map_iff in H as (x & E & H). apply filter_In in H as [H _]. apply in_map_iff. eauto.
  - rewrite Forall_forall in *. intros x Hx. apply filter_In in Hx as [Hx _]. auto.
Qed.

Lemma update_fst {A} h (a : A) l : map fst (update_handle h a l) = map fst l.
Proof.
  unfold update_handle. rewrite map_map. apply map_ext. intros [k b]. cbn [fst]. destruct (Nat.eqb_spec k h); [subst|]; reflexivity.
Qed.

Lemma handles_update {A} next (l : list (nat * A)) h a : handles_ok next l -> handles_ok next (update_handle h a l).
Proof.
  intros [H1 H2]. split; [rewrite update_fst; assumption|]. rewrite Forall_forall in *. intros x Hx.
  unfold update_handle in Hx. apply in_map_iff in Hx as (y & E & Hy). specialize (H2 _ Hy). destruct (Nat.eqb_spec (fst y) h).
  - subst. exact H2.
  - subst. exact H2.
Qed.

Lemma remove_absent {A} h (l : list (nat * A)) : ~ In h (map fst l) -> remove_handle h l = l.
Proof.
  induction l as [|[k a] l IH]; intros H; [reflexivity|]. cbn [remove_handle filter fst]. cbn [map fst In] in H.
  destruct (Nat.eqb_spec k h) as [->|Hk]; [exfalso; auto|]. cbn [negb]. f_equal. apply IH. auto.
Qed.

Lemma update_absent {A} h (a : A) l : ~ In h (map fst l) -> update_handle h a l = l.
Proof.
  induction l as [|[k b] l IH]; intros H; [reflexivity|]. cbn [update_handle map fst]. cbn [map fst In] in H.
  destruct (Nat.eqb_spec k h) as [->|Hk]; [exfalso; auto|]. f_equal. apply IH. auto.
Qed.

(* sums over the handles *)
Lemma sum_remove {A} (f : A -> list nat) x h a (l : list (nat * A)) : NoDup (map fst l) -> hm_get Nat.eqb l h = Some a ->
  cnt x (flat_map (fun ha => f (snd ha)) l) = cnt x (f a) + cnt x (flat_map (fun ha => f (snd ha)) (remove_handle h l)).
Proof.
  induction l as [|[k b] l IH]; intros Hnd Hg; [discriminate Hg|]. cbn [hm_get] in Hg. cbn [map fst] in Hnd.
  apply NoDup_cons_iff in Hnd as [Hn Hnd]. cbn [flat_map remove_handle filter fst snd]. rewrite cnt_app.
  rewrite Nat.eqb_sym in Hg. destruct (Nat.eqb_spec k h) as [->|Hk]; cbn [negb].
  - injection Hg as <-. fold (remove_handle h l). rewrite remove_absent by assumption. reflexivity.
  - cbn [flat_map snd]. rewrite cnt_app, IH by assumption. unfold remove_handle. lia.
Qed.

Lemma sum_update {A} (f : A -> list nat) x h a a' (l : list (nat * A)) : NoDup (map fst l) -> hm_get Nat.eqb l h = Some a ->
  cnt x (flat_map (fun ha => f (snd ha)) (update_handle h a' l)) + cnt x (f a)
  = cnt x (flat_map (fun ha => f (snd ha)) l) + cnt x (f a').
Proof.
  induction l as [|[k b] l IH]; intros Hnd Hg; [discriminate Hg|]. cbn [hm_get] in Hg. cbn [map fst] in Hnd.
  apply NoDup_cons_iff in Hnd as [Hn Hnd]. cbn [flat_map update_handle map fst snd].
  rewrite Nat.eqb_sym in Hg. destruct (Nat.eqb_spec k h) as [->|Hk].
  - injection Hg as <-. cbn [flat_map snd]. fold (update_handle h a' l). rewrite update_absent by assumption.
    rewrite !cnt_app. lia.
  - cbn [flat_map snd]. fold (update_handle h a' l). rewrite !cnt_app. specialize (IH Hnd Hg). lia.
Qed.

(** * The invariant *)

Definition block_arrays_ok (b : owned_block) : Prop := length (ob_arrays b) = arrays_count (ob_block b).
Definition tensor_arrays_ok (t : owned_tensor) : Prop :=
  map (@length nat) (ot_arrays t) = map arrays_count (tm_blocks (ot_tensor t)).

(* [loose]: arrays which belong to the function which is running *)
Record owners_with (w : world) (loose : list nat) : Prop := mk_owners {
  own_blocks : handles_ok (w_next_handle w) (w_blocks w);
  own_tensors : handles_ok (w_next_handle w) (w_tensors w);
  own_block_arrays : Forall (fun hb => block_arrays_ok (snd hb)) (w_blocks w);
  own_tensor_arrays : Forall (fun ht => tensor_arrays_ok (snd ht)) (w_tensors w);
  own_count : forall x, cnt x (w_destroyed w)
    + (cnt x (flat_map (fun hb => ob_arrays (snd hb)) (w_blocks w))
       + cnt x (flat_map (fun ht => concat (ot_arrays (snd ht))) (w_tensors w))) + cnt x loose
    = cnt x (seq 0 (w_next_array w));
}.
Definition owners (w : world) : Prop := owners_with w [].

Lemma owners_start files : owners (world_start files).
Proof. split; cbn; repeat constructor. Qed.

Ltac fields := cbn [set_errors set_blocks set_tensors set_origins set_files destroy new_arrays box_block box_tensor write_file fst snd
  w_blocks w_tensors w_next_handle w_next_array w_destroyed w_origins w_files w_errors ot_arrays ob_arrays].

Lemma owners_errors w errors loose : owners_with w loose -> owners_with (set_errors w errors) loose.
Proof. intros []. split; assumption. Qed.

Lemma owners_new w n loose : owners_with w loose ->
  owners_with (fst (new_arrays w n)) (seq (w_next_array w) n ++ loose).
Proof.
  intros [H1 H2 H3 H4 H5]. split; fields; try assumption. intros x. specialize (H5 x).
  rewrite cnt_seq_extend, cnt_app. lia.
Qed.

Lemma owners_destroy w l loose : owners_with w (l ++ loose) -> owners_with (destroy w l) loose.
Proof.
  intros [H1 H2 H3 H4 H5]. split; fields; try assumption. intros x. specialize (H5 x). rewrite cnt_app in *. lia.
Qed.

Lemma owners_destroy_all w l : owners_with w l -> owners (destroy w l).
Proof. intros H. apply owners_destroy. rewrite app_nil_r. exact H. Qed.

Lemma owners_loose w l1 l2 : (forall x, cnt x l1 = cnt x l2) -> owners_with w l1 -> owners_with w l2.
Proof. intros H [H1 H2 H3 H4 H5]. split; try assumption. intros x. rewrite <- H. apply H5. Qed.

Lemma owners_temporary w n loose : owners_with w loose -> owners_with (temporary_arrays w n) loose.
Proof. intros H. unfold temporary_arrays. apply (owners_destroy _ _ _ (owners_new w n loose H)). Qed.

Lemma owners_box_block w b loose : owners_with w (ob_arrays b ++ loose) -> block_arrays_ok b ->
  owners_with (fst (box_block w b)) loose.
Proof.
  intros [H1 H2 H3 H4 H5] Hb. split; fields.
  - apply handles_cons. assumption.
  - apply handles_next. assumption.
  - constructor; assumption.
  - assumption.
  - intros x. specialize (H5 x). cbn [flat_map snd]. rewrite cnt_app in *. lia.
Qed.

Lemma owners_box_tensor w t loose : owners_with w (concat (ot_arrays t) ++ loose) -> tensor_arrays_ok t ->
  owners_with (fst (box_tensor w t)) loose.
Proof.
  intros [H1 H2 H3 H4 H5] Hb. split; fields.
  - apply handles_next. assumption.
  - apply handles_cons. assumption.
  - assumption.
  - constructor; assumption.
  - intros x. specialize (H5 x). cbn [flat_map snd]. rewrite cnt_app in *. lia.
Qed.

Lemma hm_get_at {A} (l : list (nat * A)) h a : hm_get Nat.eqb l h = Some a -> In (h, a) l.
Proof. apply hm_get_In. apply Nat.eqb_eq. Qed.

Lemma owners_remove_block w h b loose : owners_with w loose -> hm_get Nat.eqb (w_blocks w) h = Some b ->
  owners_with (set_blocks w (remove_handle h (w_blocks w))) (ob_arrays b ++ loose) /\ block_arrays_ok b.
Proof.
  intros [H1 H2 H3 H4 H5] Hg. split; [split; fields; try assumption|].
  - apply handles_remove. assumption.
  - rewrite Forall_forall in *. intros y Hy. apply filter_In in Hy as [Hy _]. auto.
  - intros x. specialize (H5 x). rewrite cnt_app.
    rewrite (sum_remove ob_arrays x h b) in H5; [|apply H1|assumption]. lia.
  - apply hm_get_at in Hg. rewrite Forall_forall in H3. apply (H3 _ Hg).
Qed.

Lemma owners_remove_tensor w h t loose : owners_with w loose -> hm_get Nat.eqb (w_tensors w) h = Some t ->
  owners_with (set_tensors w (remove_handle h (w_tensors w))) (concat (ot_arrays t) ++ loose) /\ tensor_arrays_ok t.
Proof.
  intros [H1 H2 H3 H4 H5] Hg. split; [split; fields; try assumption|].
  - apply handles_remove. assumption.
  - rewrite Forall_forall in *. intros y Hy. apply filter_In in Hy as [Hy _]. auto.
  - intros x. specialize (H5 x). rewrite cnt_app.
    rewrite (sum_remove (fun t => concat (ot_arrays t)) x h t) in H5; [|apply H2|assumption]. lia.
  - apply hm_get_at in Hg. rewrite Forall_forall in H4. apply (H4 _ Hg).
Qed.

Lemma Forall_update {A} (P : A -> Prop) h a (l : list (nat * A)) :
  P a -> Forall (fun ha => P (snd ha)) l -> Forall (fun ha => P (snd ha)) (update_handle h a l).
Proof.
  intros Ha Hl. unfold update_handle. apply Forall_map. eapply Forall_impl; [|exact Hl]. intros [k b] H. cbn [fst snd] in *.
  destruct (k =? h); assumption.
Qed.

Lemma owners_update_block w h b b' loose loose' : owners_with w loose -> hm_get Nat.eqb (w_blocks w) h = Some b ->
  block_arrays_ok b' -> (forall x, cnt x (ob_arrays b') + cnt x loose' = cnt x (ob_arrays b) + cnt x loose) ->
  owners_with (set_blocks w (update_handle h b' (w_blocks w))) loose'.
Proof.
  intros [H1 H2 H3 H4 H5] Hg Hb Hx. split; fields; try assumption.
  - apply handles_update. assumption.
  - apply (Forall_update block_arrays_ok); assumption.
  - intros x. specialize (H5 x). specialize (Hx x).
    pose proof (sum_update ob_arrays x h b b' (w_blocks w) (proj1 H1) Hg). lia.
Qed.

Lemma owners_update_tensor w h t t' loose loose' : owners_with w loose -> hm_get Nat.eqb (w_tensors w) h = Some t ->
  tensor_arrays_ok t' ->
  (forall x, cnt x (concat (ot_arrays t')) + cnt x loose' = cnt x (concat (ot_arrays t)) + cnt x loose) ->
  owners_with (set_tensors w (update_handle h t' (w_tensors w))) loose'.
Proof.
  intros [H1 H2 H3 H4 H5] Hg Hb Hx. split; fields; try assumption.
  - apply handles_update. assumption.
  - apply (Forall_update tensor_arrays_ok); assumption.
  - intros x. specialize (H5 x). specialize (Hx x).
    pose proof (sum_update (fun t => concat (ot_arrays t)) x h t t' (w_tensors w) (proj1 H2) Hg). lia.
Qed.

(** * The functions *)

Lemma get_block_ok w block h b : get_block w block = Ok (h, b) ->
  block = BlockAt h /\ hm_get Nat.eqb (w_blocks w) h = Some b.
Proof.
  unfold get_block. destruct block as [|h'|t i]; try discriminate.
  destruct (hm_get Nat.eqb (w_blocks w) h') eqn:E; [|discriminate]. intros H. injection H as <- <-. auto.
Qed.

Lemma get_tensor_ok w h t : get_tensor w h = Ok t <-> hm_get Nat.eqb (w_tensors w) h = Some t.
Proof.
  unfold get_tensor. destruct (hm_get Nat.eqb (w_tensors w) h); split; intros H; try discriminate H; injection H as <-; reflexivity.
Qed.

Lemma new_blocks_arrays_owners bs : forall w loose w' arrays, owners_with w loose -> new_blocks_arrays w bs = (w', arrays) ->
  owners_with w' (concat arrays ++ loose) /\ map (@length nat) arrays = map arrays_count bs
  /\ w_tensors w' = w_tensors w /\ w_blocks w' = w_blocks w.
Proof.
  induction bs as [|b bs IH]; intros w loose w' arrays Hw H; cbn [new_blocks_arrays] in H.
  - injection H as <- <-. auto.
  - cbn [map]. remember (arrays_count b) as n eqn:En. clear En.
    destruct (new_arrays w n) as [w1 a1] eqn:E1. destruct (new_blocks_arrays w1 bs) as [w2 a2] eqn:E2.
    injection H as <- <-. pose proof (owners_new w n loose Hw) as H1. rewrite E1 in H1. cbn [fst] in H1.
    unfold new_arrays in E1. injection E1 as <- <-. eapply IH in E2 as (H2 & H3 & H4 & H5); [|exact H1].
    cbn [map concat]. rewrite H3, seq_length. split; [|auto].
    eapply owners_loose; [|exact H2]. intros x. rewrite !cnt_app. lia.
Qed.

Lemma take_blocks_owners bs : forall w loose w' owned, owners_with w loose -> take_blocks w bs = (w', Ok owned) ->
  owners_with w' (concat (map ob_arrays owned) ++ loose) /\ Forall block_arrays_ok owned.
Proof.
  induction bs as [|b bs IH]; intros w loose w' owned Hw H; cbn [take_blocks] in H.
  - injection H as <- <-. auto.
  - destruct (get_block w b) as [[h ob]|e|m|r] eqn:Eg; [|discriminate H..]. apply get_block_ok in Eg as [-> Eg].
    destruct (take_blocks _ bs) as [w1 o1] eqn:Et. destruct o1 as [others|e|m|r]; cbn [bind] in H; [|discriminate H..].
    injection H as <- <-. destruct (owners_remove_block w h ob loose Hw Eg) as [H1 H2].
    eapply IH in Et as [H3 H4]; [|exact H1]. split; [|constructor; assumption].
    eapply owners_loose; [|exact H3]. intros x. cbn [map concat]. rewrite !cnt_app. lia.
Qed.

Lemma clone_arrays_count arrays : forall n, clone_arrays arrays = (n, Ok tt) -> n = length arrays.
Proof.
  induction arrays as [|a arrays IH]; intros n H; cbn [clone_arrays] in H; [injection H as <-; reflexivity|].
  destruct (array_clone a); [|injection H as <- H; discriminate H..]. destruct (clone_arrays arrays) as [k r].
  injection H as <- ->. cbn [length]. f_equal. apply IH. reflexivity.
Qed.

Lemma add_gradient_count b q data s cs b' r : tensor_block_add_gradient b q data s cs = (b', r) ->
  length (tb_gradients b') = S (length (tb_gradients b)) \/ length (tb_gradients b') = length (tb_gradients b).
Proof.
  unfold tensor_block_add_gradient. destruct (check_gradient b q data s cs).
  - destruct (cstring_new q); intros H; injection H as <- <-; left; cbn [tb_gradients]; unfold hm_insert_new;
      rewrite app_length; cbn [length]; lia.
  - intros H. injection H as <- <-. auto.
  - intros H. injection H as <- <-. auto.
  - intros H. injection H as <- <-. auto.
Qed.

Lemma gradients_components_length vs gs : forall gs' r, gradients_components_to_properties vs gs = (gs', r) ->
  map fst gs' = map fst gs.
Proof.
  induction gs as [|[q g] gs IH]; intros gs' r H; cbn [gradients_components_to_properties] in H; [injection H as <- <-; reflexivity|].
  destruct (basic_block_components_to_properties g vs) as [g' o]. destruct o.
  - destruct (gradients_components_to_properties vs gs) as [rest r'] eqn:E. injection H as <- <-. cbn [map fst]. f_equal.
    eapply IH. reflexivity.
  - injection H as <- <-. reflexivity.
  - injection H as <- <-. reflexivity.
  - injection H as <- <-. reflexivity.
Qed.

Lemma block_components_count vs b b' r : tensor_block_components_to_properties b vs = (b', r) ->
  arrays_count b' = arrays_count b.
Proof.
  unfold tensor_block_components_to_properties, arrays_count. destruct vs; [intros H; injection H as <- <-; reflexivity|].
  destruct (basic_block_components_to_properties _ _) as [values o]. destruct o.
  - destruct (gradients_components_to_properties _ _) as [gs r'] eqn:E. intros H. injection H as <- <-. cbn [tb_gradients].
    apply gradients_components_length in E. apply (f_equal (@length _)) in E. rewrite !map_length in E. lia.
  - intros H. injection H as <- <-. reflexivity.
  - intros H. injection H as <- <-. reflexivity.
  - intros H. injection H as <- <-. reflexivity.
Qed.

Lemma components_count vs t t' r : components_to_properties t vs = (t', r) ->
  map arrays_count (tm_blocks t') = map arrays_count (tm_blocks t).
Proof.
  unfold components_to_properties. destruct vs as [|v vs]; [intros H; injection H as <- <-; reflexivity|].
  destruct (blocks_components_to_properties (v :: vs) (tm_blocks t)) as [bs r'] eqn:E. intros H. injection H as <- <-. cbn [tm_blocks].
  revert bs r' E. induction (tm_blocks t) as [|b rest IH]; intros bs r' E; cbn [blocks_components_to_properties] in E.
  - injection E as <- <-. reflexivity.
  - destruct (tensor_block_components_to_properties b (v :: vs)) as [b' o] eqn:Eb. apply block_components_count in Eb. destruct o.
    + destruct (blocks_components_to_properties (v :: vs) rest) as [rest' r''] eqn:Er. injection E as <- <-.
      cbn [map]. rewrite Eb. f_equal. eapply IH. reflexivity.
    + injection E as <- <-. cbn [map]. rewrite Eb. reflexivity.
    + injection E as <- <-. cbn [map]. rewrite Eb. reflexivity.
    + injection E as <- <-. cbn [map]. rewrite Eb. reflexivity.
Qed.

(* moving keys gives the same tensor map when it fails *)
Definition keeps_on_failure (move : TensorMap -> Labels -> TensorMap * outcome unit) : Prop :=
  forall t keys t' r, move t keys = (t', r) -> r = Ok tt \/ t' = t.

Lemma keys_to_samples_keeps p sort : keeps_on_failure (fun t keys => keys_to_samples p t keys sort).
Proof.
  intros t keys t' r H. unfold keys_to_samples in H. destruct (keys_to_samples_compute _ _ _ _) as [[k bs]|e|m|u];
    injection H as <- <-; auto.
Qed.

Lemma keys_to_properties_keeps p sort : keeps_on_failure (fun t keys => keys_to_properties p t keys sort).
Proof.
  intros t keys t' r H. unfold keys_to_properties in H. destruct (keys_to_properties_compute _ _ _ _) as [[k bs]|e|m|u];
    injection H as <- <-; auto.
Qed.

Lemma move_keys_owners w tensor keys temporary move w' v o : owners w -> keeps_on_failure move ->
  move_keys w tensor keys temporary move = (w', v, o) -> owners w'.
Proof.
  intros Hw Hk H. unfold move_keys in H. cbv zeta in H.
  match type of H with match ?x with _ => _ end = _ => destruct x as [[[h k] t]|e|m|r] eqn:E end;
    [|injection H as <- <- <-; exact Hw..].
  apply bind_ok in E as (h1 & _ & E). apply bind_ok in E as (k1 & _ & E). apply bind_ok in E as (t1 & Et & E).
  injection E as -> -> ->. apply get_tensor_ok in Et.
  assert (Ht : tensor_arrays_ok t).
  { apply hm_get_at in Et. pose proof (own_tensor_arrays _ _ Hw) as Hf. rewrite Forall_forall in Hf. apply (Hf _ Et). }
  destruct (move (ot_tensor t) k) as [moved r] eqn:Em. pose proof (Hk _ _ _ _ Em) as Hcase. destruct r as [[]|e|m|r].
  - destruct (new_blocks_arrays w (tm_blocks moved)) as [w1 arrays] eqn:En. injection H as <- <- <-.
    eapply new_blocks_arrays_owners in En as (H1 & H2 & H3 & _); [|exact Hw].
    apply owners_destroy_all. apply owners_temporary. rewrite app_nil_r in H1.
    eapply owners_update_tensor; [exact H1|rewrite H3; exact Et|exact H2|]. intros x. cbn [ot_arrays]. lia.
  - destruct Hcase as [Hc|Hc]; [discriminate Hc|]. subst moved. injection H as <- <- <-.
    apply owners_temporary. eapply owners_update_tensor; [exact Hw|exact Et|exact Ht|]. intros. reflexivity.
  - destruct Hcase as [Hc|Hc]; [discriminate Hc|]. subst moved. injection H as <- <- <-.
    apply owners_temporary. eapply owners_update_tensor; [exact Hw|exact Et|exact Ht|]. intros. reflexivity.
  - destruct Hcase as [Hc|Hc]; [discriminate Hc|]. subst moved. injection H as <- <- <-.
    apply owners_temporary. eapply owners_update_tensor; [exact Hw|exact Et|exact Ht|]. intros. reflexivity.
Qed.

Lemma reading_world w o w' v r : reading w o = (w', v, r) -> w' = w.
Proof. unfold reading. destruct o; intros H; injection H as <- _ _; reflexivity. Qed.

Lemma take_blocks_fails bs : forall w w' o, take_blocks w bs = (w', o) ->
  (exists owned, o = Ok owned) \/ exists r, o = Undefined r.
Proof.
  induction bs as [|b bs IH]; intros w w' o H; cbn [take_blocks] in H; [injection H as <- <-; eauto|].
  destruct (get_block w b) as [[h ob]|e|m|r] eqn:Eg.
  - destruct (take_blocks _ bs) as [w1 o1] eqn:Et. injection H as <- <-. apply IH in Et as [[owned ->]|[r ->]]; cbn [bind]; eauto.
  - unfold get_block in Eg. destruct b; try discriminate Eg. destruct (hm_get _ _ _); discriminate Eg.
  - unfold get_block in Eg. destruct b; try discriminate Eg. destruct (hm_get _ _ _); discriminate Eg.
  - injection H as <- <-. cbn [bind]. eauto.
Qed.

Lemma call_body_owners p thread w c w' v o : owners w -> call_body p thread w c = (w', v, o) ->
  (forall r, o <> Undefined r) -> owners w'.
Proof.
  intros Hw H Ho. destruct c; cbn [call_body] in H.
  - (* RegisterDataOrigin *)
    unfold eqs_register_data_origin in H. cbv zeta in H. match type of H with match ?x with _ => _ end = _ => destruct x end.
    + destruct (register_data_origin _ _). injection H as <- <- <-. destruct Hw. split; assumption.
    + injection H as <- <- <-. exact Hw.
    + injection H as <- <- <-. exact Hw.
    + injection H as <- <- <-. exact Hw.
  - (* GetDataOrigin *)
    unfold eqs_get_data_origin in H. destruct buffer; [|injection H as <- <- <-; exact Hw].
    destruct (get_data_origin _ _); [|injection H as <- <- <-; exact Hw..]. destruct (copy_str_to_c _ _ _).
    injection H as <- <- <-. exact Hw.
  - apply reading_world in H as ->. exact Hw.
  - (* BlockCreate *)
    unfold eqs_block in H. destruct (new_arrays w 1) as [w1 arrays] eqn:E. cbv zeta in H.
    pose proof (owners_new w 1 [] Hw) as H1. rewrite E in H1. cbn [fst] in H1. rewrite app_nil_r in H1.
    unfold new_arrays in E. injection E as _ <-.
    match type of H with match ?x with _ => _ end = _ => destruct x as [b|e|m|r] eqn:Eb end;
      [|injection H as <- <- <-; apply owners_destroy_all; exact H1..].
    apply bind_ok in Eb as (s & _ & Eb). apply bind_ok in Eb as (cs & _ & Eb). apply bind_ok in Eb as (ps & _ & Eb).
    injection H as <- <- <-.
    apply (owners_box_block w1 (mk_owned_block b (seq (w_next_array w) 1)) []); [rewrite app_nil_r; exact H1|].
    unfold tensor_block_new in Eb. apply bind_ok in Eb as (u & _ & Eb). injection Eb as <-. reflexivity.
  - (* BlockFree *)
    unfold eqs_block_free in H. destruct block as [|h|t i]; [injection H as <- <- <-; exact Hw| |].
    + destruct (get_block w (BlockAt h)) as [[h' b]|e|m|r] eqn:Eg; [|injection H as <- <- <-; exact Hw..].
      apply get_block_ok in Eg as [E Eg]. injection H as <- <- <-.
      apply (owners_remove_block w h' b []) in Eg as [H1 _]; [|exact Hw]. apply owners_destroy. exact H1.
    + injection H as <- <- <-. exact Hw.
  - (* BlockCopy *)
    unfold eqs_block_copy in H. match type of H with match ?x with _ => _ end = _ => destruct x as [b|e|m|r] eqn:Eb end;
      [|injection H as <- <- <-; exact Hw..].
    destruct (clone_arrays (block_arrays (ob_block b))) as [n r] eqn:Ec. destruct (new_arrays w n) as [w1 arrays] eqn:E.
    pose proof (owners_new w n [] Hw) as H1. rewrite E in H1. cbn [fst] in H1. rewrite app_nil_r in H1.
    unfold new_arrays in E. injection E as _ <-.
    destruct r as [[]|e|m|r]; [|injection H as <- <- <-; apply owners_destroy_all; exact H1..].
    injection H as <- <- <-. apply clone_arrays_count in Ec.
    apply (owners_box_block w1 (mk_owned_block (ob_block b) (seq (w_next_array w) n)) []); [rewrite app_nil_r; exact H1|].
    unfold block_arrays_ok. cbn [ob_arrays ob_block]. rewrite seq_length, Ec. unfold block_arrays, arrays_count. cbn [length].
    rewrite map_length. reflexivity.
  - apply reading_world in H as ->. exact Hw.
  - apply reading_world in H as ->. exact Hw.
  - (* BlockAddGradient *)
    unfold eqs_block_add_gradient in H. destruct (new_arrays w 1) as [w1 arrays] eqn:E. cbv zeta in H.
    pose proof (owners_new w 1 [] Hw) as H1. rewrite E in H1. cbn [fst] in H1. rewrite app_nil_r in H1.
    unfold new_arrays in E. injection E as _ <-.
    match type of H with match ?x with _ => _ end = _ => destruct x as [[[[[h b] q] s] cs]|e|m|r] eqn:Eb end;
      [|injection H as <- <- <-; apply owners_destroy_all; exact H1..].
    apply bind_ok in Eb as (b0 & _ & Eb). apply bind_ok in Eb as (q0 & _ & Eb). apply bind_ok in Eb as (q1 & _ & Eb).
    apply bind_ok in Eb as (s0 & _ & Eb). apply bind_ok in Eb as (cs0 & _ & Eb). apply bind_ok in Eb as ([h0 b1] & Eg & Eb).
    injection Eb as -> -> -> -> ->. apply get_block_ok in Eg as [_ Eg].
    destruct (tensor_block_add_gradient (ob_block b) q data s cs) as [b' r] eqn:Ea. apply add_gradient_count in Ea.
    destruct (Nat.ltb_spec (length (tb_gradients (ob_block b))) (length (tb_gradients b'))) as [Hlt|Hge];
      injection H as <- <- <-; [|apply owners_destroy_all; exact H1].
    destruct Ea as [Ea|Ea]; [|lia]. eapply owners_update_block; [exact H1|exact Eg| |].
    + unfold block_arrays_ok, arrays_count. cbn [ob_arrays ob_block]. rewrite app_length. cbn [length].
      pose proof (own_block_arrays _ _ H1) as Hf. rewrite Forall_forall in Hf. specialize (Hf _ (hm_get_at _ _ _ Eg)).
      unfold block_arrays_ok, arrays_count in Hf. cbn [snd] in Hf. lia.
    + intros x. cbn [ob_arrays seq]. rewrite cnt_app, cnt_nil. lia.
  - apply reading_world in H as ->. exact Hw.
  - (* TensorCreate *)
    unfold eqs_tensormap in H. destruct (labels_from_c keys); [|injection H as <- <- <-; exact Hw..].
    destruct (negb _); [injection H as <- <- <-; exact Hw|]. destruct (take_blocks w blocks) as [w1 o1] eqn:Et.
    pose proof (take_blocks_fails _ _ _ _ Et) as [[owned ->]|[r ->]]; [|injection H as <- <- <-; exfalso; apply (Ho r); reflexivity].
    eapply take_blocks_owners in Et as [H1 H2]; [|exact Hw]. cbv zeta in H. rewrite app_nil_r in H1.
    destruct (tensor_map_new a (map ob_block owned)) as [t|e|m|r] eqn:En;
      [|injection H as <- <- <-; apply owners_destroy_all; exact H1..].
    injection H as <- <- <-. apply (owners_box_tensor w1 (mk_owned_tensor t (map ob_arrays owned)) []); [rewrite app_nil_r; exact H1|].
    unfold tensor_arrays_ok. cbn [ot_arrays ot_tensor].
    assert (tm_blocks t = map ob_block owned) as ->.
    { unfold tensor_map_new in En. repeat (apply bind_ok in En as (? & _ & En)).
      destruct (negb _) in En; [discriminate En|]. repeat (apply bind_ok in En as (? & _ & En)).
      destruct (map ob_block owned); repeat (apply bind_ok in En as (? & _ & En)); injection En as <-; reflexivity. }
    rewrite !map_map. clear -H2. induction H2; cbn [map]; [reflexivity|]. f_equal; assumption.
  - (* TensorFree *)
    unfold eqs_tensormap_free in H. destruct tensor as [h|]; [|injection H as <- <- <-; exact Hw].
    destruct (get_tensor w h) as [t|e|m|r] eqn:Eg; [|injection H as <- <- <-; exact Hw..].
    apply get_tensor_ok in Eg. injection H as <- <- <-.
    apply (owners_remove_tensor w h t []) in Eg as [H1 _]; [|exact Hw]. apply owners_destroy. exact H1.
  - apply reading_world in H as ->. exact Hw.
  - apply reading_world in H as ->. exact Hw.
  - (* TensorBlocksMatching *)
    unfold eqs_tensormap_blocks_matching in H. cbv zeta in H.
    match type of H with match ?x with _ => _ end = _ => destruct x as [[b idx]|e|m|r] end; [|injection H as <- <- <-; exact Hw..].
    destruct (write_indexes 0 b idx). injection H as <- <- <-. exact Hw.
  - eapply move_keys_owners; [exact Hw|apply keys_to_properties_keeps|exact H].
  - (* TensorComponentsToProperties *)
    unfold eqs_tensormap_components_to_properties in H. cbv zeta in H.
    match type of H with match ?x with _ => _ end = _ => destruct x as [[[h vs] t]|e|m|r] eqn:E end; [|injection H as <- <- <-; exact Hw..].
    apply bind_ok in E as (h1 & _ & E). apply bind_ok in E as (k1 & _ & E). apply bind_ok in E as (k2 & _ & E).
    apply bind_ok in E as (t1 & Et & E). injection E as -> -> ->. apply get_tensor_ok in Et.
    destruct (components_to_properties (ot_tensor t) vs) as [moved r] eqn:Ec. injection H as <- <- <-.
    apply components_count in Ec. eapply owners_update_tensor; [exact Hw|exact Et| |intros; reflexivity].
    unfold tensor_arrays_ok. cbn [ot_arrays ot_tensor]. rewrite Ec.
    pose proof (own_tensor_arrays _ _ Hw) as Hf. rewrite Forall_forall in Hf. apply (Hf _ (hm_get_at _ _ _ Et)).
  - eapply move_keys_owners; [exact Hw|apply keys_to_samples_keeps|exact H].
  - (* TensorLoad *)
    unfold eqs_tensormap_load in H. cbv zeta in H.
    match type of H with match ?x with _ => _ end = _ => destruct x as [t|e|m|r] end;
      [|injection H as <- <- <-; apply owners_temporary; exact Hw..].
    destruct (new_blocks_arrays w (tm_blocks t)) as [w1 arrays] eqn:En. injection H as <- <- <-.
    eapply new_blocks_arrays_owners in En as (H1 & H2 & _ & _); [|exact Hw].
    apply (owners_box_tensor w1 (mk_owned_tensor t arrays) []); [exact H1|exact H2].
  - (* TensorSave *)
    unfold eqs_tensormap_save in H. cbv zeta in H.
    match type of H with match ?x with _ => _ end = _ => destruct x as [[path' t]|e|m|r] end; [|injection H as <- <- <-; exact Hw..].
    destruct (save LittleEndian (ot_tensor t)); injection H as <- <- <-; destruct Hw; split; assumption.
  - injection H as <- <- <-. exact Hw.
Qed.
