(* Lemmas about Tensor.v: removing variables from the keys and grouping blocks *)
From Coq Require Import Permutation Sorting.Sorted.
From Verif Require Import Base BaseFacts Labels Array Block Tensor Spec SpecTensor LabelsFacts ArrayFacts BlockFacts TensorFacts.
Local Open Scope string_scope.
Local Open Scope list_scope.
Local Open Scope nat_scope.

(** * Order of first appearance *)

Lemma filter_index {A} (f : A -> bool) (l : list A) i x :
  nth_error (filter f l) i = Some x ->
  forall j y, i < j -> nth_error (filter f l) j = Some y ->
  exists a b, nth_error l a = Some x /\ nth_error l b = Some y /\ a < b.
Proof.
  revert i; induction l as [|z l IH]; intros i; simpl.
  - destruct i; discriminate.
  - destruct (f z).
    + destruct i as [|i]; simpl.
      * intros H; inversion H; subst. intros [|j] y Hij Hj; [lia|]. simpl in Hj.
        assert (Hin : In y l) by (apply nth_error_In in Hj; apply filter_In in Hj; tauto).
        apply In_nth_error in Hin as [b Hb]. exists 0, (S b). simpl. repeat split; auto; lia.
      * intros Hi [|j] y Hij Hj; [lia|]. simpl in Hj.
        destruct (IH _ Hi j y ltac:(lia) Hj) as (a & b & H1 & H2 & H3).
        exists (S a), (S b). simpl. repeat split; auto; lia.
    + intros Hi j y Hij Hj. destruct (IH _ Hi j y Hij Hj) as (a & b & H1 & H2 & H3).
      exists (S a), (S b). simpl. repeat split; auto; lia.
Qed.

Lemma nub_order l : forall i j x y, i < j ->
  nth_error (nub l) i = Some x -> nth_error (nub l) j = Some y ->
  exists a, nth_error l a = Some x /\ forall b, nth_error l b = Some y -> a < b.
Proof.
  induction l as [|z l IH]; intros i j x y Hij Hi Hj; simpl in Hi, Hj.
  - destruct i; discriminate.
  - destruct j as [|j]; [lia|]. simpl in Hj.
    assert (Hy : row_eqb y z = false).
    { apply nth_error_In in Hj. apply filter_In in Hj as [_ Hj]. destruct (row_eqb y z); [discriminate|reflexivity]. }
    assert (Hyz : y <> z) by (apply row_eqb_neq; assumption).
    destruct i as [|i]; simpl in Hi.
    + inversion Hi; subst. exists 0. split; [reflexivity|]. intros [|b] Hb; simpl in Hb; [congruence|lia].
    + destruct (filter_index _ _ _ _ Hi j y ltac:(lia) Hj) as (i' & j' & Hi' & Hj' & Hlt).
      destruct (IH i' j' x y Hlt Hi' Hj') as (a & Ha & Hb). exists (S a). split; [assumption|].
      intros [|b] Hb'; simpl in Hb'; [congruence|]. specialize (Hb _ Hb'). lia.
Qed.

Lemma nub_first_appearance l : first_appearance l (nub l).
Proof.
  split; [apply nub_NoDup|]. split; [intros x; apply nub_In|]. apply nub_order.
Qed.

Lemma first_appearance_constant {A} (l : list A) c :
  l <> [] -> Forall (eq c) l -> first_appearance l [c].
Proof.
  intros Hne Hf. rewrite Forall_forall in Hf. split; [constructor; [intros []|constructor]|]. split.
  - intros x. simpl. split.
    + intros [<-|[]]. destruct l as [|y l]; [contradiction|]. rewrite (Hf y) by (simpl; auto). simpl; auto.
    + intros Hx. left. apply Hf. assumption.
  - intros [|i] [|j] x y Hij; simpl; try lia.
    + destruct j; discriminate.
    + destruct i; discriminate.
Qed.

(** * Splitting keys *)

Lemma is_moved_mem variables name : mem String.eqb name variables = is_moved variables name.
Proof.
  unfold is_moved. destruct (in_dec string_dec name variables) as [H|H].
  - apply memS. assumption.
  - apply memS_false. assumption.
Qed.

Lemma is_moved_true variables name : is_moved variables name = true <-> In name variables.
Proof. unfold is_moved. destruct (in_dec _ _ _); split; auto; discriminate. Qed.

Lemma is_moved_false variables name : is_moved variables name = false <-> ~ In name variables.
Proof. unfold is_moved. destruct (in_dec _ _ _); split; auto; try discriminate. contradiction. Qed.

Lemma check_variables_ok variables names :
  check_variables variables names = Ok tt <-> (forall v, In v variables -> In v names).
Proof.
  induction variables as [|v variables IH]; simpl.
  - split; [intros _ v []|reflexivity].
  - destruct (mem String.eqb v names) eqn:E; simpl.
    + apply memS in E. rewrite IH. split; [intros H v' [<-|H']; auto | auto].
    + apply memS_false in E. split; [discriminate|]. intros H. exfalso. auto.
Qed.

Lemma split_names_spec variables names : forall pre,
  let '(rn, ri, ei) := split_names (length pre) names variables in
  rn = kept_names variables names
  /\ length ri = length rn
  /\ forall (key : list Z), length key = length names ->
       project (pre ++ key) ri = Ok (kept_part variables names key)
       /\ project (pre ++ key) ei = Ok (moved_part variables names key).
Proof.
  unfold kept_names, kept_part, moved_part, project, named.
  induction names as [|n names IH]; intros pre; simpl.
  - repeat split; auto.
  - specialize (fun x => IH (pre ++ [x])). 
    replace (length pre + 1) with (length (pre ++ [0%Z])) by (rewrite app_length; reflexivity).
    assert (IH' := IH 0%Z).
    destruct (split_names (length (pre ++ [0%Z])) names variables) as [[rn ri] ei] eqn:E.
    destruct IH' as (Hrn & Hri & _).
    assert (HP : forall x (key : list Z), length key = length names ->
       mapM (index_slice (pre ++ x :: key)) ri
         = Ok (map snd (filter (fun nv => negb (is_moved variables (fst nv))) (combine names key)))
       /\ mapM (index_slice (pre ++ x :: key)) ei
         = Ok (map snd (filter (fun nv => is_moved variables (fst nv)) (combine names key)))).
    { intros x key Hkey. specialize (IH x).
      replace (length (pre ++ [x])) with (length (pre ++ [0%Z])) in IH by (rewrite !app_length; reflexivity).
      rewrite E in IH. destruct IH as (_ & _ & IH).
      replace (pre ++ x :: key) with ((pre ++ [x]) ++ key) by (rewrite <- app_assoc; reflexivity).
      apply IH. assumption. }
    assert (Hat : forall x (key : list Z), index_slice (pre ++ x :: key) (length pre) = Ok x).
    { intros x key. apply index_slice_ok. rewrite nth_error_app2, Nat.sub_diag by lia. reflexivity. }
    rewrite is_moved_mem. destruct (is_moved variables n) eqn:Em; cbn [negb].
    + split; [assumption|]. split; [assumption|]. intros [|x key] Hkey; [discriminate|].
      simpl in Hkey. destruct (HP x key ltac:(lia)) as [H1 H2]. simpl. rewrite Em. cbn [negb].
      rewrite Hat. cbn [bind]. rewrite H1, H2. auto.
    + split; [congruence|]. split; [simpl; congruence|]. intros [|x key] Hkey; [discriminate|].
      simpl in Hkey. destruct (HP x key ltac:(lia)) as [H1 H2]. simpl. rewrite Em. cbn [negb].
      rewrite Hat. cbn [bind]. rewrite H1, H2. auto.
Qed.

Lemma split_names_0 variables names rn ri ei :
  split_names 0 names variables = (rn, ri, ei) ->
  rn = kept_names variables names
  /\ length ri = length rn
  /\ forall (key : list Z), length key = length names ->
       project key ri = Ok (kept_part variables names key)
       /\ project key ei = Ok (moved_part variables names key).
Proof. intros H. pose proof (split_names_spec variables names []) as G. simpl in G. rewrite H in G. exact G. Qed.

Lemma kept_part_length variables names key :
  length key = length names -> length (kept_part variables names key) = length (kept_names variables names).
Proof.
  unfold kept_part, kept_names, named. rewrite map_length.
  revert key; induction names as [|n names IH]; intros [|x key] H; simpl in *; try discriminate; [reflexivity|].
  destruct (is_moved variables n); simpl; rewrite IH by lia; reflexivity.
Qed.

Lemma moved_part_length variables names key :
  length key = length names ->
  length (moved_part variables names key) = length (filter (is_moved variables) names).
Proof.
  unfold moved_part, named. rewrite map_length.
  revert key; induction names as [|n names IH]; intros [|x key] H; simpl in *; try discriminate; [reflexivity|].
  destruct (is_moved variables n); simpl; rewrite IH by lia; reflexivity.
Qed.

(* the two parts determine the key *)
Lemma parts_inj variables names : forall k1 k2,
  length k1 = length names -> length k2 = length names ->
  kept_part variables names k1 = kept_part variables names k2 ->
  moved_part variables names k1 = moved_part variables names k2 -> k1 = k2.
Proof.
  unfold moved_part, kept_part, named.
  induction names as [|n names IH]; intros [|x k1] [|y k2] H1 H2; simpl in *; try discriminate; [reflexivity|].
  destruct (is_moved variables n); simpl; intros HA HB.
  - inversion HB; subst. f_equal. apply IH; auto; lia.
  - inversion HA; subst. f_equal. apply IH; auto; lia.
Qed.

Lemma new_key_parts_inj variables names k1 k2 :
  length k1 = length names -> length k2 = length names ->
  new_key variables names k1 = new_key variables names k2 ->
  moved_part variables names k1 = moved_part variables names k2 -> k1 = k2.
Proof.
  intros H1 H2 Hn Hm. apply (parts_inj variables names); auto.
  unfold new_key in Hn. destruct (kept_names variables names) as [|n ns] eqn:E; [|assumption].
  assert (K1 := kept_part_length variables names k1 H1). assert (K2 := kept_part_length variables names k2 H2).
  rewrite E in K1, K2. destruct (kept_part variables names k1); [|discriminate].
  destruct (kept_part variables names k2); [reflexivity|discriminate].
Qed.

(** * remove_variables_from_keys *)

Lemma kept_names_incl variables names n : In n (kept_names variables names) -> In n names.
Proof. unfold kept_names. intros H. apply filter_In in H. tauto. Qed.

Lemma kept_names_good variables names : good_names names -> good_names (kept_names variables names).
Proof.
  intros [H1 H2]. split.
  - rewrite Forall_forall in *. intros n Hn. apply H1. eapply kept_names_incl; eauto.
  - apply NoDup_filter. assumption.
Qed.

Lemma new_key_length variables names key :
  length key = length names -> length (new_key variables names key) = length (new_key_names variables names).
Proof.
  intros H. unfold new_key, new_key_names. pose proof (kept_part_length variables names key H) as K.
  destruct (kept_names variables names) as [|n ns]; [reflexivity|]. assumption.
Qed.

Lemma new_key_names_nonempty variables names : new_key_names variables names <> [].
Proof. unfold new_key_names. destruct (kept_names variables names); discriminate. Qed.

(* what the new keys are, for the keys of any tensor map *)
Definition new_keys_rows (keys : Labels) (variables : list string) : list (list Z) :=
  match kept_names variables (labels_names keys) with
  | [] => [[0%Z]]
  | _ => nub (map (new_key variables (labels_names keys)) (rows keys))
  end.

Lemma remove_variables_ok keys variables new_keys positions :
  axis_labels keys ->
  remove_variables_from_keys keys variables = Ok (new_keys, positions) ->
  (forall v, In v variables -> In v (labels_names keys))
  /\ is_labels new_keys (new_key_names variables (labels_names keys)) (new_keys_rows keys variables)
  /\ forall key, length key = length (labels_names keys) ->
       project key positions = Ok (moved_part variables (labels_names keys) key).
Proof.
  intros [Hwf Hne] H. unfold remove_variables_from_keys in H. bind_inv H.
  destruct a. rewrite check_variables_ok in Hb.
  destruct (split_names 0 (labels_names keys) variables) as [[rn ri] ei] eqn:Es.
  apply split_names_0 in Es as (Hrn & Hri & Hproj). bind_inv H. inversion H; subst a ei. clear H.
  split; [assumption|]. split; [|intros key Hk; apply Hproj; assumption].
  assert (Hnk : forall k, kept_names variables (labels_names keys) <> [] ->
     new_key variables (labels_names keys) k = kept_part variables (labels_names keys) k).
  { intros k Hk. unfold new_key. destruct (kept_names variables (labels_names keys)); [contradiction|reflexivity]. }
  unfold new_keys_rows, new_key_names.
  destruct ri as [|r0 ri].
  - simpl in Hri. symmetry in Hri. apply length_zero_iff_nil in Hri. rewrite Hri in Hrn. rewrite <- Hrn.
    unfold labels_single in Hb0. apply labels_build_is_labels in Hb0; [assumption|discriminate].
  - assert (Hkn : kept_names variables (labels_names keys) <> []).
    { rewrite <- Hrn. intros E. rewrite E in Hri. discriminate. }
    rewrite (proj2 (labels_iter_ok keys _ Hwf)) in Hb0 by (split; [assumption|reflexivity]). cbn [bind] in Hb0.
    rewrite (mapM_ok_map _ (new_key variables (labels_names keys))) in Hb0.
    2:{ intros k Hk. rewrite Hnk by assumption. apply Hproj. apply wf_rows_length; assumption. }
    cbn [bind] in Hb0. rewrite is_insert_all_nub in Hb0. rewrite Hrn in Hb0.
    destruct (kept_names variables (labels_names keys)) as [|n ns] eqn:E; [contradiction|].
    apply labels_build_is_labels in Hb0; [assumption|discriminate].
Qed.

Lemma new_keys_first_appearance keys variables :
  rows keys <> [] ->
  first_appearance (map (new_key variables (labels_names keys)) (rows keys)) (new_keys_rows keys variables).
Proof.
  intros Hne. unfold new_keys_rows. destruct (kept_names variables (labels_names keys)) as [|n ns] eqn:E.
  - apply first_appearance_constant.
    + intros H. apply map_eq_nil in H. contradiction.
    + apply Forall_forall. intros x Hx. apply in_map_iff in Hx as (k & <- & _). unfold new_key. rewrite E. reflexivity.
  - apply nub_first_appearance.
Qed.

(** * Groups of blocks *)

(* the blocks merged together for the new key [e], with the moved part of their
   key, in the order of the keys *)
Definition group (t : TensorMap) (variables : list string) (e : list Z) : list KeyAndBlock :=
  map (fun kb => (moved_part variables (labels_names (tm_keys t)) (fst kb), snd kb))
      (filter (fun kb => row_eqb (new_key variables (labels_names (tm_keys t)) (fst kb)) e)
              (combine (rows (tm_keys t)) (tm_blocks t))).

Lemma in_group t variables e k b :
  In (k, b) (group t variables e) <->
  exists i key, nth_error (rows (tm_keys t)) i = Some key /\ nth_error (tm_blocks t) i = Some b
    /\ new_key variables (labels_names (tm_keys t)) key = e
    /\ moved_part variables (labels_names (tm_keys t)) key = k.
Proof.
  unfold group. rewrite in_map_iff. split.
  - intros ([key b'] & E & H). simpl in E. inversion E; subst. apply filter_In in H as [H1 H2]. simpl in H2.
    apply row_eqb_eq in H2. apply In_nth_error in H1 as [i Hi]. apply nth_error_combine in Hi as [Hi1 Hi2].
    exists i, key. auto.
  - intros (i & key & H1 & H2 & H3 & H4). exists (key, b). simpl. split; [congruence|].
    apply filter_In. split.
    + apply (nth_error_In _ i). apply nth_error_combine. auto.
    + simpl. apply row_eqb_eq. assumption.
Qed.

Lemma NoDup_map_filter {A B} (f : A -> B) (g : A -> bool) l :
  (forall x y, In x l -> In y l -> g x = true -> g y = true -> f x = f y -> x = y) ->
  NoDup l -> NoDup (map f (filter g l)).
Proof.
  induction l as [|x l IH]; intros Hinj Hnd; simpl; [constructor|]. inversion Hnd; subst.
  assert (IH' : NoDup (map f (filter g l))) by (apply IH; auto; intros; apply Hinj; simpl; auto).
  destruct (g x) eqn:E; [|assumption]. simpl. constructor; [|assumption].
  intros Hin. apply in_map_iff in Hin as (y & Hy & Hin). apply filter_In in Hin as [Hy1 Hy2].
  assert (x = y) by (apply Hinj; simpl; auto). subst. contradiction.
Qed.

Lemma nodup_combine_l {A B} (l : list A) (r : list B) : NoDup l -> NoDup (combine l r).
Proof.
  intros H; revert r; induction H as [|x l Hx Hnd IH]; intros [|y r]; simpl; try constructor; auto.
  intros Hin. apply in_combine_l in Hin. contradiction.
Qed.

(* blocks merged together have different moved keys *)
Lemma group_keys_distinct t variables e :
  wf_tensor t -> NoDup (map fst (group t variables e)).
Proof.
  intros ([Hk Hkn] & Hb & Hlen & _). unfold group. rewrite map_map. simpl.
  apply NoDup_map_filter.
  - intros [k1 b1] [k2 b2] H1 H2 E1 E2 E. simpl in *. apply row_eqb_eq in E1, E2.
    assert (K : k1 = k2).
    { apply (new_key_parts_inj variables (labels_names (tm_keys t))); try congruence.
      - apply wf_rows_length; [assumption|]. eapply in_combine_l; eauto.
      - apply wf_rows_length; [assumption|]. eapply in_combine_l; eauto. }
    subst. f_equal.
    apply In_nth_error in H1 as [i Hi]. apply In_nth_error in H2 as [j Hj].
    apply nth_error_combine in Hi as [Hi1 Hi2]. apply nth_error_combine in Hj as [Hj1 Hj2].
    assert (i = j) by (eapply NoDup_nth_error_inj; [apply (wf_rows_NoDup _ Hk)| |]; eauto).
    subst. congruence.
  - apply nodup_combine_l. apply wf_rows_NoDup. assumption.
Qed.

Lemma group_keys_length t variables e k b :
  wf_tensor t -> In (k, b) (group t variables e) ->
  length k = length (filter (is_moved variables) (labels_names (tm_keys t))).
Proof.
  intros ([Hk Hkn] & _) H. apply in_group in H as (i & key & H1 & _ & _ & <-).
  apply moved_part_length. apply wf_rows_length; [assumption|]. eapply nth_error_In; eauto.
Qed.

Lemma group_blocks t variables e k b : In (k, b) (group t variables e) -> In b (tm_blocks t).
Proof. intros H. apply in_group in H as (i & key & _ & H & _). eapply nth_error_In; eauto. Qed.

Lemma filter_all_true {A} (f : A -> bool) l : (forall x, In x l -> f x = true) -> filter f l = l.
Proof.
  induction l as [|x l IH]; intros H; simpl; [reflexivity|].
  rewrite (H x) by (simpl; auto). f_equal. apply IH. intros; apply H; simpl; auto.
Qed.

Lemma all_blocks_group t variables positions e :
  wf_tensor t ->
  (forall key, length key = length (labels_names (tm_keys t)) ->
       project key positions = Ok (moved_part variables (labels_names (tm_keys t)) key)) ->
  (forall key, In key (rows (tm_keys t)) -> new_key variables (labels_names (tm_keys t)) key = e) ->
  all_blocks_to_merge t positions = Ok (group t variables e).
Proof.
  intros ([Hk Hkn] & Hb & Hlen & _) Hproj Hall. unfold all_blocks_to_merge.
  rewrite (proj2 (labels_iter_ok (tm_keys t) _ Hk)) by (split; [assumption|reflexivity]). cbn [bind].
  rewrite (mapM_ok_map _ (fun kb => (moved_part variables (labels_names (tm_keys t)) (fst kb), snd kb))).
  - unfold group. rewrite filter_all_true; [reflexivity|]. intros [k b] H. simpl. apply row_eqb_eq.
    apply Hall. eapply in_combine_l; eauto.
  - intros [k b] H. simpl. rewrite Hproj; [reflexivity|]. apply wf_rows_length; [assumption|].
    eapply in_combine_l; eauto.
Qed.

Lemma named_kept variables names key :
  length key = length names ->
  named (kept_names variables names) (kept_part variables names key)
  = filter (fun nv => negb (is_moved variables (fst nv))) (named names key).
Proof.
  unfold named, kept_names, kept_part, named.
  revert key; induction names as [|n names IH]; intros [|x key] H; simpl in *; try discriminate; [reflexivity|].
  destruct (is_moved variables n); simpl; rewrite IH by lia; reflexivity.
Qed.

Lemma matching_selected_group (t : TensorMap) (f : list Z -> bool) l :
  StronglySorted lt l ->
  (forall i, In i l <-> exists key, nth_error (rows (tm_keys t)) i = Some key /\ f key = true) ->
  length (tm_blocks t) = length (rows (tm_keys t)) ->
  Forall2 (fun i (kb : list Z * TensorBlock) => nth_error (rows (tm_keys t)) i = Some (fst kb) /\ nth_error (tm_blocks t) i = Some (snd kb))
    l (filter (fun kb => f (fst kb)) (combine (rows (tm_keys t)) (tm_blocks t))).
Proof.
  intros Hs Hin Hlen.
  set (ks := rows (tm_keys t)) in *. set (bs := tm_blocks t) in *. clearbody ks bs.
  assert (G : forall (ks' : list (list Z)) (bs' : list TensorBlock) off,
    length bs' = length ks' ->
    (forall i, In i l /\ off <= i <-> off <= i /\ exists key, nth_error ks' (i - off) = Some key /\ f key = true) ->
    Forall2 (fun i (kb : list Z * TensorBlock) => off <= i /\ nth_error ks' (i - off) = Some (fst kb) /\ nth_error bs' (i - off) = Some (snd kb))
      (filter (fun i => off <=? i) l) (filter (fun kb => f (fst kb)) (combine ks' bs'))).
  { induction ks' as [|k ks' IH]; intros [|b bs'] off Hl Hall; try discriminate.
    - simpl. replace (filter (fun i => off <=? i) l) with (@nil nat); [constructor|].
      symmetry. destruct (filter (fun i => off <=? i) l) as [|i r] eqn:E; [reflexivity|]. exfalso.
      assert (Hi : In i (filter (fun i => off <=? i) l)) by (rewrite E; simpl; auto).
      apply filter_In in Hi as [Hi1 Hi2]. apply Nat.leb_le in Hi2.
      destruct (proj1 (Hall i) (conj Hi1 Hi2)) as (_ & key & Hkey & _). destruct (i - off); discriminate.
    - assert (Hstep : filter (fun i => off <=? i) l
        = (if f k then [off] else []) ++ filter (fun i => S off <=? i) l).
      { apply sorted_lt_unique.
        - clear -Hs. induction Hs as [|x l Hs IH Hx]; simpl; [constructor|].
          destruct (off <=? x); [|assumption]. constructor; [assumption|].
          rewrite Forall_forall in *. intros y Hy. apply filter_In in Hy. apply Hx. tauto.
        - assert (Hs' : StronglySorted lt (filter (fun i => S off <=? i) l)).
          { clear -Hs. induction Hs as [|x l Hs IH Hx]; [constructor|]. cbn [filter].
            destruct (S off <=? x); [|assumption]. constructor; [assumption|].
            rewrite Forall_forall in *. intros y Hy. apply filter_In in Hy. apply Hx. tauto. }
          destruct (f k); [|assumption]. constructor; [assumption|]. apply Forall_forall. intros y Hy.
          apply filter_In in Hy as [_ Hy]. apply Nat.leb_le in Hy. lia.
        - intros i. rewrite in_app_iff, !filter_In, !Nat.leb_le. split.
          + intros [Hi Hoi]. destruct (Nat.eq_dec off i) as [<-|Hne]; [|right; split; [assumption|lia]].
            destruct (proj1 (Hall off) (conj Hi Hoi)) as (_ & key & Hkey & Hf). rewrite Nat.sub_diag in Hkey.
            simpl in Hkey. inversion Hkey; subst. rewrite Hf. simpl; auto.
          + intros [Hi|[Hi1 Hi2]]; [|split; [assumption|lia]].
            destruct (f k) eqn:Ef; [|destruct Hi]. destruct Hi as [<-|[]].
            apply Hall. split; [lia|]. exists k. rewrite Nat.sub_diag. auto. }
      rewrite Hstep.
      assert (IH' : Forall2 (fun i (kb : list Z * TensorBlock) => off <= i /\ nth_error (k :: ks') (i - off) = Some (fst kb)
                       /\ nth_error (b :: bs') (i - off) = Some (snd kb))
                (filter (fun i => S off <=? i) l) (filter (fun kb => f (fst kb)) (combine ks' bs'))).
      { assert (G : Forall2 (fun i (kb : list Z * TensorBlock) => S off <= i /\ nth_error ks' (i - S off) = Some (fst kb)
                       /\ nth_error bs' (i - S off) = Some (snd kb))
                (filter (fun i => S off <=? i) l) (filter (fun kb => f (fst kb)) (combine ks' bs'))).
        { apply IH; [simpl in Hl; lia|]. intros i. split.
          - intros [Hi Hoi]. split; [lia|]. destruct (proj1 (Hall i)) as (_ & key & Hkey & Hf); [split; [assumption|lia]|].
            replace (i - off) with (S (i - S off)) in Hkey by lia. eauto.
          - intros (Hoi & key & Hkey & Hf). split; [|lia]. apply Hall. split; [lia|].
            exists key. replace (i - off) with (S (i - S off)) by lia. auto. }
        eapply Forall2_impl; [|exact G]. simpl. intros i kb (H1 & H2 & H3). split; [lia|].
        replace (i - off) with (S (i - S off)) by lia. auto. }
      simpl (combine (k :: ks') (b :: bs')). cbn [filter fst]. destruct (f k); simpl app.
      + constructor; [|assumption]. rewrite Nat.sub_diag. simpl. auto.
      + assumption. }
  specialize (G ks bs 0 Hlen).
  rewrite filter_all_true in G by (intros; reflexivity).
  eapply Forall2_impl; [|apply G].
  - intros i kb (_ & H1 & H2). rewrite Nat.sub_0_r in *. auto.
  - intros i. rewrite Nat.sub_0_r, Hin. split; intros; [split; [lia|tauto]|split; [tauto|lia]].
Qed.

Lemma blocks_to_merge_group t variables positions e :
  wf_tensor t ->
  kept_names variables (labels_names (tm_keys t)) <> [] ->
  length e = length (kept_names variables (labels_names (tm_keys t))) ->
  (forall key, length key = length (labels_names (tm_keys t)) ->
       project key positions = Ok (moved_part variables (labels_names (tm_keys t)) key)) ->
  blocks_to_merge_for t positions (kept_names variables (labels_names (tm_keys t))) e
  = Ok (group t variables e).
Proof.
  intros Ht Hkn He Hproj. pose proof Ht as ([Hk Hn] & Hb & Hlen & _).
  set (names := labels_names (tm_keys t)) in *.
  assert (Hgood : good_names names) by (apply wf_names_good; assumption).
  unfold blocks_to_merge_for.
  assert (Hsel : exists s, labels_build (kept_names variables names) [e] = Ok s).
  { eexists. apply labels_build_ok. split; [apply kept_names_good; assumption|].
    split; [|reflexivity]. split; [constructor; [assumption|constructor]|].
    constructor; [intros []|constructor]. }
  destruct Hsel as [s Hs]. rewrite Hs. cbn [bind].
  pose proof (labels_build_wf _ _ _ Hs) as Hswf.
  apply (labels_build_is_labels _ _ _ Hkn) in Hs.
  pose proof (is_labels_names _ _ _ Hs) as En. pose proof (is_labels_rows _ _ _ Hs) as Er.
  destruct (blocks_matching_spec t s Ht Hswf) as [Hok _].
  destruct Hok as (l & El & Hsort & Hin).
  { right. rewrite En, Er. split; [reflexivity|]. intros n. apply kept_names_incl. }
  rewrite El. cbn [bind].
  assert (Hnk : forall k, new_key variables names k = kept_part variables names k).
  { intros k. unfold new_key. destruct (kept_names variables names); [contradiction|reflexivity]. }
  assert (Hin' : forall i, In i l <-> exists key, nth_error (rows (tm_keys t)) i = Some key
                          /\ row_eqb (new_key variables names key) e = true).
  { intros i. rewrite Hin. unfold selected. fold names. rewrite En, Er. split.
    - intros (key & Hkey & Hm). exists key. split; [assumption|]. apply row_eqb_eq. rewrite Hnk.
      assert (Hkl : length key = length names) by (apply wf_rows_length; [assumption|eapply nth_error_In; eauto]).
      symmetry. apply (named_full_eq (kept_names variables names)); try assumption.
      + apply kept_names_good. assumption.
      + apply kept_part_length. assumption.
      + intros n v Hnv. rewrite named_kept by assumption. apply filter_In. split.
        * apply (Hm e); simpl; auto.
        * simpl. apply in_named in Hnv as (j & Hj & _). apply nth_error_In in Hj.
          unfold kept_names in Hj. apply filter_In in Hj. tauto.
    - intros (key & Hkey & Heq). exists key. split; [assumption|]. apply row_eqb_eq in Heq. subst e.
      assert (Hkl : length key = length names) by (apply wf_rows_length; [assumption|eapply nth_error_In; eauto]).
      rewrite Hnk. intros row n v [<-|[]]. rewrite named_kept by assumption. intros H. apply filter_In in H. tauto. }
  pose proof (matching_selected_group t (fun k => row_eqb (new_key variables names k) e) l Hsort Hin' Hlen) as HF.
  apply mapM_ok. unfold group. fold names.
  clear -HF Hproj Hk Hn. induction HF as [|i kb l' r' [H1 H2] HF IH]; simpl; [constructor|].
  constructor; [|assumption].
  rewrite (proj2 (index_slice_ok _ _ _) H2). cbn [bind].
  rewrite (proj2 (labels_index_ok _ _ _ Hk Hn) H1). cbn [bind].
  rewrite Hproj; [reflexivity|]. apply wf_rows_length; [assumption|]. eapply nth_error_In; eauto.
Qed.

Lemma merged_blocks_ok t variables new_keys positions merge bs :
  wf_tensor t ->
  remove_variables_from_keys (tm_keys t) variables = Ok (new_keys, positions) ->
  (merged_blocks t new_keys positions merge = Ok bs <->
   Forall2 (fun e b => merge (group t variables e) = Ok b) (new_keys_rows (tm_keys t) variables) bs).
Proof.
  intros Ht Hrem. pose proof Ht as ([Hk Hn] & Hb & Hlen & _).
  destruct (remove_variables_ok _ _ _ _ (conj Hk Hn) Hrem) as (Hv & Hl & Hproj). clear Hrem.
  unfold merged_blocks.
  rewrite (is_labels_count _ _ _ Hl) by apply new_key_names_nonempty. cbn [bind].
  destruct (Nat.eqb_spec (length (new_keys_rows (tm_keys t) variables)) 1) as [E|E].
  - destruct (new_keys_rows (tm_keys t) variables) as [|e [|e' es]] eqn:Ee; try discriminate.
    rewrite (all_blocks_group t variables positions e Ht Hproj).
    + cbn [bind]. rewrite bind_ok. split.
      * intros (b & Hb1 & H). inversion H; subst. constructor; [assumption|constructor].
      * intros H. inversion H as [|? b ? bs' H1 H2]; subst. inversion H2; subst. eauto.
    + intros key Hkey. unfold new_keys_rows in Ee.
      destruct (kept_names variables (labels_names (tm_keys t))) as [|n ns] eqn:En.
      * inversion Ee. unfold new_key. rewrite En. reflexivity.
      * assert (Hin : In (new_key variables (labels_names (tm_keys t)) key)
                      (nub (map (new_key variables (labels_names (tm_keys t))) (rows (tm_keys t))))).
        { apply nub_In. apply in_map. assumption. }
        rewrite Ee in Hin. destruct Hin as [|[]]; congruence.
  - rewrite (is_labels_iter _ _ _ Hl) by apply new_key_names_nonempty. cbn [bind].
    rewrite (is_labels_names _ _ _ Hl).
    assert (Hkn : kept_names variables (labels_names (tm_keys t)) <> []).
    { intros En. apply E. unfold new_keys_rows. rewrite En. reflexivity. }
    replace (new_key_names variables (labels_names (tm_keys t))) with (kept_names variables (labels_names (tm_keys t))).
    2:{ unfold new_key_names. destruct (kept_names variables (labels_names (tm_keys t))); [contradiction|reflexivity]. }
    rewrite <- mapM_ok.
    rewrite (mapM_ext _ (fun e => merge (group t variables e))); [reflexivity|].
    intros e He. rewrite (blocks_to_merge_group t variables positions e Ht Hkn); auto.
    unfold new_keys_rows in He. destruct (kept_names variables (labels_names (tm_keys t))) as [|n ns] eqn:En; [contradiction|].
    rewrite nub_In in He. apply in_map_iff in He as (k & <- & Hkin).
    rewrite new_key_length by (apply wf_rows_length; assumption).
    unfold new_key_names. rewrite En. reflexivity.
Qed.

(* there is at least one block in the group of every new key *)
Lemma new_keys_rows_group t variables e :
  wf_tensor t -> tm_blocks t <> [] ->
  In e (new_keys_rows (tm_keys t) variables) -> group t variables e <> [].
Proof.
  intros ([Hk Hn] & Hb & Hlen & _) Hne He.
  assert (Hr : rows (tm_keys t) <> []).
  { intros E. rewrite E in Hlen. apply length_zero_iff_nil in Hlen. contradiction. }
  destruct (new_keys_first_appearance (tm_keys t) variables Hr) as (_ & Hin & _).
  apply Hin in He. apply in_map_iff in He as (key & <- & Hkey).
  apply In_nth_error in Hkey as [i Hi].
  assert (Hib : i < length (tm_blocks t)) by (rewrite Hlen; apply nth_error_Some; congruence).
  destruct (nth_error (tm_blocks t) i) as [b|] eqn:Eb; [|apply nth_error_None in Eb; lia].
  intros E. assert (Hin2 : In (moved_part variables (labels_names (tm_keys t)) key, b)
    (group t variables (new_key variables (labels_names (tm_keys t)) key))).
  { apply in_group. eauto 10. }
  rewrite E in Hin2. destruct Hin2.
Qed.

(** * Keys after a move *)

Lemma new_keys_after t variables new_keys positions merge bs :
  wf_tensor t ->
  remove_variables_from_keys (tm_keys t) variables = Ok (new_keys, positions) ->
  (forall b, merge [] <> Ok b) ->
  merged_blocks t new_keys positions merge = Ok bs ->
  (forall v, In v variables -> In v (labels_names (tm_keys t)))
  /\ labels_names new_keys = new_key_names variables (labels_names (tm_keys t))
  /\ first_appearance (map (new_key variables (labels_names (tm_keys t))) (rows (tm_keys t))) (rows new_keys)
  /\ rows new_keys = new_keys_rows (tm_keys t) variables
  /\ axis_labels new_keys.
Proof.
  intros Ht Hrem Hmerge Hbs. pose proof Ht as (Hk & Hb & Hlen & _).
  rewrite (merged_blocks_ok _ _ _ _ _ _ Ht Hrem) in Hbs.
  destruct (remove_variables_ok _ _ _ _ Hk Hrem) as (Hv & Hl & _).
  split; [assumption|]. split; [apply (is_labels_names _ _ _ Hl)|].
  rewrite (is_labels_rows _ _ _ Hl).
  split; [|split; [reflexivity|]].
  - destruct (rows (tm_keys t)) as [|k ks] eqn:Er.
    + unfold new_keys_rows in *. rewrite Er in *. destruct (kept_names variables (labels_names (tm_keys t))) as [|n ns].
      * exfalso. inversion Hbs as [|? b ? bs' H1 _]; subst. unfold group in H1. rewrite Er in H1. simpl in H1.
        eapply Hmerge; eauto.
      * apply nub_first_appearance.
    + rewrite <- Er. apply new_keys_first_appearance. congruence.
  - split; [exists (new_key_names variables (labels_names (tm_keys t))), (new_keys_rows (tm_keys t) variables); assumption|].
    rewrite (is_labels_names _ _ _ Hl). apply new_key_names_nonempty.
Qed.

Lemma keys_to_samples_inv p t keys sort t' :
  keys_to_samples p t keys sort = (t', Ok tt) ->
  exists new_keys positions bs,
    remove_variables_from_keys (tm_keys t) (labels_names keys) = Ok (new_keys, positions)
    /\ labels_count keys = Ok 0
    /\ merged_blocks t new_keys positions (fun bs => merge_blocks_along_samples p bs (labels_names keys) sort) = Ok bs
    /\ t' = mk_tensor new_keys bs.
Proof.
  unfold keys_to_samples. destruct (keys_to_samples_compute p t keys sort) as [[nk bs]| | |] eqn:E; try discriminate.
  intros H. inversion H; subst. unfold keys_to_samples_compute in E. bind_inv E.
  destruct (0 <? a) eqn:E0; [discriminate|]. apply Nat.ltb_ge in E0. assert (a = 0) by lia. subst a.
  bind_inv E. destruct a as [nk' pos]. bind_inv E. inversion E; subst. eauto 10.
Qed.

Lemma keys_to_properties_inv p t keys sort t' :
  keys_to_properties p t keys sort = (t', Ok tt) ->
  exists new_keys positions count bs,
    remove_variables_from_keys (tm_keys t) (labels_names keys) = Ok (new_keys, positions)
    /\ labels_count keys = Ok count
    /\ merged_blocks t new_keys positions (fun bs => merge_blocks_along_properties p bs
         (if count =? 0 then None else Some keys) (labels_names keys) sort) = Ok bs
    /\ t' = mk_tensor new_keys bs.
Proof.
  unfold keys_to_properties. destruct (keys_to_properties_compute p t keys sort) as [[nk bs]| | |] eqn:E; try discriminate.
  intros H. inversion H; subst. unfold keys_to_properties_compute in E. bind_inv E.
  destruct a as [nk' pos]. bind_inv E. bind_inv E. inversion E; subst. eauto 10.
Qed.

Lemma keys_to_samples_keys p t keys sort t' :
  wf_tensor t -> keys_to_samples p t keys sort = (t', Ok tt) ->
  labels_names (tm_keys t') = new_key_names (labels_names keys) (labels_names (tm_keys t))
  /\ first_appearance (map (new_key (labels_names keys) (labels_names (tm_keys t))) (rows (tm_keys t)))
       (rows (tm_keys t')).
Proof.
  intros Ht H. apply keys_to_samples_inv in H as (nk & pos & bs & Hrem & _ & Hm & ->). simpl.
  refine (match new_keys_after _ _ _ _ _ _ Ht Hrem _ Hm with conj _ (conj H1 (conj H2 _)) => conj H1 H2 end).
  intros b H. discriminate H.
Qed.

Lemma keys_to_properties_keys p t keys sort t' :
  wf_tensor t -> keys_to_properties p t keys sort = (t', Ok tt) ->
  labels_names (tm_keys t') = new_key_names (labels_names keys) (labels_names (tm_keys t))
  /\ first_appearance (map (new_key (labels_names keys) (labels_names (tm_keys t))) (rows (tm_keys t)))
       (rows (tm_keys t')).
Proof.
  intros Ht H. apply keys_to_properties_inv in H as (nk & pos & c & bs & Hrem & _ & Hm & ->). simpl.
  refine (match new_keys_after _ _ _ _ _ _ Ht Hrem _ Hm with conj _ (conj H1 (conj H2 _)) => conj H1 H2 end).
  intros b H. discriminate H.
Qed.

Lemma keys_to_samples_frame p t keys sort t' result :
  keys_to_samples p t keys sort = (t', result) -> result <> Ok tt -> t' = t.
Proof.
  unfold keys_to_samples. destruct (keys_to_samples_compute p t keys sort) as [[nk bs]| | |];
    intros H Hr; inversion H; subst; congruence.
Qed.

Lemma keys_to_properties_frame p t keys sort t' result :
  keys_to_properties p t keys sort = (t', result) -> result <> Ok tt -> t' = t.
Proof.
  unfold keys_to_properties. destruct (keys_to_properties_compute p t keys sort) as [[nk bs]| | |];
    intros H Hr; inversion H; subst; congruence.
Qed.
