(* Lemmas about Tensor.v: merging a group of blocks *)
From Coq Require Import Permutation Sorted.
From Verif Require Import Base BaseFacts LayoutFacts Labels Array Block Tensor Spec SpecTensor LabelsFacts ArrayFacts BlockFacts TensorFacts KeysFacts MergeFacts GroupFacts.
Local Open Scope string_scope.
Local Open Scope list_scope.
Local Open Scope nat_scope.

(** * Merging samples *)

Definition block_samples (kb : KeyAndBlock) : list (list Z) := rows (bb_samples (tb_values (snd kb))).

(* all the samples of the blocks, block after block *)
Definition all_samples (add : bool) (blocks : list KeyAndBlock) : list (list Z) :=
  flat_map (fun kb => map (extend add (fst kb)) (block_samples kb)) blocks.

Lemma block_samples_axis (kb : KeyAndBlock) : wf_block (snd kb) -> axis_labels (bb_samples (tb_values (snd kb))).
Proof. intros (Hv & _). apply (wf_basic_axes _ Hv). Qed.

Lemma extended_samples_ok add (kb : KeyAndBlock) :
  wf_block (snd kb) -> extended_samples add kb = Ok (map (extend add (fst kb)) (block_samples kb)).
Proof.
  intros H. pose proof (block_samples_axis _ H) as [Hwf Hne]. destruct kb as [k b]. unfold extended_samples. simpl in *.
  rewrite (proj2 (labels_iter_ok _ _ Hwf)) by (split; [assumption|reflexivity]). reflexivity.
Qed.

Lemma merge_samples_ok k0 b0 rest names sort merged maps :
  Forall (fun kb : KeyAndBlock => wf_block (snd kb)) ((k0, b0) :: rest) -> names <> [] ->
  let blocks := (k0, b0) :: rest in
  let add := length (labels_names (bb_samples (tb_values b0))) <? length names in
  merge_samples blocks names sort = Ok (merged, maps) ->
  is_labels merged names (if sort then sort_rows (nub (all_samples add blocks)) else nub (all_samples add blocks))
  /\ Forall2 (fun kb ms => mapping_for (rows merged) (map (extend add (fst kb)) (block_samples kb)) ms) blocks maps.
Proof.
  intros Hwf Hne blocks add H. unfold merge_samples in H.
  change (index_slice blocks 0) with (Ok (k0, b0) : outcome KeyAndBlock) in H. cbn [bind snd] in H. change (labels_size (bb_samples (tb_values b0)) <? length names) with add in H.
  rewrite (mapM_ok_map _ (fun kb => map (extend add (fst kb)) (block_samples kb))) in H.
  2:{ intros kb Hin. apply extended_samples_ok. rewrite Forall_forall in Hwf. apply Hwf. exact Hin. }
  cbn [bind] in H. rewrite is_insert_all_nub in H. rewrite <- flat_map_concat_map in H. fold (all_samples add blocks) in H.
  bind_inv H. bind_inv H. inversion H; subst a a0. clear H.
  pose proof (labels_build_wf _ _ _ Hb) as Hw. apply (labels_build_is_labels _ _ _ Hne) in Hb.
  split; [assumption|]. apply mapM_ok in Hb0.
  clear Hb. revert Hb0. generalize maps. clear maps Hwf.
  induction blocks as [|kb blocks IH]; intros maps Hm; simpl in Hm; inversion Hm as [|? ms ? maps' H1 H2]; subst; constructor.
  - apply samples_mapping_ok; assumption.
  - apply IH. assumption.
Qed.

Lemma merged_rows (sort : bool) l x : In x (if sort then sort_rows (nub l) else nub l) <-> In x l.
Proof. destruct sort; [rewrite sort_rows_In|]; apply nub_In. Qed.

(** * Merging gradient samples *)

Lemma label_usize_small p v a : label_usize p v = Ok a -> (a < 2 ^ 63)%Z -> a = v.
Proof.
  unfold label_usize. destruct (v <? 0)%Z; [|intros H _; congruence]. destruct p; [discriminate|].
  intros H Ha. exfalso. pose proof (Z.mod_pos_bound v (2 ^ 31) eq_refl) as Hm.
  set (m := (v mod 2 ^ 31)%Z) in *. clearbody m.
  assert (E : (2 ^ 64 - 2 ^ 31 + m)%Z = a)
    by exact (f_equal (fun o => match o with Ok z => z | _ => 0%Z end) H).
  clear H. subst a. change (2 ^ 64)%Z with 18446744073709551616%Z in Ha.
  change (2 ^ 31)%Z with 2147483648%Z in *. change (2 ^ 63)%Z with 9223372036854775808%Z in Ha. lia.
Qed.

Lemma translate_ok p ms row row' :
  translate_gradient_sample p ms row = Ok row' ->
  exists i rest m, row = Z.of_nat i :: rest /\ nth_error ms i = Some m /\ row' = Z.of_nat (sm_output m) :: rest.
Proof.
  unfold translate_gradient_sample. intros H. bind_inv H. apply index_slice_ok in Hb.
  destruct row as [|r0 rest]; [discriminate|]. simpl in Hb. inversion Hb; subst a. clear Hb.
  bind_inv H. bind_inv H. bind_inv H. bind_inv H. inversion H; subst row'. clear H.
  unfold index_slice_Z in Hb0. destruct (_ && _ && _)%bool eqn:E; [|discriminate].
  apply andb_true_iff in E as [E E3]. apply andb_true_iff in E as [E1 E2].
  apply Z.leb_le in E1. apply Z.ltb_lt in E2, E3. apply index_slice_ok in Hb0.
  assert (a = r0) by (apply (label_usize_small p); assumption). clear E3.
  subst a. exists (Z.to_nat r0), rest, a0. rewrite Z2Nat.id by lia. split; [reflexivity|]. split; [assumption|].
  unfold label_from_usize in Hb2. destruct (_ <? _)%Z; [|discriminate]. inversion Hb2. reflexivity.
Qed.

(* the gradient of one part, and its samples after translation *)
Definition translated (p : profile) (q : string) (b : TensorBlock) (ms : list sample_mapping)
    (g : BasicBlock) (tr : list (list Z)) : Prop :=
  tensor_block_gradient b q = Some g
  /\ mapM (translate_gradient_sample p ms) (rows (bb_samples g)) = Ok tr.

Lemma translated_fun p q b ms g tr g' tr' :
  translated p q b ms g tr -> translated p q b ms g' tr' -> g = g' /\ tr = tr'.
Proof.
  intros [H1 H2] [H3 H4]. assert (g = g') by congruence. subst g'. split; [reflexivity|]. congruence.
Qed.

Lemma gradient_axis b q g :
  wf_block b -> tensor_block_gradient b q = Some g -> axis_labels (bb_samples g).
Proof.
  intros Hwf Hg. apply gradient_In in Hg. apply (wf_block_gradient _ _ _ Hwf) in Hg as (Hg & _).
  apply (wf_basic_axes _ Hg).
Qed.

Lemma merge_gradient_samples_ok p blocks q maps samples :
  Forall (fun kb : KeyAndBlock => wf_block (snd kb)) blocks -> length maps = length blocks ->
  merge_gradient_samples p blocks q maps = Ok samples ->
  exists gts, Forall2 (fun kbm gt => translated p q (snd (fst kbm)) (snd kbm) (fst gt) (snd gt)) (combine blocks maps) gts
    /\ wf_labels samples
    /\ StronglySorted row_lt (rows samples)
    /\ (forall row, In row (rows samples) <-> exists gt, In gt gts /\ In row (snd gt))
    /\ exists gt, nth_error gts 0 = Some gt /\ labels_names samples = labels_names (bb_samples (fst gt)).
Proof.
  intros Hwf Hlen H. unfold merge_gradient_samples in H. bind_inv H. destruct a as [names set].
  bind_inv H. apply expect_some_ok in Hb0. subst names.
  enough (G : forall l n0 s0 names set,
    Forall (fun kbm : KeyAndBlock * list sample_mapping => wf_block (snd (fst kbm))) l ->
    StronglySorted row_lt s0 ->
    foldM (fun (state : option (list string) * list (list Z)) kbm =>
      let '(names, set) := state in
      let '((_, block), samples_mapping) := kbm in
      let? gradient := expect_some "missing gradient" (tensor_block_gradient block q) in
      let names := match names with
                   | None => Some (labels_names (bb_samples gradient))
                   | some => some
                   end in
      let? rows := labels_iter (bb_samples gradient) in
      let? translated := mapM (translate_gradient_sample p samples_mapping) rows in
      Ok (names, fold_left btree_insert translated set)) l (n0, s0) = Ok (names, set) ->
    exists gts, Forall2 (fun kbm gt => translated p q (snd (fst kbm)) (snd kbm) (fst gt) (snd gt)) l gts
      /\ StronglySorted row_lt set
      /\ (forall row, In row set <-> In row s0 \/ exists gt, In gt gts /\ In row (snd gt))
      /\ match n0 with
         | Some _ => names = n0
         | None => match gts with [] => names = None | gt :: _ => names = Some (labels_names (bb_samples (fst gt))) end
         end).
  { apply G in Hb as (gts & H1 & H2 & H3 & H4); [| |constructor].
    2:{ apply Forall_forall. intros [kb ms] Hin. apply in_combine_l in Hin. rewrite Forall_forall in Hwf. apply Hwf. assumption. }
    destruct gts as [|gt gts]; [discriminate|]. inversion H4; subst a. clear H4.
    assert (Hax : axis_labels (bb_samples (fst gt))).
      { inversion H1 as [|kbm ? l ? [Hg _] _ El]; subst.
        apply (gradient_axis (snd (fst kbm)) q); [|assumption].
        rewrite Forall_forall in Hwf. apply Hwf. destruct kbm as [kb ms]. simpl.
        apply (in_combine_l blocks maps kb ms). rewrite <- El. simpl; auto. }
      destruct Hax as [Hw Hne].
      pose proof (labels_build_wf _ _ _ H) as Hwm. apply (labels_build_is_labels _ _ _ Hne) in H.
      exists (gt :: gts). split; [assumption|]. split; [assumption|].
      rewrite (is_labels_rows _ _ _ H). split; [assumption|]. split.
      + intros row. rewrite H3. split; [intros [[]|Hx]; assumption|tauto].
      + exists gt. split; [reflexivity|]. apply (is_labels_names _ _ _ H). }
  clear. induction l as [|[[k b] ms] l IH]; intros n0 s0 names set Hwf Hs H.
  - simpl in H. inversion H; subst. exists []. split; [constructor|]. split; [assumption|]. split.
    + intros row. split; [auto|]. intros [Hr|(gt & [] & _)]; assumption.
    + destruct names; reflexivity.
  - cbn [foldM] in H. apply bind_ok in H as ([n1 s1] & H1 & H).
    bind_inv H1. apply expect_some_ok in Hb. bind_inv H1. bind_inv H1. inversion H1; subst n1 s1. clear H1.
    inversion Hwf as [|? ? Hwb Hwl]; subst. simpl in Hwb.
    destruct (gradient_axis _ _ _ Hwb Hb) as [Hw Hne].
    apply (labels_iter_ok _ _ Hw) in Hb0 as [_ ->].
    destruct (IH _ _ _ _ Hwl (fold_btree_insert_sorted _ _ Hs) H) as (gts & F & Hss & Hin & Hn).
    exists ((a, a1) :: gts). split; [constructor; [split; assumption|assumption]|]. split; [assumption|]. split.
    + intros row. rewrite Hin, fold_btree_insert_In. simpl. split.
      * intros [[Hr|Hr]|(gt & Hg & Hr)]; [auto| |]; right; [exists (a, a1)|exists gt]; auto.
      * intros [Hr|(gt & [<-|Hg] & Hr)]; [auto|auto|]. right. eauto.
    + destruct n0 as [n0|]; [|exact Hn]. assumption.
Qed.

Lemma gradient_samples_to_move_ok p samples ms0 rs : forall start ms,
  wf_labels samples ->
  gradient_samples_to_move p start samples ms0 rs = Ok ms ->
  exists tr, mapM (translate_gradient_sample p ms0) rs = Ok tr
    /\ length ms = length tr
    /\ forall i m, nth_error ms i = Some m ->
         sm_input m = start + i /\ exists r, nth_error tr i = Some r /\ nth_error (rows samples) (sm_output m) = Some r.
Proof.
  induction rs as [|r rs IH]; intros start ms Hwf H; simpl in H.
  - inversion H; subst. exists []. split; [reflexivity|]. split; [reflexivity|]. intros [|i] m; discriminate.
  - bind_inv H. bind_inv H. bind_inv H. bind_inv H. inversion H; subst ms. clear H.
    apply expect_some_ok in Hb1. subst a0. apply (labels_position_ok _ _ _ Hwf) in Hb0.
    destruct (IH _ _ Hwf Hb2) as (tr & Htr & Hl & Hm).
    exists (a :: tr). split; [simpl; rewrite Hb; cbn [bind]; rewrite Htr; reflexivity|].
    split; [simpl; congruence|]. intros [|i] m Hi; simpl in Hi.
    + inversion Hi; subst m. simpl. split; [lia|]. eauto.
    + apply Hm in Hi as [E Hr]. split; [lia|]. assumption.
Qed.

Lemma mapping_exists merged sources :
  (forall r, In r sources -> In r merged) -> exists ms, mapping_for merged sources ms.
Proof.
  intros H. induction sources as [|r sources IH] using rev_ind.
  - exists []. split; [reflexivity|]. intros [|i] m; discriminate.
  - destruct IH as (ms & Hl & Hm). { intros r' Hr'. apply H. apply in_or_app; auto. }
    destruct (In_nth_error merged r) as [j Hj]. { apply H. apply in_or_app; simpl; auto. }
    exists (ms ++ [mk_mapping (length ms) j]). split; [rewrite !app_length; simpl; lia|].
    intros i m Hi. destruct (lt_dec i (length ms)) as [Hlt|Hge].
    + rewrite nth_error_app1 in Hi by assumption. destruct (Hm _ _ Hi) as (E & r' & H1 & H2).
      split; [assumption|]. exists r'. split; [|assumption]. rewrite nth_error_app1; [assumption|].
      apply nth_error_Some. congruence.
    + rewrite nth_error_app2 in Hi by lia. destruct (i - length ms) as [|n] eqn:En; [|destruct n; discriminate].
      simpl in Hi. inversion Hi; subst m. simpl. split; [lia|]. exists r. split; [|assumption].
      rewrite nth_error_app2 by lia. replace (i - length sources) with 0 by lia. reflexivity.
Qed.

(** * Arrays *)

Lemma nd_move_loop_wf start stop input ms : forall output nd,
  wf_nd output -> nd_move_loop start stop input output ms = Some nd -> wf_nd nd.
Proof.
  induction ms as [|m ms IH]; intros output nd Hw H; simpl in H; [congruence|].
  destruct (nd_move_one start stop input output m) as [o|] eqn:E; [|discriminate].
  apply (IH o); [|assumption]. unfold nd_move_one in E.
  destruct (nd_shape input); [discriminate|]. destruct (nd_shape output); [discriminate|].
  destruct (_ && _)%bool; [|discriminate]. inversion E. apply nd_tabulate_wf.
Qed.

Lemma array_move_wf output input ms start stop output' :
  wf_array output -> array_move_samples_from output input ms start stop = Ok output' -> wf_array output'.
Proof.
  intros Hw H. apply array_move_ok in H as ([Hk Hne] & nd & Hnd & ->).
  unfold nd_move_samples in Hnd. destruct (_ <? _); [discriminate|]. apply wf_nd_array; simpl.
  - apply (nd_move_loop_wf _ _ _ _ _ _ (wf_array_nd _ Hw Hne) Hnd).
  - intros H. rewrite (proj2 Hw H). unfold shape_of. simpl. rewrite (nd_move_loop_shape _ _ _ _ _ _ Hnd). reflexivity.
Qed.

Lemma array_create_ok a shape s0 :
  array_create a shape = Ok s0 ->
  a_kind s0 = a_kind a /\ shape_of s0 = shape /\ wf_array s0
  /\ (a_kind a <> RustEmptyArray -> wf_nd (a_nd s0) /\ forall idx, nd_get (a_nd s0) idx = 0%Z).
Proof.
  unfold array_create. destruct (a_kind a) eqn:E; intros H.
  - apply call_ok in H as [H _]. inversion H; subst s0. simpl. split; [assumption|]. split; [reflexivity|].
    split; [apply wf_nd_array; [apply nd_zeros_wf|intros _; apply default_strides_length]|]. intros _. split; [apply nd_zeros_wf|apply nd_get_zeros].
  - inversion H; subst s0. simpl. split; [reflexivity|]. split; [reflexivity|]. split; [|congruence].
    split; simpl; intros Hk; congruence.
  - apply call_ok in H as [H _]. inversion H; subst s0. simpl. split; [assumption|]. split; [reflexivity|].
    split; [apply wf_nd_array; [apply nd_zeros_wf|intros _; apply default_strides_length]|]. intros _. split; [apply nd_zeros_wf|apply nd_get_zeros].
Qed.

Lemma set_slice_first {A} (n n' : A) l shape : set_slice (n :: l) 0 n' = Ok shape -> shape = n' :: l.
Proof. intros H. apply set_slice_ok in H as [_ ->]. reflexivity. Qed.

Lemma set_slice_last {A} (n : A) l x y shape :
  set_slice (n :: l ++ [x]) (length (n :: l ++ [x]) - 1) y = Ok shape -> shape = n :: l ++ [y].
Proof.
  intros H. apply set_slice_ok in H as [_ ->]. simpl. rewrite app_length. simpl.
  replace (length l + 1 - 0) with (S (length l)) by lia. simpl. f_equal.
  induction l as [|z l IH]; simpl; [reflexivity|]. f_equal. assumption.
Qed.

(** * Adding the gradients *)

Lemma add_merged_gradient_ok nb q data samples components nb' :
  add_merged_gradient nb q data samples components = Ok nb' ->
  nb' = mk_block (tb_values nb)
          (tb_gradients nb ++ [(q, mk_basic data samples components (bb_properties (tb_values nb)))])
          (tb_gradient_parameters nb ++ [q])
  /\ tensor_block_add_gradient nb q data samples components = (nb', Ok tt).
Proof.
  unfold add_merged_gradient.
  destruct (tensor_block_add_gradient nb q data samples components) as [b r] eqn:E. intros H.
  bind_inv H. apply expect_ok in Hb. subst r. inversion H; subst b. destruct a. split; [|reflexivity].
  unfold tensor_block_add_gradient in E. destruct (check_gradient nb q data samples components); try discriminate.
  unfold cstring_new in E. destruct (has_nul q); [discriminate|]. inversion E. reflexivity.
Qed.

Lemma gradient_loop (step : TensorBlock -> string * BasicBlock -> outcome TensorBlock)
    (made : string -> BasicBlock -> BasicBlock -> Prop) P gradients : forall nb nb',
  (forall nb q g nb', In (q, g) gradients -> step nb (q, g) = Ok nb' ->
     exists data samples, wf_array data /\ wf_labels samples /\ Forall wf_labels (bb_components g)
       /\ add_merged_gradient nb q data samples (bb_components g) = Ok nb'
       /\ made q g (mk_basic data samples (bb_components g) P)) ->
  bb_properties (tb_values nb) = P -> reachable_block nb ->
  foldM step gradients nb = Ok nb' ->
  reachable_block nb' /\ tb_values nb' = tb_values nb
  /\ exists news, tb_gradients nb' = tb_gradients nb ++ news
      /\ Forall2 (fun qg qn => fst qg = fst qn /\ made (fst qg) (snd qg) (snd qn)) gradients news.
Proof.
  induction gradients as [|[q g] gradients IH]; intros nb nb' Hstep HP Hr H; simpl in H.
  - inversion H; subst. split; [assumption|]. split; [reflexivity|]. exists []. rewrite app_nil_r. split; [reflexivity|constructor].
  - apply bind_ok in H as (nb1 & H1 & H).
    destruct (Hstep nb q g nb1 (or_introl eq_refl) H1) as (data & samples & Hwa & Hws & Hwc & Hadd & Hmade).
    apply add_merged_gradient_ok in Hadd as [E Hadd].
    assert (Hr1 : reachable_block nb1).
    { eapply reachable_add; [exact Hr|exact Hwa|exact Hws|exact Hwc|exact Hadd|discriminate]. }
    destruct (IH nb1 nb') as (Hr2 & Hv & news & Hg & HF); auto.
    { intros nb0 q0 g0 nb0' Hin. apply Hstep. right; assumption. }
    { rewrite E. assumption. }
    split; [assumption|]. split; [rewrite Hv, E; reflexivity|].
    exists ((q, mk_basic data samples (bb_components g) P) :: news). split.
    + rewrite Hg, E. simpl. rewrite HP, <- app_assoc. reflexivity.
    + constructor; [split; [reflexivity|assumption]|assumption].
Qed.

Definition grad_move (p : profile) (q : string) (components : list Labels) (samples : Labels)
    (output : eqs_array) (x : part) : outcome eqs_array :=
  match part_range x with
  | Some (start, stop) =>
      move_gradient p q components samples (part_block x) (part_mapping x) start stop output
  | None => Ok output
  end.

Definition part_kb (x : part) : KeyAndBlock := fst (fst x).

(* how the gradient [newg] of the merged block was computed *)
Definition made_gradient (p : profile) (first : BasicBlock) (parts : list part) (P : Labels)
    (q : string) (g0 newg : BasicBlock) : Prop :=
  merge_gradient_samples p (map part_kb parts) q (map part_mapping parts) = Ok (bb_samples newg)
  /\ bb_components newg = bb_components g0
  /\ bb_properties newg = P
  /\ exists s0, array_create (bb_data first)
       (length (rows (bb_samples newg)) :: map (fun l => length (rows l)) (bb_components g0) ++ [length (rows P)]) = Ok s0
     /\ foldM (grad_move p q (bb_components g0) (bb_samples newg)) parts s0 = Ok (bb_data newg).

Lemma grad_move_wf p q components samples output x output' :
  wf_array output -> grad_move p q components samples output x = Ok output' -> wf_array output'.
Proof.
  intros Hw H. unfold grad_move in H. destruct (part_range x) as [[start stop]|]; [|inversion H; subst; assumption].
  unfold move_gradient in H. bind_inv H. bind_inv H. bind_inv H. bind_inv H.
  eapply array_move_wf; eauto.
Qed.

Lemma grad_moves_wf p q components samples parts output output' :
  wf_array output -> foldM (grad_move p q components samples) parts output = Ok output' -> wf_array output'.
Proof.
  intros Hw H. apply (foldM_inv _ wf_array) in H; auto.
  intros s x s' _ Hs Hst. eapply grad_move_wf; eauto.
Qed.

(** * The gradients of a merged block *)

Section Merged.
  Variables (p : profile) (add pre : bool) (parts : list part) (nb : TensorBlock) (x0 : part).
  Let new := tb_values nb.
  Let first := tb_values (part_block x0).

  Hypothesis Hx0 : nth_error parts 0 = Some x0.
  Hypothesis Hnb : wf_block nb.
  Hypothesis Hwf : Forall (fun x => wf_block (part_block x)) parts.
  Hypothesis Hmap : Forall (fun x => mapping_for (rows (bb_samples new)) (part_samples add x) (part_mapping x)) parts.
  Hypothesis Hprop : Forall (part_properties pre (rows (bb_properties new))) parts.
  Hypothesis Hdis : disjoint_parts add parts.
  Hypothesis Hle : forall x start stop, In x parts -> part_range x = Some (start, stop) ->
     stop <= length (rows (bb_properties new)).
  Hypothesis Hkind : a_kind (bb_data first) <> RustEmptyArray.
  Hypothesis Hgrads : Forall2 (fun qg qn => fst qg = fst qn
     /\ made_gradient p first parts (bb_properties new) (fst qg) (snd qg) (snd qn))
     (tb_gradients (part_block x0)) (tb_gradients nb).
  Hypothesis Hsame : forall x1 x2, In x1 parts -> In x2 parts -> same_gradient_names (part_block x1) (part_block x2).

  Lemma x0_in : In x0 parts.
  Proof. eapply nth_error_In; eauto. Qed.

  Lemma merged_gradient_source q newg :
    In (q, newg) (tb_gradients nb) ->
    exists g0, In (q, g0) (tb_gradients (part_block x0)) /\ made_gradient p first parts (bb_properties new) q g0 newg.
  Proof.
    intros H. destruct (Forall2_In_r _ _ _ _ Hgrads H) as ([q' g0] & Hin & E & Hm). simpl in *. subst q'. eauto.
  Qed.

  Lemma merged_gradient_target x q g :
    In x parts -> In (q, g) (tb_gradients (part_block x)) -> exists newg, In (q, newg) (tb_gradients nb).
  Proof.
    intros Hx Hg. destruct (Hsame x x0 Hx x0_in q g Hg) as (g0 & Hg0 & _).
    destruct (Forall2_In_l _ _ _ _ Hgrads Hg0) as ([q' newg] & Hin & E & _). simpl in *. subst q'. eauto.
  Qed.

  Lemma part_blocks_wf : Forall (fun kb : KeyAndBlock => wf_block (snd kb)) (map part_kb parts).
  Proof.
    apply Forall_forall. intros kb Hin. apply in_map_iff in Hin as (x & <- & Hx).
    rewrite Forall_forall in Hwf. apply (Hwf x Hx).
  Qed.

  Lemma combine_map_map {A B C} (f : A -> B) (g : A -> C) l : combine (map f l) (map g l) = map (fun x => (f x, g x)) l.
  Proof. induction l as [|a l IH]; simpl; [reflexivity|]. rewrite IH. reflexivity. Qed.

  (* translated samples of all the parts *)
  Lemma made_translated q g0 newg :
    made_gradient p first parts (bb_properties new) q g0 newg ->
    exists gts, Forall2 (fun x gt => translated p q (part_block x) (part_mapping x) (fst gt) (snd gt)) parts gts
      /\ wf_labels (bb_samples newg)
      /\ StronglySorted row_lt (rows (bb_samples newg))
      /\ (forall row, In row (rows (bb_samples newg)) <-> exists gt, In gt gts /\ In row (snd gt))
      /\ exists gt, nth_error gts 0 = Some gt /\ labels_names (bb_samples newg) = labels_names (bb_samples (fst gt)).
  Proof.
    intros (Hm & _). apply merge_gradient_samples_ok in Hm as (gts & HF & H); [|apply part_blocks_wf|rewrite !map_length; reflexivity].
    exists gts. split; [|assumption]. rewrite combine_map_map in HF.
    clear - HF. revert gts HF. induction parts as [|x l IH]; intros gts HF; simpl in HF; inversion HF; subst; constructor; auto.
  Qed.

  Lemma translated_translates x q g tr :
    In x parts -> translated p q (part_block x) (part_mapping x) g tr ->
    Forall2 (translates x) (rows (bb_samples g)) tr.
  Proof.
    intros Hx [_ Hm]. apply mapM_ok in Hm. eapply Forall2_impl; [|exact Hm]. intros row row' H. simpl in H.
    apply translate_ok in H. exact H.
  Qed.

  (* the fold over the parts, seen as a list of moves *)
  Lemma made_items q g0 newg :
    In (q, g0) (tb_gradients (part_block x0)) ->
    made_gradient p first parts (bb_properties new) q g0 newg ->
    exists s0 its,
      array_create (bb_data first)
        (length (rows (bb_samples newg)) :: map (fun l => length (rows l)) (bb_components g0) ++ [length (rows (bb_properties new))]) = Ok s0
      /\ foldM move_step its s0 = Ok (bb_data newg)
      /\ Forall2 (fun x it => exists g, translated p q (part_block x) (part_mapping x) g (it_sources it)
           /\ it_input it = bb_data g /\ it_range it = part_range x
           /\ mapping_for (rows (bb_samples newg)) (it_sources it) (it_mapping it)
           /\ (p = Debug -> part_range x <> None -> Forall2 same_labels (bb_components g) (bb_components g0))) parts its.
  Proof.
    intros Hq0 Hmade. destruct (made_translated _ _ _ Hmade) as (gts & Htr & Hws & _ & Hrows & _).
    destruct Hmade as (Hm & Hc & HP & s0 & Hs0 & Hfold).
    pose proof Hwf as Hwf'. rewrite Forall_forall in Hwf'.
    apply (foldM_view _ (fun x it => exists g, translated p q (part_block x) (part_mapping x) g (it_sources it)
           /\ it_input it = bb_data g /\ it_range it = part_range x
           /\ mapping_for (rows (bb_samples newg)) (it_sources it) (it_mapping it)
           /\ (p = Debug -> part_range x <> None -> Forall2 same_labels (bb_components g) (bb_components g0)))) in Hfold.
    - destruct Hfold as (its & H1 & H2). exists s0, its. auto.
    - intros s x s' Hx Hst. unfold grad_move in Hst.
      destruct (Forall2_In_l _ _ _ _ Htr Hx) as ([g tr] & Hgt & Hxt). simpl in Hxt.
      destruct (part_range x) as [[start stop]|] eqn:Er.
      + unfold move_gradient in Hst. bind_inv Hst. apply expect_some_ok in Hb.
        bind_inv Hst. bind_inv Hst. bind_inv Hst.
        assert (a = g) by (destruct Hxt; congruence). subst a.
        destruct (gradient_axis _ _ _ (Hwf' x Hx) Hb) as [Hgw Hgn].
        apply (labels_iter_ok _ _ Hgw) in Hb1 as [_ ->].
        apply (gradient_samples_to_move_ok _ _ _ _ 0 _ Hws) in Hb2 as (tr' & Htr' & Hl & Hmp).
        assert (tr' = tr) by (destruct Hxt; congruence). subst tr'.
        exists (mk_item (bb_data g) tr a2 (Some (start, stop))). split.
        * exists g. simpl. split; [assumption|]. split; [reflexivity|]. split; [congruence|].
          split; [split; [assumption|exact Hmp]|].
          intros -> _. unfold debug_assert in Hb0. destruct (labels_list_eqb (bb_components g) (bb_components g0)) eqn:Ec; [|discriminate].
          apply labels_list_eqb_same in Ec; auto.
          -- apply axes_wf. destruct (wf_block_gradient _ _ _ (Hwf' x Hx) (gradient_In _ _ _ Hb)) as (Hgb & _). apply (wf_basic_axes _ Hgb).
          -- apply axes_wf. apply (wf_block_gradient _ _ _ (Hwf' x0 x0_in)) in Hq0 as (Hgb & _). apply (wf_basic_axes _ Hgb).
        * exact Hst.
      + destruct (mapping_exists (rows (bb_samples newg)) tr) as [ms Hms].
        { intros r Hr. apply Hrows. exists (g, tr). auto. }
        exists (mk_item (bb_data g) tr ms None). split.
        * exists g. simpl. split; [assumption|]. split; [reflexivity|]. split; [congruence|]. split; [assumption|]. congruence.
        * exact Hst.
  Qed.

  Lemma new_gradient_unique q g g' : In (q, g) (tb_gradients nb) -> In (q, g') (tb_gradients nb) -> g' = g.
  Proof.
    intros H H'. apply (wf_block_gradient _ _ _ Hnb) in H as (_ & _ & H). apply (wf_block_gradient _ _ _ Hnb) in H' as (_ & _ & H').
    congruence.
  Qed.

  (* everything about one gradient *)
  Lemma made_gradient_items q newg :
    In (q, newg) (tb_gradients nb) ->
    exists g0 s0 its gs, In (q, g0) (tb_gradients (part_block x0))
      /\ bb_components newg = bb_components g0
      /\ shape_of s0 = map (fun l => length (rows l)) (axes newg)
      /\ wf_nd (a_nd s0) /\ (forall idx, nd_get (a_nd s0) idx = 0%Z)
      /\ foldM move_step its s0 = Ok (bb_data newg)
      /\ length its = length parts
      /\ (forall row, In row (rows (bb_samples newg)) <-> exists it, In it its /\ In row (it_sources it))
      /\ Forall2 (fun ab g => In (q, g) (tb_gradients (part_block (fst ab)))
           /\ it_input (snd ab) = bb_data g
           /\ Forall2 (translates (fst ab)) (rows (bb_samples g)) (it_sources (snd ab))
           /\ it_range (snd ab) = part_range (fst ab)
           /\ mapping_for (rows (bb_samples newg)) (it_sources (snd ab)) (it_mapping (snd ab))
           /\ (p = Debug -> part_range (fst ab) <> None -> Forall2 same_labels (bb_components g) (bb_components g0)))
           (combine parts its) gs
      /\ StronglySorted row_lt (rows (bb_samples newg))
      /\ labels_names (bb_samples newg) = labels_names (bb_samples g0).
  Proof.
    intros Hin. destruct (merged_gradient_source _ _ Hin) as (g0 & Hq0 & Hmade).
    destruct (made_translated _ _ _ Hmade) as (gts & Htr & Hws & Hsort & Hrows & gt0 & Hgt0 & Hnames).
    destruct (made_items _ _ _ Hq0 Hmade) as (s0 & its & Hs0 & Hfold & Hits).
    destruct Hmade as (_ & Hc & HP & _).
    destruct (Forall2_choice _ _ _ Hits) as (gs & Hgs).
    apply array_create_ok in Hs0 as (_ & Hsh & _ & Hz). destruct (Hz Hkind) as [Hz1 Hz2].
    exists g0, s0, its, gs. split; [assumption|]. split; [assumption|]. split.
    { rewrite Hsh. unfold axes. simpl. rewrite map_app, Hc, HP. reflexivity. }
    split; [assumption|]. split; [assumption|]. split; [assumption|].
    split; [symmetry; eapply Forall2_len; eauto|]. split.
    { intros row. rewrite Hrows. split.
      - intros (gt & Hgt & Hr). apply In_nth_error in Hgt as [n Hn].
        destruct (Forall2_nth_error_r _ _ _ _ _ Htr Hn) as (x & Hx & Hxt).
        destruct (Forall2_nth_error_l _ _ _ _ _ Hits Hx) as (it & Hit & g & Hg & _).
        destruct (translated_fun _ _ _ _ _ _ _ _ Hxt Hg) as [_ E]. exists it. split; [eapply nth_error_In; eauto|]. congruence.
      - intros (it & Hit & Hr). apply In_nth_error in Hit as [n Hn].
        destruct (Forall2_nth_error_r _ _ _ _ _ Hits Hn) as (x & Hx & g & Hg & _).
        destruct (Forall2_nth_error_l _ _ _ _ _ Htr Hx) as (gt & Hgt & Hxt).
        destruct (translated_fun _ _ _ _ _ _ _ _ Hxt Hg) as [_ E]. exists gt. split; [eapply nth_error_In; eauto|]. congruence. }
    split; [|split; [assumption|]].
    - apply Forall2_nth_error_intro; [eapply Forall2_len; eauto|]. intros n [x it] g Hn Hg.
      destruct (Forall2_nth_error_l _ _ _ _ _ Hgs Hn) as (g' & Hg' & HH). simpl in HH.
      assert (g' = g) by congruence. subst g'. simpl.
      destruct HH as (H1 & H2 & H3 & H4 & H5). apply nth_error_combine in Hn as [Hx _].
      assert (Hxin : In x parts) by (eapply nth_error_In; eauto).
      split; [apply gradient_In; apply H1|]. split; [assumption|].
      split; [eapply translated_translates; eauto|]. auto.
    - rewrite Hnames. destruct (Forall2_nth_error_l _ _ _ _ _ Htr Hx0) as (gt & Hgt & [Hxt _]).
      assert (gt = gt0) by congruence. subst gt.
      apply gradient_In in Hxt. rewrite Forall_forall in Hwf.
      apply (wf_block_gradient _ _ _ (Hwf _ x0_in)) in Hxt as (_ & _ & Hxt).
      apply (wf_block_gradient _ _ _ (Hwf _ x0_in)) in Hq0 as (_ & _ & Hq0). congruence.
  Qed.

  Lemma new_gradient_properties q newg : In (q, newg) (tb_gradients nb) -> bb_properties newg = bb_properties new.
  Proof. intros H. apply (wf_block_gradient _ _ _ Hnb) in H as (_ & (_ & _ & H & _) & _). assumption. Qed.

  Theorem merged_gradient_samples q s' rest :
    gradient_sample nb q s' rest <->
    exists x s, In x parts /\ s' = extend add (part_key x) s /\ gradient_sample (part_block x) q s rest.
  Proof.
    assert (G : forall newg, In (q, newg) (tb_gradients nb) ->
      (gradient_sample nb q s' rest <->
       exists x s, In x parts /\ s' = extend add (part_key x) s /\ gradient_sample (part_block x) q s rest)).
    { intros newg Hin. destruct (made_gradient_items _ _ Hin)
        as (g0 & s0 & its & gs & Hq0 & Hc & Hsh & Hw & Hz & Hfold & Hlen & Hrows & Hgs & _ & _).
      assert (Hgi : Forall2 (fun ab g => gradient_item q newg (fst ab) (snd ab) g) (combine parts its) gs).
      { eapply Forall2_impl; [|exact Hgs]. intros ab g (H1 & H2 & H3 & H4 & H5 & _). unfold gradient_item. auto 10. }
      eapply (gradient_samples_new add parts new Hwf Hmap q newg nb eq_refl Hin); eauto.
      intros g Hg. eapply new_gradient_unique; eauto. }
    split.
    - intros H. pose proof H as (i & g & _ & Hg & _). apply (G _ Hg). assumption.
    - intros H. pose proof H as (x & s & Hx & _ & i & g & _ & Hg & _).
      destruct (merged_gradient_target _ _ _ Hx Hg) as (newg & Hn). apply (G _ Hn). assumption.
  Qed.

  Hypothesis Hcomp : Forall (fun x => Forall2 same_labels (bb_components (tb_values (part_block x))) (bb_components new)) parts.

  Theorem merged_gradient_values :
    (forall x1 x2, In x1 parts -> In x2 parts -> agreeing_gradients (part_block x1) (part_block x2)) ->
    forall q s' rest cs p' v,
      gradient_value nb q s' rest cs p' v <->
      (exists x s p, In x parts /\ part_range x <> None /\ s' = extend add (part_key x) s
         /\ p' = part_prefix pre x ++ p /\ gradient_value (part_block x) q s rest cs p v)
      \/ (gradient_sample nb q s' rest
          /\ (exists newg js, In (q, newg) (tb_gradients nb) /\ located (bb_components newg) js cs)
          /\ In p' (rows (bb_properties new))
          /\ (forall x s p, In x parts -> part_range x <> None -> s' = extend add (part_key x) s ->
                p' = part_prefix pre x ++ p ->
                gradient_sample (part_block x) q s rest ->
                ~ In p (rows (bb_properties (tb_values (part_block x)))))
          /\ v = 0%Z).
  Proof.
    intros Hagree q s' rest cs p' v.
    assert (G : forall newg, In (q, newg) (tb_gradients nb) ->
      (gradient_value nb q s' rest cs p' v <->
      (exists x s p, In x parts /\ part_range x <> None /\ s' = extend add (part_key x) s
         /\ p' = part_prefix pre x ++ p /\ gradient_value (part_block x) q s rest cs p v)
      \/ (gradient_sample nb q s' rest
          /\ (exists js, located (bb_components newg) js cs)
          /\ In p' (rows (bb_properties new))
          /\ (forall x s p, In x parts -> part_range x <> None -> s' = extend add (part_key x) s ->
                p' = part_prefix pre x ++ p ->
                gradient_sample (part_block x) q s rest ->
                ~ In p (rows (bb_properties (tb_values (part_block x)))))
          /\ v = 0%Z))).
    { intros newg Hin. destruct (made_gradient_items _ _ Hin)
        as (g0 & s0 & its & gs & Hq0 & Hc & Hsh & Hw & Hz & Hfold & Hlen & Hrows & Hgs & _ & _).
      assert (Hgi : Forall2 (fun ab g => gradient_item q newg (fst ab) (snd ab) g) (combine parts its) gs).
      { eapply Forall2_impl; [|exact Hgs]. intros ab g (H1 & H2 & H3 & H4 & H5 & _). unfold gradient_item. auto 10. }
      apply (gradient_entries add pre parts new (proj1 Hnb) Hwf Hmap Hprop Hdis Hle q newg nb eq_refl Hin) with (its := its) (gs := gs) (s0 := s0); auto.
      - intros g Hg. eapply new_gradient_unique; eauto.
      - apply (wf_block_gradient _ _ _ Hnb Hin).
      - eapply new_gradient_properties; eauto.
      - intros x g Hx Hg. rewrite Hc. exact (Hagree x x0 Hx x0_in q g g0 Hg Hq0). }
    split.
    - intros H. pose proof H as (i & g & _ & Hg & _). apply (G _ Hg) in H as [H|(H1 & (js & H2) & H3)]; [left; assumption|right].
      split; [assumption|]. split; [eauto|assumption].
    - intros [H|(H1 & (newg & js & H2 & H4) & H3)].
      + pose proof H as (x & s & p1 & Hx & _ & _ & _ & i & g & _ & Hg & _).
        destruct (merged_gradient_target _ _ _ Hx Hg) as (newg & Hn). apply (G _ Hn). left. assumption.
      + apply (G _ H2). right. split; [assumption|]. split; [eauto|assumption].
  Qed.

  Theorem merged_gradient_sorted q newg :
    In (q, newg) (tb_gradients nb) -> StronglySorted row_lt (rows (bb_samples newg)).
  Proof.
    intros Hin. destruct (made_gradient_items _ _ Hin)
        as (g0 & s0 & its & gs & Hq0 & Hc & Hsh & Hw & Hz & Hfold & Hlen & Hrows & Hgs & Hs & _). assumption.
  Qed.

  Theorem merged_gradient_names :
    map fst (tb_gradients nb) = map fst (tb_gradients (part_block x0))
    /\ forall q newg, In (q, newg) (tb_gradients nb) ->
      exists g0, In (q, g0) (tb_gradients (part_block x0))
        /\ labels_names (bb_samples newg) = labels_names (bb_samples g0)
        /\ bb_components newg = bb_components g0.
  Proof.
    split.
    - symmetry. apply Forall2_map_eq. eapply Forall2_impl; [|exact Hgrads]. intros [q g] [q' g'] [E _]. exact E.
    - intros q newg Hin. destruct (made_gradient_items _ _ Hin)
        as (g0 & s0 & its & gs & Hq0 & Hc & Hsh & Hw & Hz & Hfold & Hlen & Hrows & Hgs & Hs & Hn). eauto.
  Qed.

  (* in debug builds the gradient components were compared *)
  Theorem merged_debug_agree :
    p = Debug -> (forall x, In x parts -> part_range x <> None) ->
    forall x1 x2, In x1 parts -> In x2 parts -> agreeing_gradients (part_block x1) (part_block x2).
  Proof.
    intros Hp Hr x1 x2 H1 H2 q g1 g2 Hg1 Hg2.
    destruct (merged_gradient_target _ _ _ H1 Hg1) as (newg & Hin).
    destruct (made_gradient_items _ _ Hin)
        as (g0 & s0 & its & gs & Hq0 & Hc & Hsh & Hw & Hz & Hfold & Hlen & Hrows & Hgs & Hs & Hn).
    assert (G : forall x g, In x parts -> In (q, g) (tb_gradients (part_block x)) ->
                Forall2 same_labels (bb_components g) (bb_components g0)).
    { intros x g Hx Hg. pose proof Hx as Hx'. apply In_nth_error in Hx as [n Hxn].
      assert (Hnn : n < length its) by (rewrite Hlen; apply nth_error_Some; congruence).
      destruct (nth_error its n) as [it|] eqn:Eit; [|apply nth_error_None in Eit; lia].
      assert (Hcn : nth_error (combine parts its) n = Some (x, it)) by (apply nth_error_combine; auto).
      destruct (Forall2_nth_error_l _ _ _ _ _ Hgs Hcn) as (g' & Hg' & K1 & K2 & K3 & K4 & K5 & K6).
      simpl in *. rewrite Forall_forall in Hwf.
      apply (wf_block_gradient _ _ _ (Hwf _ Hx')) in Hg as (_ & _ & Hg).
      apply (wf_block_gradient _ _ _ (Hwf _ Hx')) in K1 as (_ & _ & K1).
      assert (g' = g) by congruence. subst g'. apply K6; auto. }
    eapply Forall2_same_trans; [apply (G x1 g1); assumption|]. apply Forall2_same_sym. apply (G x2 g2); assumption.
  Qed.
  (* every gradient sample of the merged block, and of the blocks it is made of,
     refers to an existing sample *)
  Lemma merged_gradient_in_range : gradient_samples_in_range nb.
  Proof.
    intros q newg row Hq Hrow. apply merged_gradient_source in Hq as (g0 & Hg0 & Hmade).
    destruct (made_translated _ _ _ Hmade) as (gts & Htr & _ & _ & Hrows & _).
    destruct (proj1 (Hrows row) Hrow) as (gt & Hgt & Hrow1). destruct (Forall2_In_r _ _ _ _ Htr Hgt) as (x & Hx & Hxt).
    apply (translated_translates x q _ _ Hx) in Hxt.
    destruct (Forall2_In_r _ _ _ _ Hxt Hrow1) as (row0 & _ & Ht).
    apply (translates_sample add parts new Hmap x _ _ Hx) in Ht as (i & i' & s & rest & _ & -> & _ & Hi').
    exists i', rest. split; [reflexivity|]. apply nth_error_Some. unfold new in Hi'. congruence.
  Qed.

  Lemma parts_gradient_in_range x : In x parts -> gradient_samples_in_range (part_block x).
  Proof.
    intros Hx q g row Hq Hrow.
    destruct (merged_gradient_target _ _ _ Hx Hq) as (newg & Hnewg).
    apply merged_gradient_source in Hnewg as (g0 & Hg0 & Hmade).
    destruct (made_translated _ _ _ Hmade) as (gts & Htr & _ & _ & Hrows & _).
    destruct (Forall2_In_l _ _ _ _ Htr Hx) as ([g1 tr] & Hgt & Hxt). simpl in Hxt.
    assert (g1 = g).
    { rewrite Forall_forall in Hwf. apply (wf_block_gradient _ _ _ (Hwf x Hx)) in Hq as (_ & _ & Hq). destruct Hxt. congruence. }
    subst g1. apply (translated_translates x q _ _ Hx) in Hxt.
    destruct (Forall2_In_l _ _ _ _ Hxt Hrow) as (row' & _ & Ht).
    apply (translates_sample add parts new Hmap x _ _ Hx) in Ht as (i & i' & s & rest & -> & _ & Hi & _).
    exists i, rest. split; [reflexivity|]. apply nth_error_Some. congruence.
  Qed.
End Merged.

(** * merge_blocks_along_samples *)

Lemma foldM_map {A B S} (f : S -> B -> outcome S) (g : A -> B) l : forall s,
  foldM f (map g l) s = foldM (fun s x => f s (g x)) l s.
Proof.
  induction l as [|x l IH]; intros s; simpl; [reflexivity|]. destruct (f s (g x)); simpl; auto.
Qed.

Lemma foldM_ext {A S} (f g : S -> A -> outcome S) l : forall s,
  (forall s x, In x l -> f s x = g s x) -> foldM f l s = foldM g l s.
Proof.
  induction l as [|x l IH]; intros s H; simpl; [reflexivity|].
  rewrite H by (simpl; auto). destruct (g s x); simpl; auto. apply IH. intros; apply H; simpl; auto.
Qed.

Lemma check_same_samples_ok first blocks :
  wf_basic first -> Forall (fun kb : KeyAndBlock => wf_block (snd kb)) blocks ->
  (check_same_labels_for_samples first blocks = Ok tt <->
   Forall (fun kb : KeyAndBlock => Forall2 same_labels (bb_components (tb_values (snd kb))) (bb_components first)
     /\ same_labels (bb_properties (tb_values (snd kb))) (bb_properties first)) blocks).
Proof.
  intros Hf. induction blocks as [|[k b] blocks IH]; intros Hwf; simpl; [split; [constructor|reflexivity]|].
  inversion Hwf as [|? ? Hb Hbs]; subst. simpl in Hb.
  destruct (wf_basic_axes _ (proj1 Hb)) as (_ & Hc1 & Hp1). destruct (wf_basic_axes _ Hf) as (_ & Hc2 & Hp2).
  pose proof (labels_list_eqb_same _ _ (axes_wf _ Hc1) (axes_wf _ Hc2)) as E1.
  pose proof (labels_eqb_same _ _ (axis_wf _ Hp1) (axis_wf _ Hp2)) as E2.
  destruct (labels_list_eqb _ _); simpl.
  - destruct (labels_eqb _ _); simpl.
    + rewrite IH by assumption. split.
      * intros H. constructor; [|assumption]. simpl. split; [apply E1|apply E2]; reflexivity.
      * intros H. inversion H; assumption.
    + split; [discriminate|]. intros H. inversion H as [|? ? [_ H1] _]; subst. apply E2 in H1. discriminate.
  - split; [discriminate|]. intros H. inversion H as [|? ? [H1 _] _]; subst. apply E1 in H1. discriminate.
Qed.

Lemma labels_count_axis l : axis_labels l -> labels_count l = Ok (length (rows l)).
Proof. intros [H1 H2]. apply labels_count_ok; auto. Qed.

Definition sample_part (P : nat) (kbm : KeyAndBlock * list sample_mapping) : part := (kbm, Some (0, P)).

Lemma combine_fst {A B} (l : list A) (r : list B) : length l = length r -> map fst (combine l r) = l.
Proof. revert r. induction l as [|a l IH]; intros [|b r] H; simpl in *; try discriminate; [reflexivity|]. rewrite IH by lia. reflexivity. Qed.

Lemma combine_snd {A B} (l : list A) (r : list B) : length l = length r -> map snd (combine l r) = r.
Proof. revert r. induction l as [|a l IH]; intros [|b r] H; simpl in *; try discriminate; [reflexivity|]. rewrite IH by lia. reflexivity. Qed.

(* what all merged blocks satisfy *)
Definition gradients_follow (blocks : list KeyAndBlock) (nb : TensorBlock) : Prop :=
  match blocks with
  | [] => False
  | (_, b0) :: _ =>
      map fst (tb_gradients nb) = map fst (tb_gradients b0)
      /\ forall q newg, In (q, newg) (tb_gradients nb) ->
           StronglySorted row_lt (rows (bb_samples newg))
           /\ exists g0, In (q, g0) (tb_gradients b0)
              /\ labels_names (bb_samples newg) = labels_names (bb_samples g0)
              /\ bb_components newg = bb_components g0
  end.

Record samples_merged (p : profile) (blocks : list KeyAndBlock) (extracted : list string) (sort : bool)
    (k0 : list Z) (b0 : TensorBlock) (nb : TensorBlock) : Prop := {
  sam_reachable : reachable_block nb;
  sam_names : labels_names (bb_samples (tb_values nb)) = labels_names (bb_samples (tb_values b0)) ++ extracted;
  sam_rows : rows (bb_samples (tb_values nb))
    = (if sort then sort_rows (nub (all_samples true blocks)) else nub (all_samples true blocks));
  sam_components : bb_components (tb_values nb) = bb_components (tb_values b0);
  sam_properties : bb_properties (tb_values nb) = bb_properties (tb_values b0);
  sam_same : Forall (fun kb : KeyAndBlock =>
      Forall2 same_labels (bb_components (tb_values (snd kb))) (bb_components (tb_values b0))
      /\ same_labels (bb_properties (tb_values (snd kb))) (bb_properties (tb_values b0))) blocks;
  sam_values : forall s' cs pr v, entry (tb_values nb) s' cs pr v <->
      exists k b s, In (k, b) blocks /\ s' = s ++ k /\ entry (tb_values b) s cs pr v;
  sam_gradients : gradients_follow blocks nb;
  sam_gradient_samples : forall q s' rest, gradient_sample nb q s' rest <->
      exists k b s, In (k, b) blocks /\ s' = s ++ k /\ gradient_sample b q s rest;
  sam_in_range : gradient_samples_in_range nb;
  sam_were_in_range : forall k b, In (k, b) blocks -> gradient_samples_in_range b;
  sam_debug : p = Debug -> forall k1 b1 k2 b2, In (k1, b1) blocks -> In (k2, b2) blocks -> agreeing_gradients b1 b2;
  sam_gradient_values :
      (forall k1 b1 k2 b2, In (k1, b1) blocks -> In (k2, b2) blocks -> agreeing_gradients b1 b2) ->
      forall q s' rest cs pr v, gradient_value nb q s' rest cs pr v <->
      exists k b s, In (k, b) blocks /\ s' = s ++ k /\ gradient_value b q s rest cs pr v
}.

Lemma merge_blocks_along_samples_ok p k0 b0 others extracted sort nb :
  let blocks := (k0, b0) :: others in
  Forall (fun kb : KeyAndBlock => wf_block (snd kb)) blocks ->
  (forall k1 b1 k2 b2, In (k1, b1) blocks -> In (k2, b2) blocks -> same_gradient_names b1 b2) ->
  NoDup (map fst blocks) ->
  (forall k1 b1 k2 b2, In (k1, b1) blocks -> In (k2, b2) blocks -> length k1 = length k2) ->
  extracted <> [] ->
  merge_blocks_along_samples p blocks extracted sort = Ok nb ->
  samples_merged p blocks extracted sort k0 b0 nb.
Proof.
  intros blocks Hwf Hsame Hkeys Hklen Hext H.
  unfold merge_blocks_along_samples in H. unfold blocks in H at 1. fold blocks in H.
  assert (Hb0 : wf_block b0) by (inversion Hwf; assumption).
  pose proof (proj1 Hb0) as Hv0. destruct (wf_basic_axes _ Hv0) as (Hs0 & Hc0 & Hp0).
  bind_inv H. destruct a. rename Hb into Hchk. rewrite (check_same_samples_ok _ _ Hv0 Hwf) in Hchk.
  bind_inv H. destruct a as [merged maps]. rename Hb into Hms.
  assert (Hnames : labels_names (bb_samples (tb_values b0)) ++ extracted <> []).
  { intros E. apply app_eq_nil in E as [_ E]. contradiction. }
  apply merge_samples_ok in Hms; [|exact Hwf|assumption].
  assert (Hadd : (length (labels_names (bb_samples (tb_values b0))) <?
     length (labels_names (bb_samples (tb_values b0)) ++ extracted)) = true).
  { apply Nat.ltb_lt. rewrite app_length. destruct extracted; [contradiction|simpl; lia]. }
  rewrite Hadd in Hms. destruct Hms as [Hmerged Hmaps].
  assert (Hmax : axis_labels merged).
  { split; [eexists; eexists; exact Hmerged|]. rewrite (is_labels_names _ _ _ Hmerged). assumption. }
  pose proof (Forall2_len _ _ _ Hmaps) as Hlen.
  bind_inv H. apply array_shape_ok in Hb as [_ ->]. rewrite (wf_basic_shape _ Hv0) in H.
  rewrite (labels_count_axis _ Hmax) in H. cbn [bind] in H.
  bind_inv H. apply set_slice_first in Hb. subst a.
  bind_inv H. rename a into s0. rename Hb into Hcreate.
  rewrite (labels_count_axis _ Hp0) in H. cbn [bind] in H.
  set (P := length (rows (bb_properties (tb_values b0)))) in *.
  bind_inv H. rename a into data. rename Hb into Hfold.
  bind_inv H. apply expect_ok in Hb. rename a into nb0. rename Hb into Hnew.
  set (parts := map (sample_part P) (combine blocks maps)).
  assert (Hpkb : map part_kb parts = blocks).
  { unfold parts. rewrite map_map. transitivity (map fst (combine blocks maps)); [reflexivity|apply combine_fst; assumption]. }
  assert (Hpm : map part_mapping parts = maps).
  { unfold parts. rewrite map_map. transitivity (map snd (combine blocks maps)); [reflexivity|apply combine_snd; assumption]. }
  assert (Hin_parts : forall x, In x parts -> In (part_key x, part_block x) blocks /\ part_range x = Some (0, P)).
  { intros x Hx. unfold parts in Hx. apply in_map_iff in Hx as ([[k b] ms] & <- & Hx). simpl.
    apply in_combine_l in Hx. auto. }
  assert (Hparts_in : forall k b, In (k, b) blocks -> exists x, In x parts /\ part_key x = k /\ part_block x = b).
  { intros k b Hx. rewrite <- Hpkb in Hx. apply in_map_iff in Hx as (x & E & Hx). exists x. split; [assumption|].
    unfold part_kb in E. unfold part_key, part_block. rewrite E. auto. }
  assert (Hwf_parts : Forall (fun x => wf_block (part_block x)) parts).
  { apply Forall_forall. intros x Hx. apply Hin_parts in Hx as [Hx _]. rewrite Forall_forall in Hwf. apply (Hwf _ Hx). }
  (* the values *)
  assert (Hfold' : foldM move_step (map (value_item true) parts) s0 = Ok data).
  { unfold parts. rewrite map_map, foldM_map. rewrite <- Hfold. apply foldM_ext. intros s [[k b] ms] _. reflexivity. }
  assert (Hwdata : wf_array data).
  { apply array_create_ok in Hcreate as (_ & _ & Hw & _).
    apply (foldM_inv _ wf_array) in Hfold; auto. intros s [[k b] ms] s' _ Hs Hst. eapply array_move_wf; eauto. }
  assert (Hr0 : reachable_block nb0).
  { eapply reachable_new; [exact Hwdata| | | |exact Hnew]; [apply Hmax|apply axes_wf; assumption|apply Hp0]. }
  assert (Hv : tb_values nb0 = mk_basic data merged (bb_components (tb_values b0)) (bb_properties (tb_values b0))
     /\ tb_gradients nb0 = []).
  { pose proof (tensor_block_new_answers _ _ _ _ _ Hnew) as Hans.
    apply tensor_block_new_ok in Hnew as [_ ->]; auto using axis_wf, axes_wf. }
  destruct Hv as [Hv Hg0].
  (* the gradients *)
  apply (gradient_loop _ (made_gradient p (tb_values b0) parts (bb_properties (tb_values b0)))
          (bb_properties (tb_values b0))) in H as (Hr & Hvals & news & Hnews & HF); auto.
  2:{ intros nb1 q g nb1' Hqg Hst. cbv beta iota in Hst.
      destruct (wf_block_gradient _ _ _ Hb0 Hqg) as (Hg & (_ & _ & Hgp & _) & _).
      destruct (wf_basic_axes _ Hg) as (_ & Hgc & _).
      bind_inv Hst. bind_inv Hst. apply array_shape_ok in Hb1 as [_ ->].
      bind_inv Hst. rewrite (wf_basic_shape _ Hg) in Hst. bind_inv Hst. apply set_slice_first in Hb2. subst a1.
      bind_inv Hst. bind_inv Hst.
      assert (Hga : wf_labels a /\ a0 = length (rows a)).
      { apply merge_gradient_samples_ok in Hb as (gts & _ & Hwa & _); [|assumption|symmetry; exact Hlen].
        split; [assumption|]. apply (labels_count_ok _ _ Hwa) in Hb1. tauto. }
      destruct Hga as [Hwa ->].
      exists a2, a. split; [|split; [assumption|split; [apply axes_wf; assumption|split; [assumption|]]]].
      - apply array_create_ok in Hb2 as (_ & _ & Hw & _).
        apply (foldM_inv _ wf_array) in Hb3; auto. intros s [[k b] ms] s' _ Hs Hss.
        unfold move_gradient in Hss. bind_inv Hss. bind_inv Hss. bind_inv Hss. bind_inv Hss. eapply array_move_wf; eauto.
      - unfold made_gradient; simpl. split; [rewrite Hpkb, Hpm; assumption|]. split; [reflexivity|]. split; [reflexivity|].
        exists a1. split; [rewrite <- Hgp; assumption|].
        unfold parts. rewrite foldM_map, <- Hb3. apply foldM_ext. intros s [[k b] ms] _. reflexivity. }
  2:{ rewrite Hv. reflexivity. }
  rewrite Hg0 in Hnews. simpl in Hnews. rewrite Hv in Hvals.
  pose proof (reachable_wf _ Hr) as Hnb.
  (* the first part *)
  destruct maps as [|m0 maps]; [discriminate|].
  set (x0 := sample_part P ((k0, b0), m0)).
  assert (Hx0 : nth_error parts 0 = Some x0) by reflexivity.
  assert (Hx0in : In x0 parts) by (eapply nth_error_In; eauto).
  assert (Hkind : a_kind (bb_data (tb_values (part_block x0))) <> RustEmptyArray).
  { pose proof Hfold' as Hf. unfold parts in Hf. simpl in Hf. apply bind_ok in Hf as (s1 & Hf & _).
    unfold move_step in Hf. simpl in Hf. apply array_move_ok in Hf as [[Hm1 Hm2] _].
    unfold x0. rewrite <- Hm1. exact Hm2. }
  destruct (array_create_ok _ _ _ Hcreate) as (_ & Hsh & _ & Hz). destruct (Hz Hkind) as [Hz1 Hz2].
  assert (Hmap : Forall (fun x => mapping_for (rows (bb_samples (tb_values nb))) (part_samples true x) (part_mapping x)) parts).
  { rewrite Hvals. simpl. apply Forall_forall. intros x Hx. unfold parts in Hx. apply in_map_iff in Hx as ([[k b] ms] & <- & Hx).
    apply In_nth_error in Hx as [n Hn]. apply nth_error_combine in Hn as [Hn1 Hn2].
    destruct (Forall2_nth_error_l _ _ _ _ _ Hmaps Hn1) as (ms' & Hms' & Hm).
    assert (ms' = ms) by congruence. subst ms'. exact Hm. }
  assert (Hpprops : forall x, In x parts -> rows (bb_properties (tb_values (part_block x))) = rows (bb_properties (tb_values b0))).
  { intros x Hx. apply Hin_parts in Hx as [Hx _]. rewrite Forall_forall in Hchk. apply Hchk in Hx as [_ [_ Hx]]. exact Hx. }
  assert (Hprop : Forall (part_properties false (rows (bb_properties (tb_values nb)))) parts).
  { rewrite Hvals. simpl. apply Forall_forall. intros x Hx start stop Hrg.
    rewrite (Hpprops x Hx). apply Hin_parts in Hx as [Hx Hrange]. rewrite Hrange in Hrg. inversion Hrg; subst.
    split; [reflexivity|]. intros k r Hr'. simpl. assumption. }
  assert (Hdis : disjoint_parts true parts).
  { intros n1 n2 x1 x2 s k Hn1 Hn2 Hs1 Hs2 _ _. unfold part_samples in Hs1, Hs2.
    apply in_map_iff in Hs1 as (s1 & <- & Hs1). apply in_map_iff in Hs2 as (s2 & E & Hs2).
    pose proof (Hin_parts _ (nth_error_In _ _ Hn1)) as [Hi1 _]. pose proof (Hin_parts _ (nth_error_In _ _ Hn2)) as [Hi2 _].
    unfold extend in E.
    assert (Hkk : part_key x1 = part_key x2).
    { apply (f_equal (fun l => skipn (length l - length (part_key x1)) l)) in E.
      rewrite !app_length in E. rewrite <- (Hklen _ _ _ _ Hi1 Hi2) in E at 1.
      rewrite !skipn_app in E. replace (length s1 + length (part_key x1) - length (part_key x1)) with (length s1) in E by lia.
      replace (length s2 + length (part_key x1) - length (part_key x1)) with (length s2) in E by lia.
      rewrite !skipn_all, !Nat.sub_diag in E. simpl in E. congruence. }
    assert (Hpk : map part_key parts = map fst blocks).
    { rewrite <- Hpkb, map_map. reflexivity. }
    eapply NoDup_nth_error_inj; [exact Hkeys| |].
    - rewrite <- Hpk, nth_error_map, Hn1. reflexivity.
    - rewrite <- Hpk, nth_error_map, Hn2. simpl. congruence. }
  assert (Hle : forall x start stop, In x parts -> part_range x = Some (start, stop) ->
     stop <= length (rows (bb_properties (tb_values nb)))).
  { rewrite Hvals. simpl. intros x start stop Hx Hrg. apply Hin_parts in Hx as [_ Hx]. rewrite Hx in Hrg. inversion Hrg; subst. unfold P. lia. }
  assert (Hcomp : Forall (fun x => Forall2 same_labels (bb_components (tb_values (part_block x))) (bb_components (tb_values nb))) parts).
  { rewrite Hvals. simpl. apply Forall_forall. intros x Hx. apply Hin_parts in Hx as [Hx _].
    rewrite Forall_forall in Hchk. apply Hchk in Hx as [Hx _]. exact Hx. }
  assert (Hsame' : forall x1 x2, In x1 parts -> In x2 parts -> same_gradient_names (part_block x1) (part_block x2)).
  { intros x1 x2 H1 H2. apply Hin_parts in H1 as [H1 _], H2 as [H2 _]. eapply Hsame; eauto. }
  assert (HF' : Forall2 (fun qg qn => fst qg = fst qn
     /\ made_gradient p (tb_values (part_block x0)) parts (bb_properties (tb_values nb)) (fst qg) (snd qg) (snd qn))
     (tb_gradients (part_block x0)) (tb_gradients nb)).
  { rewrite Hvals, Hnews. exact HF. }
  assert (Hrange_some : forall x, In x parts -> part_range x <> None).
  { intros x Hx. apply Hin_parts in Hx as [_ Hx]. congruence. }
  constructor.
  - assumption.
  - rewrite Hvals. simpl. apply (is_labels_names _ _ _ Hmerged).
  - rewrite Hvals. simpl. apply (is_labels_rows _ _ _ Hmerged).
  - rewrite Hvals. reflexivity.
  - rewrite Hvals. reflexivity.
  - exact Hchk.
  - intros s' cs pr v.
    rewrite (value_entries true false parts (tb_values nb) (proj1 Hnb) Hwf_parts Hmap Hprop Hdis Hcomp Hle s0);
      auto.
    2:{ rewrite Hsh, Hvals. unfold axes. simpl. rewrite map_app. reflexivity. }
    2:{ rewrite Hvals. assumption. }
    split.
    + intros [(x & s & pr' & Hx & _ & -> & -> & He)|(Hs' & _ & Hpr & Hun & _)].
      * apply Hin_parts in Hx as [Hx _]. exists (part_key x), (part_block x), s. auto.
      * exfalso. rewrite Hvals in Hs', Hpr. simpl in Hs', Hpr.
        rewrite (is_labels_rows _ _ _ Hmerged), merged_rows in Hs'.
        unfold all_samples in Hs'. apply in_flat_map in Hs' as ([k b] & Hkb & Hs').
        apply in_map_iff in Hs' as (s & <- & Hs). destruct (Hparts_in _ _ Hkb) as (x & Hx & Ek & Eb).
        apply (Hun x s pr); auto.
        -- rewrite Ek. reflexivity.
        -- rewrite Eb. exact Hs.
        -- rewrite (Hpprops x Hx). assumption.
    + intros (k & b & s & Hkb & -> & He). left. destruct (Hparts_in _ _ Hkb) as (x & Hx & Ek & Eb).
      exists x, s, pr. rewrite Ek, Eb. auto.
  - unfold gradients_follow, blocks. 
    destruct (merged_gradient_names p parts nb x0 Hx0 Hwf_parts Hkind HF') as [Hn1 Hn2].
    split; [exact Hn1|]. intros q newg Hq. split; [|exact (Hn2 _ _ Hq)].
    eapply (merged_gradient_sorted p parts nb x0 Hx0 Hwf_parts Hkind HF'); eauto.
  - intros q s' rest.
    rewrite (merged_gradient_samples p true parts nb x0 Hx0 Hnb Hwf_parts Hmap Hkind HF' Hsame').
    split.
    + intros (x & s & Hx & -> & Hg). apply Hin_parts in Hx as [Hx _]. exists (part_key x), (part_block x), s. auto.
    + intros (k & b & s & Hkb & -> & Hg). destruct (Hparts_in _ _ Hkb) as (x & Hx & Ek & Eb).
      exists x, s. rewrite Ek, Eb. auto.
  - eapply (merged_gradient_in_range p true parts nb x0); eassumption.
  - intros k b Hkb. destruct (Hparts_in _ _ Hkb) as (x & Hx & _ & <-).
    eapply (parts_gradient_in_range p true parts nb x0); eassumption.
  - intros Hp k1 b1 k2 b2 Hi1 Hi2. destruct (Hparts_in _ _ Hi1) as (x1 & Hx1 & _ & <-). destruct (Hparts_in _ _ Hi2) as (x2 & Hx2 & _ & <-).
    eapply (merged_debug_agree p parts nb x0 Hx0 Hwf_parts Hkind HF' Hsame' Hp Hrange_some); eauto.
  - intros Hag q s' rest cs pr v.
    rewrite (merged_gradient_values p true false parts nb x0 Hx0 Hnb Hwf_parts Hmap Hprop Hdis Hle Hkind HF' Hsame').
    2:{ intros x1 x2 H1 H2. apply Hin_parts in H1 as [H1 _], H2 as [H2 _]. eapply Hag; eauto. }
    split.
    + intros [(x & s & pr' & Hx & _ & -> & -> & He)|(Hs' & _ & Hpr & Hun & _)].
      * apply Hin_parts in Hx as [Hx _]. exists (part_key x), (part_block x), s. auto.
      * exfalso.
        apply (merged_gradient_samples p true parts nb x0 Hx0 Hnb Hwf_parts Hmap Hkind HF' Hsame') in Hs' as (x & s & Hx & -> & Hg).
        apply (Hun x s pr Hx); auto.
        rewrite (Hpprops x Hx). rewrite Hvals in Hpr. exact Hpr.
    + intros (k & b & s & Hkb & -> & He). left. destruct (Hparts_in _ _ Hkb) as (x & Hx & Ek & Eb).
      exists x, s, pr. rewrite Ek, Eb. auto.
Qed.
