(* Lemmas about moving any component to the properties *)
From Verif Require Import Base BaseFacts Labels Array Block Tensor Spec SpecTensor LabelsFacts ArrayFacts BlockFacts GroupFacts MergeFacts TensorFacts ComponentsFacts SpecComponents.
Local Open Scope string_scope.
Local Open Scope list_scope.
Local Open Scope nat_scope.

(** * Combinations *)

Definition sizes (components : list Labels) : list nat := map (fun l => length (rows l)) components.

Lemma combinations_length components : length (combinations components) = prod (sizes components).
Proof.
  induction components as [|c components IH]; [reflexivity|]. cbn [combinations sizes map prod]. fold (sizes components). rewrite <- IH.
  induction (rows c) as [|e es IHe]; [reflexivity|]. cbn. rewrite app_length, map_length, IHe. reflexivity.
Qed.

Lemma flat_map_nth {A B} (f : A -> B -> B) (rest : list B) es : forall q k, k < length rest ->
  nth_error (flat_map (fun e => map (f e) rest) es) (q * length rest + k)
  = match nth_error es q, nth_error rest k with Some e, Some r => Some (f e r) | _, _ => None end.
Proof.
  induction es as [|e es IH]; intros q k Hk; simpl.
  - destruct (q * length rest + k), q; reflexivity.
  - destruct q as [|q]; simpl.
    + rewrite nth_error_app1 by (rewrite map_length; assumption). rewrite nth_error_map. destruct (nth_error rest k); reflexivity.
    + rewrite nth_error_app2 by (rewrite map_length; lia). rewrite map_length.
      replace (length rest + q * length rest + k - length rest) with (q * length rest + k) by lia. apply IH. assumption.
Qed.

Lemma located_bounds components : forall idx cs, located components idx cs -> in_bounds (sizes components) idx.
Proof.
  induction components as [|c components IH]; intros [|i idx] [|e cs] H; simpl in H; try contradiction; [constructor|].
  destruct H as [H1 H2]. constructor; [apply nth_error_Some; congruence|]. eapply IH; eauto.
Qed.

Lemma combinations_located components : forall position cs,
  nth_error (combinations components) position = Some cs <-> exists idx, located components idx cs /\ ravel (sizes components) idx = position.
Proof.
  induction components as [|c components IH]; intros position cs.
  - cbn. split.
    + intros H. destruct position as [|[|position]]; try discriminate. inversion H; subst. exists []. split; [exact I|reflexivity].
    + intros ([|i idx] & H & E); [|destruct cs; contradiction]. destruct cs; [|contradiction]. cbn in E. subst. reflexivity.
  - cbn [combinations]. set (rest := combinations components) in *. assert (Hl : length rest = prod (sizes components)) by apply combinations_length.
    split.
    + intros H.
      assert (Hp : position < length (rows c) * length rest).
      { assert (position < length (combinations (c :: components))) as Hp by (apply nth_error_Some; cbn [combinations]; fold rest; congruence).
        rewrite combinations_length in Hp. cbn [sizes map prod] in Hp. fold (sizes components) in Hp. rewrite Hl. exact Hp. }
      assert (Hn : length rest <> 0) by (intros E; rewrite E in Hp; lia).
      assert (Ek : position = (position / length rest) * length rest + position mod length rest) by (rewrite Nat.mul_comm; apply Nat.div_mod; assumption).
      rewrite Ek in H. rewrite (flat_map_nth (@cons (list Z))) in H by (apply Nat.mod_upper_bound; assumption).
      destruct (nth_error (rows c) (position / length rest)) as [e|] eqn:E1; [|discriminate].
      destruct (nth_error rest (position mod length rest)) as [r|] eqn:E2; [|discriminate]. inversion H; subst cs.
      apply IH in E2 as (idx & Hi & Er). exists (position / length rest :: idx). split; [split; assumption|].
      cbn [sizes map ravel]. fold (sizes components). rewrite Er, <- Hl. symmetry. exact Ek.
    + intros ([|i idx] & H & E); [destruct cs; contradiction|]. destruct cs as [|e cs]; [contradiction|]. destruct H as [H1 H2].
      cbn [sizes map ravel] in E. fold (sizes components) in E. rewrite <- E, <- Hl.
      assert (H3 : nth_error rest (ravel (sizes components) idx) = Some cs) by (apply IH; eauto).
      rewrite (flat_map_nth (@cons (list Z))) by (apply nth_error_Some; congruence). rewrite H1, H3. reflexivity.
Qed.

(** * Exchange of the moved component with the last one *)

Lemma swap_ends {A} (l mid r : list A) x y :
  swap_nth (length l) (length l + S (length mid)) (l ++ x :: mid ++ y :: r) = l ++ y :: mid ++ x :: r.
Proof.
  unfold swap_nth. rewrite nth_error_middle.
  assert (E : forall z, l ++ z :: mid ++ y :: r = (l ++ z :: mid) ++ y :: r) by (intros z; rewrite <- app_assoc; reflexivity).
  assert (El : forall z : A, length l + S (length mid) = length (l ++ z :: mid)) by (intros z; rewrite app_length; reflexivity).
  rewrite (E x), (El x), nth_error_middle, <- (E x), set_nth_middle, (E y).
  replace (length (l ++ x :: mid)) with (length (l ++ y :: mid)) by (rewrite !app_length; reflexivity).
  rewrite set_nth_middle, <- app_assoc. reflexivity.
Qed.

Lemma ravel_app s1 : forall s2 i1 i2, length i1 = length s1 -> ravel (s1 ++ s2) (i1 ++ i2) = ravel s1 i1 * prod s2 + ravel s2 i2.
Proof.
  induction s1 as [|n s1 IH]; intros s2 [|i i1] i2 H; simpl in *; try discriminate; [lia|]. rewrite IH by lia. rewrite prod_app. lia.
Qed.

Section Exact.
  Context (variables : list string) (b : BasicBlock) (pre : list Labels) (x : Labels) (mid : list Labels) (l : Labels) (b' : BasicBlock).
  Hypothesis Hwf : wf_basic b.
  Hypothesis Hm : component_moved variables b pre x (mid ++ [l]) b'.

  Lemma exact_element :
    a_kind (bb_data b) <> RustEmptyArray ->
    forall i i1 q ms lv j r v, length i1 = length pre ->
      in_bounds (sizes (l :: mid)) (lv :: ms) -> in_bounds (sizes (mid ++ [l])) j ->
      ravel (sizes (mid ++ [l])) j = ravel (sizes (l :: mid)) (lv :: ms) -> r < length (rows (bb_properties b)) ->
      (element (bb_data b') (i :: (i1 ++ j) ++ [q * length (rows (bb_properties b)) + r]) v
       <-> element (bb_data b) (i :: (i1 ++ q :: ms ++ [lv]) ++ [r]) v).
  Proof.
    intros Hk i i1 q ms lv j r v H1 Hlm Hj Er Hr.
    pose proof (wf_basic_shape _ Hwf) as Hsh0. destruct Hm as [Hc Hx Hb Hsam Hcomp Hk' Hcb Hsh Hd].
    destruct (Hd Hk) as (Hvol & nd1 & Hsw & Hdata).
    set (cnt := fun l : Labels => length (rows l)) in *.
    set (A := cnt (bb_samples b) :: map cnt pre). set (B := sizes mid) in *. set (m := cnt x). set (n := cnt (bb_properties b)) in *. set (c := cnt l).
    assert (HA : length A = S (length pre)) by (unfold A; simpl; rewrite map_length; reflexivity).
    assert (HB : length B = length mid) by (unfold B, sizes; apply map_length).
    assert (EB : sizes (mid ++ [l]) = B ++ [c]) by (unfold sizes, B; rewrite map_app; reflexivity).
    change (sizes (l :: mid)) with (c :: B) in *. rewrite EB in *.
    assert (Hs0 : nd_shape (a_nd (bb_data b)) = A ++ m :: B ++ c :: [n]).
    { change (nd_shape (a_nd (bb_data b))) with (shape_of (bb_data b)). rewrite Hsh0, Hc, map_app. cbn [map]. rewrite map_app. cbn [map].
      unfold A, B, sizes, m, n, c. simpl. rewrite <- !app_assoc. simpl. rewrite <- !app_assoc. reflexivity. }
    assert (Hs2 : shape_of (bb_data b') = (A ++ B ++ [c]) ++ [m * n]).
    { rewrite Hsh. unfold A, B, sizes, m, n, c. rewrite map_app, map_app. simpl. rewrite <- !app_assoc. reflexivity. }
    assert (Hw' : wf_nd (a_nd (bb_data b'))) by (unfold wf_nd; symmetry; exact Hvol).
    assert (Hw0 : wf_nd (a_nd (bb_data b))) by (apply wf_array_nd; [destruct Hwf; assumption|assumption]).
    rewrite !element_get by assumption.
    change (length (rows (bb_properties b))) with n in *.
    assert (Hnd' : a_nd (bb_data b') = mk_nd ((A ++ B ++ [c]) ++ [m * n]) (nd_data nd1)).
    { rewrite <- Hs2, <- Hdata. unfold shape_of. destruct (a_nd (bb_data b')); reflexivity. }
    replace (S (length pre) + length (mid ++ [l])) with (length A + S (length B)) in Hsw by (rewrite app_length; cbn [length]; lia).
    rewrite <- HA in Hsw. unfold nd_swap_axes in Hsw. destruct (_ && _) eqn:Hax; [|discriminate]. rewrite Hs0, swap_ends in Hsw.
    assert (En1 : forall z, Some z = Some nd1 -> z = nd1) by (intros z Ez; congruence). apply En1 in Hsw. clear En1. rename Hsw into En1.
    assert (Hl1 : length (i :: i1) = length A) by (rewrite HA; cbn [length]; lia).
    assert (Hms : length ms = length B) by (apply in_bounds_length in Hlm; cbn in Hlm; lia).
    assert (Hlj : length j = length (B ++ [c])) by (apply in_bounds_length in Hj; exact Hj).
    assert (Eidx : i :: (i1 ++ q :: ms ++ [lv]) ++ [r] = (i :: i1) ++ q :: ms ++ lv :: [r]).
    { simpl. rewrite <- app_assoc. simpl. rewrite <- app_assoc. reflexivity. }
    rewrite Eidx. change (i :: (i1 ++ j) ++ [q * n + r]) with (((i :: i1) ++ j) ++ [q * n + r]).
    assert (Hl2 : length ((i :: i1) ++ j) = length (A ++ B ++ [c])) by (rewrite !(app_length A), app_length; lia).
    assert (Hmn : in_bounds [m * n] [q * n + r] <-> in_bounds [m] [q] /\ in_bounds [n] [r]).
    { unfold in_bounds. split.
      - intros H; inversion H; subst. assert (q < m) by nia. split; repeat constructor; assumption.
      - intros [H _]; inversion H; subst. repeat constructor. nia. }
    unfold shape_of in Hs2 |- *. rewrite Hs2, Hs0.
    rewrite (in_bounds_app (A ++ B ++ [c])), (in_bounds_app A (B ++ [c])), Hmn by assumption.
    rewrite (in_bounds_app A (m :: B ++ [c; n])) by assumption.
    apply in_bounds_cons in Hlm as [Hlv Hms'].
    assert (Hb0 : in_bounds (m :: B ++ [c; n]) (q :: ms ++ [lv; r]) <-> in_bounds [m] [q] /\ in_bounds [n] [r]).
    { rewrite in_bounds_cons, (in_bounds_app B) by assumption. split.
      - intros (Q & _ & H). inversion H as [|? ? ? ? _ H']; subst. inversion H'; subst. split; repeat constructor; assumption.
      - intros [Q R]. inversion Q; inversion R; subst. split; [assumption|]. split; [assumption|]. repeat constructor; assumption. }
    rewrite Hb0.
    assert (G : in_bounds A (i :: i1) -> in_bounds [m] [q] -> in_bounds [n] [r] ->
      nd_get (a_nd (bb_data b')) (((i :: i1) ++ j) ++ [q * n + r]) = nd_get (a_nd (bb_data b)) ((i :: i1) ++ q :: ms ++ [lv; r])).
    { intros BA Bq Br. transitivity (nd_get nd1 ((i :: i1) ++ lv :: ms ++ [q; r])).
      - rewrite Hnd'. unfold nd_get. cbn [nd_shape nd_data].
        assert (Es1 : nd_shape nd1 = A ++ c :: B ++ [m; n]) by (rewrite <- En1; reflexivity).
        rewrite Es1, <- ravel_merge by assumption.
        change (c :: B ++ [m; n]) with ((c :: B) ++ [m; n]). change (lv :: ms ++ [q; r]) with ((lv :: ms) ++ [q; r]).
        rewrite (ravel_app (A ++ B ++ [c])), (ravel_app A (B ++ [c])), (ravel_app A), (ravel_app (c :: B)) by (assumption || (cbn; lia)).
        rewrite Er, !prod_app. cbn [prod]. f_equal. lia.
      - rewrite <- En1. rewrite nd_get_tabulate.
        + rewrite <- Hl1, <- Hms, swap_ends. reflexivity.
        + apply in_bounds_app; [assumption|]. split; [assumption|]. apply in_bounds_cons. split; [assumption|].
          apply in_bounds_app; [assumption|]. split; [assumption|]. inversion Bq; inversion Br; subst. repeat constructor; assumption. }
    split.
    - intros [([BA BB] & Bq & Bn) <-]. split; [tauto|]. symmetry. apply G; assumption.
    - intros [(BA & Bq & Bn) <-]. split; [tauto|]. apply G; assumption.
  Qed.

  Lemma exact_entry :
    a_kind (bb_data b) <> RustEmptyArray ->
    forall s cs' pr' v,
      entry b' s cs' pr' v <->
      exists cs1 xv cs2 found pr, length cs1 = length pre /\ found_as (mid ++ [l]) cs2 found /\ cs' = cs1 ++ found /\ pr' = xv ++ pr
        /\ entry b s (cs1 ++ xv :: cs2) pr v.
  Proof.
    intros Hk s cs' pr' v. pose proof (exact_element Hk) as He. rewrite entry_iff.
    rewrite (cm_samples _ _ _ _ _ _ Hm), (cm_components' _ _ _ _ _ _ Hm), (moved_properties_rows _ _ _ _ _ _ Hwf Hm).
    unfold found_as. rewrite rev_unit, rev_involutive.
    set (props := rows (bb_properties b)) in *. split.
    - intros (i & js & k & Hi & Hj & Hkk & Hv).
      assert (Hlcs : length cs' = length (pre ++ mid ++ [l])) by (apply located_length in Hj; tauto).
      rewrite <- (firstn_skipn (length pre) cs') in Hj.
      assert (Hl1 : length (firstn (length pre) cs') = length pre).
      { rewrite firstn_length, Hlcs, app_length. lia. }
      apply located_app in Hj as (j1 & j2 & -> & Hj1 & Hj2); [|assumption].
      assert (Hkl : k < length (product_rows (rows x) props)) by (apply nth_error_Some; congruence).
      rewrite product_rows_length in Hkl.
      assert (Hn : length props <> 0) by (intros E; rewrite E in Hkl; lia).
      assert (Ek : k = (k / length props) * length props + k mod length props) by (rewrite Nat.mul_comm; apply Nat.div_mod; assumption).
      assert (Hr : k mod length props < length props) by (apply Nat.mod_upper_bound; assumption).
      rewrite Ek in Hkk, Hv. rewrite product_rows_nth in Hkk by assumption.
      destruct (nth_error (rows x) (k / length props)) as [xv|] eqn:Ex; [|discriminate].
      destruct (nth_error props (k mod length props)) as [pr|] eqn:Ep; [|discriminate]. inversion Hkk; subst pr'.
      (* the combination with the same position *)
      set (position := ravel (sizes (mid ++ [l])) j2).
      assert (Hpos : position < length (combinations (l :: mid))).
      { rewrite combinations_length. pose proof (ravel_lt _ _ (located_bounds _ _ _ Hj2)) as H. fold position in H.
        unfold sizes in *. rewrite map_app, prod_app in H. cbn [map prod] in *. lia. }
      destruct (nth_error (combinations (l :: mid)) position) as [cs|] eqn:Ec; [|apply nth_error_None in Ec; lia].
      apply combinations_located in Ec as (idx & Hloc & Eidx). destruct idx as [|lv ms]; [destruct cs; contradiction|].
      destruct cs as [|lr mr]; [contradiction|].
      exists (firstn (length pre) cs'), xv, (mr ++ [lr]), (skipn (length pre) cs'), pr.
      split; [assumption|]. split; [|split; [symmetry; apply firstn_skipn|split; [reflexivity|]]].
      + exists position, mr, lr. split; [reflexivity|]. split; apply combinations_located; [exists (lv :: ms)|exists j2]; split; auto.
      + apply entry_iff. exists i, (j1 ++ (k / length props) :: ms ++ [lv]), (k mod length props).
        split; [assumption|]. split; [|split; [assumption|]].
        * rewrite (cm_components _ _ _ _ _ _ Hm). apply located_app; [assumption|].
          exists j1, ((k / length props) :: ms ++ [lv]). split; [reflexivity|]. split; [assumption|]. destruct Hloc as [L1 L2].
          split; [assumption|]. apply located_app; [apply located_length in L2; tauto|]. exists ms, [lv]. cbn. auto.
        * apply He with (j := j2); auto.
          -- apply located_length in Hj1. tauto.
          -- apply (located_bounds _ _ _ Hloc).
          -- apply (located_bounds _ _ _ Hj2).
    - intros (cs1 & xv & cs2 & found & pr & Hl & (position & mr & lr & -> & C1 & C2) & -> & -> & H).
      apply entry_iff in H as (i & js & k & Hi & Hj & Hkk & Hv).
      rewrite (cm_components _ _ _ _ _ _ Hm) in Hj. apply located_app in Hj as (j1 & j2 & -> & Hj1 & Hj2); [|assumption].
      destruct j2 as [|q j2]; simpl in Hj2; [contradiction|]. destruct Hj2 as [Hq Hj2].
      apply combinations_located in C1 as (idx1 & L1 & R1). apply combinations_located in C2 as (idx2 & L2 & R2).
      assert (Hmr : length mr = length mid) by (apply located_length in L1; cbn in L1; lia).
      apply located_app in Hj2 as (ms & lvs & -> & Lm & Ll); [|assumption].
      destruct lvs as [|lv [|? ?]]; cbn in Ll; try contradiction; [|tauto]. destruct Ll as [Ll _].
      assert (Hkl : k < length props) by (apply nth_error_Some; unfold props; congruence).
      assert (Eidx : nth_error (combinations (l :: mid)) (ravel (sizes (l :: mid)) (lv :: ms)) = Some (lr :: mr)).
      { apply combinations_located. exists (lv :: ms). cbn [located]. auto. }
      (* an entry is at one position only *)
      assert (Epos : idx1 = lv :: ms).
      { destruct idx1 as [|lv' ms']; [contradiction|]. destruct L1 as [L1 L1'].
        destruct (wf_basic_axes _ Hwf) as (_ & Hcs & _). rewrite (cm_components _ _ _ _ _ _ Hm) in Hcs.
        apply Forall_app in Hcs as [_ Hcs]. apply Forall_cons_iff in Hcs as [_ Hcs]. apply Forall_app in Hcs as [Hmid Hlast].
        apply Forall_inv in Hlast.
        assert (U : forall c, axis_labels c -> NoDup (rows c)).
        { intros c [Hc _]. apply wf_labels_is_labels in Hc. destruct Hc as (_ & [_ Hd] & _). exact Hd. }
        f_equal.
        - eapply NoDup_nth_error_inj; [apply (U l Hlast)| |]; eassumption.
        - clear -Lm L1' Hmid U. revert ms ms' mr Lm L1'. induction Hmid as [|c cs Hc Hcs IH]; intros [|a ms] [|a' ms'] [|e mr] H1 H2; simpl in *; try contradiction; [reflexivity|].
          destruct H1 as [H1 H1'], H2 as [H2 H2']. f_equal; [|eapply IH; eauto]. eapply NoDup_nth_error_inj; [apply (U c Hc)| |]; eassumption. }
      subst idx1.
      exists i, (j1 ++ idx2), (q * length props + k). split; [assumption|].
      split; [|split].
      + apply located_app; [assumption|]. eauto.
      + rewrite product_rows_nth by assumption. rewrite Hq. unfold props. rewrite Hkk. reflexivity.
      + apply He with (ms := ms) (lv := lv); auto.
        * apply located_length in Hj1. tauto.
        * apply (located_bounds _ _ _ L1).
        * apply (located_bounds _ _ _ L2).
        * congruence.
  Qed.
End Exact.

Lemma exists_last_or {A} (post : list A) : post = [] \/ exists mid l, post = mid ++ [l].
Proof. induction post as [|l mid _] using rev_ind; [left; reflexivity|right; eauto]. Qed.

Lemma any_entry variables b pre x post b' : wf_basic b -> component_moved variables b pre x post b' ->
  a_kind (bb_data b) <> RustEmptyArray ->
  forall s cs' pr' v,
    entry b' s cs' pr' v <->
    exists cs1 xv cs2 found pr, length cs1 = length pre /\ found_as post cs2 found /\ cs' = cs1 ++ found /\ pr' = xv ++ pr
      /\ entry b s (cs1 ++ xv :: cs2) pr v.
Proof.
  intros Hwf Hm Hk s cs' pr' v. destruct (exists_last_or post) as [->|(mid & l & ->)].
  - rewrite (moved_entry _ _ _ _ _ _ Hwf Hm Hk) by (cbn; lia). unfold found_as. cbn [rev]. split.
    + intros (cs1 & xv & cs2 & pr & H1 & H2 & H3 & H4). exists cs1, xv, cs2, cs2, pr.
      assert (cs2 = []); [|subst; auto 10]. apply entry_iff in H4 as (i & js & k & _ & Hj & _).
      rewrite (cm_components _ _ _ _ _ _ Hm) in Hj. apply located_length in Hj as [_ Hj]. rewrite !app_length in Hj. cbn in Hj.
      destruct cs2; [reflexivity|cbn in Hj; lia].
    + intros (cs1 & xv & cs2 & found & pr & H1 & [-> ->] & H). exists cs1, xv, [], pr. auto.
  - apply (exact_entry _ _ _ _ _ _ _ Hwf Hm Hk).
Qed.

Lemma moved_after variables b pre x post b' name i :
  wf_basic b -> component_moved variables b pre x post b' -> variables = [name] -> component_at b name i ->
  i = length pre /\ components_after b i = post.
Proof.
  intros Hwf Hm Hv Hi. apply (moved_component_at _ _ _ _ _ _ name _ Hwf Hm Hv) in Hi. split; [exact Hi|]. subst i.
  unfold components_after. rewrite (cm_components _ _ _ _ _ _ Hm).
  replace (pre ++ x :: post) with ((pre ++ [x]) ++ post) by (rewrite <- app_assoc; reflexivity).
  apply skipn_app_exact. rewrite app_length. cbn. lia.
Qed.

Lemma exact_values t name t' :
  wf_tensor t -> components_to_properties t [name] = (t', Ok tt) ->
  (forall b, In b (tm_blocks t) -> a_kind (bb_data (tb_values b)) <> RustEmptyArray) ->
  forall key s cs' pr' v,
    tensor_entry t' key s cs' pr' v <->
    exists b cs1 xv cs2 found pr, block_of t key b /\ component_at (tb_values b) name (length cs1)
      /\ found_as (components_after (tb_values b) (length cs1)) cs2 found
      /\ cs' = cs1 ++ found /\ pr' = xv ++ pr /\ entry (tb_values b) s (cs1 ++ xv :: cs2) pr v.
Proof.
  intros Hwf H Hk key s cs' pr' v. assert (Hne : [name] <> []) by discriminate. rewrite tensor_entry_of.
  assert (G : forall b b', block_of t key b -> tensor_block_components_to_properties b [name] = (b', Ok tt) ->
            (entry (tb_values b') s cs' pr' v <-> exists cs1 xv cs2 found pr, component_at (tb_values b) name (length cs1)
               /\ found_as (components_after (tb_values b) (length cs1)) cs2 found
               /\ cs' = cs1 ++ found /\ pr' = xv ++ pr /\ entry (tb_values b) s (cs1 ++ xv :: cs2) pr v)).
  { intros b b' Hb Hc. pose proof (wf_tensor_block _ _ _ Hwf Hb) as Hwb.
    destruct (block_components_ok _ _ _ Hwb Hne Hc) as ((pre & x & post & Hv) & _).
    assert (Hin : In b (tm_blocks t)) by (destruct Hb as (i & _ & Hi); eapply nth_error_In; eauto).
    destruct Hwb as [Hwv _].
    rewrite (any_entry _ _ _ _ _ _ Hwv Hv (Hk b Hin)).
    split; intros (cs1 & xv & cs2 & found & pr & H1 & H2); exists cs1, xv, cs2, found, pr.
    - assert (Hca : component_at (tb_values b) name (length cs1)) by (apply (moved_component_at _ _ _ _ _ _ name _ Hwv Hv eq_refl); assumption).
      destruct (moved_after _ _ _ _ _ _ name _ Hwv Hv eq_refl Hca) as [_ ->]. auto.
    - destruct (moved_after _ _ _ _ _ _ name _ Hwv Hv eq_refl H1) as [Hl E]. rewrite E in H2. auto. }
  split.
  - intros (b' & Hb' & He). destruct (block_of_after _ _ _ _ _ Hne H Hb') as (b & Hb & Hc).
    destruct (proj1 (G b b' Hb Hc) He) as (cs1 & xv & cs2 & found & pr & He'). exists b, cs1, xv, cs2, found, pr. auto.
  - intros (b & cs1 & xv & cs2 & found & pr & Hb & He). destruct (block_of_before _ _ _ _ _ Hne H Hb) as (b' & Hb' & Hc).
    exists b'. split; [assumption|]. apply (G b b' Hb Hc). eauto 10.
Qed.

(** * When the labels are the right ones *)

Lemma combinations_one mid l : length (rows l) <= 1 \/ length (combinations mid) <= 1 -> forall position ms e,
  nth_error (combinations (l :: mid)) position = Some (e :: ms) <-> nth_error (combinations (mid ++ [l])) position = Some (ms ++ [e]).
Proof.
  intros Hone position ms e. rewrite !combinations_located.
  assert (Hlen : length (rows l) <= 1 \/ prod (sizes mid) <= 1) by (rewrite <- combinations_length; exact Hone).
  assert (G : forall lv ims, length ims = length mid -> located mid ims ms -> nth_error (rows l) lv = Some e ->
    ravel (sizes (l :: mid)) (lv :: ims) = ravel (sizes (mid ++ [l])) (ims ++ [lv])).
  { intros lv ims Hl Lm Ll. unfold sizes. rewrite map_app. cbn [map]. fold (sizes mid). rewrite ravel_app by (unfold sizes; rewrite map_length; exact Hl).
    cbn [ravel prod]. assert (lv < length (rows l)) by (apply nth_error_Some; congruence).
    pose proof (ravel_lt _ _ (located_bounds _ _ _ Lm)). rewrite !Nat.mul_1_r. destruct Hlen as [H1|H1].
    - replace lv with 0 by lia. replace (length (rows l)) with 1 by lia. lia.
    - replace (prod (sizes mid)) with 1 in * by lia. replace (ravel (sizes mid) ims) with 0 by lia. lia. }
  split.
  - intros ([|lv ims] & L & E); [contradiction|]. destruct L as [Ll Lm]. exists (ims ++ [lv]).
    destruct (located_length _ _ _ Lm) as [H1 H2]. split.
    + apply located_app; [exact H2|]. exists ims, [lv]. cbn. auto.
    + rewrite <- E. symmetry. apply G; assumption.
  - intros (idx & L & E). destruct (located_length _ _ _ L) as [_ Hl]. rewrite !app_length in Hl. cbn in Hl.
    apply located_app in L as (ims & lvs & -> & Lm & Ll); [|lia]. destruct lvs as [|lv [|? ?]]; cbn in Ll; try contradiction; [|tauto].
    destruct Ll as [Ll _]. exists (lv :: ims). split; [cbn; auto|]. rewrite <- E. apply G; try assumption. apply located_length in Lm. tauto.
Qed.

Lemma combinations_entries components position cs : nth_error (combinations components) position = Some cs -> length cs = length components.
Proof. intros H. apply combinations_located in H as (idx & L & _). apply located_length in L. tauto. Qed.

Lemma not_exchanged after : nothing_exchanged after -> forall original found, found_as after original found -> found = original.
Proof.
  unfold nothing_exchanged, found_as. destruct (exists_last_or after) as [->|(mid & l & ->)]; cbn [rev].
  - intros _ original found [-> ->]. reflexivity.
  - rewrite rev_unit, rev_involutive. intros Hone original found (position & ms & e & -> & H1 & H2).
    apply (combinations_one _ _ Hone) in H1. congruence.
Qed.

Lemma exchanged after : ~ nothing_exchanged after -> Forall (fun c => NoDup (rows c)) after ->
  exists original found, found_as after original found /\ found <> original.
Proof.
  unfold nothing_exchanged, found_as. destruct (exists_last_or after) as [->|(mid & l & ->)]; cbn [rev]; [tauto|].
  rewrite rev_unit, rev_involutive. intros Hno Hd.
  assert (Hl : 1 < length (rows l)) by lia. assert (Hmid : 1 < length (combinations mid)) by lia.
  apply Forall_app in Hd as [_ Hd]. apply Forall_inv in Hd.
  destruct (nth_error (rows l) 0) as [l0|] eqn:E0; [|apply nth_error_None in E0; lia].
  destruct (nth_error (rows l) 1) as [l1|] eqn:E1; [|apply nth_error_None in E1; lia].
  destruct (nth_error (combinations mid) 0) as [m0|] eqn:F0; [|apply nth_error_None in F0; lia].
  destruct (nth_error (combinations mid) 1) as [m1|] eqn:F1; [|apply nth_error_None in F1; lia].
  exists (m1 ++ [l0]), (m0 ++ [l1]). split.
  - exists 1, m1, l0. split; [reflexivity|]. split.
    + apply combinations_located. apply combinations_located in F1 as (idx & L & E). exists (0 :: idx). split; [cbn; auto|]. cbn. exact E.
    + apply combinations_located. apply combinations_located in F0 as (idx & L & E). exists (idx ++ [1]).
      destruct (located_length _ _ _ L) as [L1 L2]. split; [apply located_app; [exact L2|]; exists idx, [1]; cbn; auto|].
      unfold sizes. rewrite map_app. cbn [map]. fold (sizes mid). rewrite ravel_app by (unfold sizes; rewrite map_length; exact L1).
      rewrite E. cbn. reflexivity.
  - intros E. apply app_inj_tail in E as [_ E]. subst l1.
    assert (0 = 1); [|discriminate]. eapply NoDup_nth_error_inj; eauto.
Qed.

Lemma exact_gradients t name t' :
  wf_tensor t -> components_to_properties t [name] = (t', Ok tt) ->
  (forall b, In b (tm_blocks t) -> a_kind (bb_data (tb_values b)) <> RustEmptyArray) ->
  forall key q s rest cs' pr' v,
    tensor_gradient_value t' key q s rest cs' pr' v <->
    exists b i g cs1 xv cs2 found pr, block_of t key b /\ In (q, g) (tb_gradients b)
      /\ nth_error (rows (bb_samples (tb_values b))) i = Some s
      /\ component_at g name (length cs1) /\ found_as (components_after g (length cs1)) cs2 found
      /\ cs' = cs1 ++ found /\ pr' = xv ++ pr /\ entry g (Z.of_nat i :: rest) (cs1 ++ xv :: cs2) pr v.
Proof.
  intros Hwf H Hk key q s rest cs' pr' v. assert (Hne : [name] <> []) by discriminate.
  unfold tensor_gradient_value.
  assert (G : forall b b', block_of t key b -> tensor_block_components_to_properties b [name] = (b', Ok tt) ->
            bb_samples (tb_values b') = bb_samples (tb_values b)
            /\ (forall g, In (q, g) (tb_gradients b) -> exists g', In (q, g') (tb_gradients b'))
            /\ forall g', In (q, g') (tb_gradients b') -> exists g, In (q, g) (tb_gradients b)
               /\ forall i, (entry g' (Z.of_nat i :: rest) cs' pr' v <->
                   exists cs1 xv cs2 found pr, component_at g name (length cs1) /\ found_as (components_after g (length cs1)) cs2 found
                     /\ cs' = cs1 ++ found /\ pr' = xv ++ pr /\ entry g (Z.of_nat i :: rest) (cs1 ++ xv :: cs2) pr v)).
  { intros b b' Hb Hc. pose proof (wf_tensor_block _ _ _ Hwf Hb) as Hwb.
    destruct (block_components_ok _ _ _ Hwb Hne Hc) as ((pre & x & post & Hv) & Hg & _).
    assert (Hin : In b (tm_blocks t)) by (destruct Hb as (i & _ & Hi); eapply nth_error_In; eauto).
    split; [apply (cm_samples _ _ _ _ _ _ Hv)|]. split.
    { intros g Hgi. destruct (Forall2_In_l _ _ _ _ Hg Hgi) as ([q' g'] & Hg' & E & _). simpl in E. subst. eauto. }
    intros g' Hg'. destruct (Forall2_In_r _ _ _ _ Hg Hg') as ([q0 g] & Hgi & E & pre_g & x_g & post_g & Hm).
    simpl in E, Hm. subst q0. exists g. split; [assumption|]. intros i.
    destruct (wf_block_gradient _ _ _ Hwb Hgi) as (Hwg & (_ & _ & _ & Hkind) & _).
    rewrite (any_entry _ _ _ _ _ _ Hwg Hm) by (rewrite Hkind; auto).
    split; intros (cs1 & xv & cs2 & found & pr & H1 & H2); exists cs1, xv, cs2, found, pr.
    - assert (Hca : component_at g name (length cs1)) by (apply (moved_component_at _ _ _ _ _ _ name _ Hwg Hm eq_refl); assumption).
      destruct (moved_after _ _ _ _ _ _ name _ Hwg Hm eq_refl Hca) as [_ ->]. auto.
    - destruct (moved_after _ _ _ _ _ _ name _ Hwg Hm eq_refl H1) as [Hl' E]. rewrite E in H2. auto. }
  split.
  - intros (b' & Hb' & i & g' & Hi & Hg' & He). destruct (block_of_after _ _ _ _ _ Hne H Hb') as (b & Hb & Hc).
    destruct (G b b' Hb Hc) as (Hs & _ & Hgr). destruct (Hgr g' Hg') as (g & Hg & Hiff).
    destruct (proj1 (Hiff i) He) as (cs1 & xv & cs2 & found & pr & He'). rewrite Hs in Hi. exists b, i, g, cs1, xv, cs2, found, pr. auto.
  - intros (b & i & g & cs1 & xv & cs2 & found & pr & Hb & Hg & Hi & He).
    destruct (block_of_before _ _ _ _ _ Hne H Hb) as (b' & Hb' & Hc).
    destruct (G b b' Hb Hc) as (Hs & Hex & Hgr). destruct (Hex g Hg) as (g' & Hg').
    destruct (Hgr g' Hg') as (g2 & Hg2 & Hiff).
    assert (g2 = g) as ->.
    { pose proof (wf_tensor_block _ _ _ Hwf Hb) as Hwb.
      apply wf_block_gradient in Hg, Hg2; auto. destruct Hg as (_ & _ & Hg). destruct Hg2 as (_ & _ & Hg2). congruence. }
    exists b'. split; [assumption|]. exists i, g'. rewrite Hs. split; [assumption|]. split; [assumption|].
    apply Hiff. eauto 10.
Qed.

(** * The labels are right exactly when nothing is exchanged *)

Lemma same_found after cs : nothing_exchanged after -> (exists idx, located after idx cs) -> found_as after cs cs.
Proof.
  unfold nothing_exchanged, found_as. intros Hno (idx & L). destruct (exists_last_or after) as [->|(mid & l & ->)]; cbn [rev].
  - destruct cs; [auto|]. destruct idx; contradiction.
  - rewrite rev_unit, rev_involutive in *. destruct (located_length _ _ _ L) as [_ Hl]. rewrite app_length in Hl. cbn in Hl.
    destruct (exists_last_or cs) as [->|(ms & e & ->)]; [cbn in Hl; lia|]. exists (ravel (sizes (mid ++ [l])) idx), ms, e. split; [reflexivity|].
    assert (E : nth_error (combinations (mid ++ [l])) (ravel (sizes (mid ++ [l])) idx) = Some (ms ++ [e])) by (apply combinations_located; eauto).
    split; [|exact E]. apply (combinations_one _ _ Hno). exact E.
Qed.

Lemma entry_after b s cs1 xv cs2 pr v : entry b s (cs1 ++ xv :: cs2) pr v -> exists idx, located (components_after b (length cs1)) idx cs2.
Proof.
  intros H. apply entry_iff in H as (i & js & k & _ & Hj & _). destruct (located_length _ _ _ Hj) as [_ Hl]. rewrite app_length in Hl. cbn in Hl.
  unfold components_after. rewrite <- (firstn_skipn (length cs1) (bb_components b)) in Hj.
  apply located_app in Hj as (j1 & j2 & -> & _ & Hj); [|rewrite firstn_length; lia].
  destruct (skipn (length cs1) (bb_components b)) as [|c after] eqn:E; [destruct j2; contradiction|].
  destruct j2 as [|j j2]; [contradiction|]. exists j2. destruct Hj as [_ Hj].
  replace (skipn (S (length cs1)) (bb_components b)) with after; [exact Hj|].
  rewrite <- (firstn_skipn (length cs1) (bb_components b)), E. symmetry.
  replace (firstn (length cs1) (bb_components b) ++ c :: after) with ((firstn (length cs1) (bb_components b) ++ [c]) ++ after) by (rewrite <- app_assoc; reflexivity).
  apply skipn_app_exact. rewrite app_length, firstn_length. cbn. lia.
Qed.

Lemma right_labels t name t' :
  wf_tensor t -> components_to_properties t [name] = (t', Ok tt) ->
  (forall b, In b (tm_blocks t) -> a_kind (bb_data (tb_values b)) <> RustEmptyArray) ->
  (forall b i, In b (tm_blocks t) -> component_at (tb_values b) name i -> nothing_exchanged (components_after (tb_values b) i)) ->
  forall key s cs' pr' v,
    tensor_entry t' key s cs' pr' v <->
    exists b cs1 xv cs2 pr, block_of t key b /\ component_at (tb_values b) name (length cs1)
      /\ cs' = cs1 ++ cs2 /\ pr' = xv ++ pr /\ entry (tb_values b) s (cs1 ++ xv :: cs2) pr v.
Proof.
  intros Hwf H Hk Hno key s cs' pr' v. rewrite (exact_values t name t' Hwf H Hk). split.
  - intros (b & cs1 & xv & cs2 & found & pr & Hb & Hc & Hf & E1 & E2 & He). exists b, cs1, xv, cs2, pr.
    assert (Hin : In b (tm_blocks t)) by (destruct Hb as (i & _ & Hi); eapply nth_error_In; eauto).
    apply (not_exchanged _ (Hno b _ Hin Hc)) in Hf. subst found. auto.
  - intros (b & cs1 & xv & cs2 & pr & Hb & Hc & E1 & E2 & He). exists b, cs1, xv, cs2, cs2, pr.
    assert (Hin : In b (tm_blocks t)) by (destruct Hb as (i & _ & Hi); eapply nth_error_In; eauto).
    pose proof (same_found _ cs2 (Hno b _ Hin Hc) (entry_after _ _ _ _ _ _ _ He)). auto 10.
Qed.

(* all the multi-indices have an element *)
Lemma entry_exists b s cs pr : wf_basic b -> a_kind (bb_data b) <> RustEmptyArray -> In s (rows (bb_samples b)) ->
  (exists idx, located (bb_components b) idx cs) -> In pr (rows (bb_properties b)) -> exists v, entry b s cs pr v.
Proof.
  intros Hwf Hk Hs (js & Hj) Hp. apply In_nth_error in Hs as [i Hi]. apply In_nth_error in Hp as [k Hkk].
  assert (Hw0 : wf_nd (a_nd (bb_data b))) by (apply wf_array_nd; [destruct Hwf; assumption|assumption]).
  exists (nd_get (a_nd (bb_data b)) (i :: js ++ [k])). apply entry_iff. exists i, js, k. repeat (split; [assumption|]).
  apply element_get; [assumption|]. split; [|reflexivity]. rewrite (wf_basic_shape _ Hwf). apply in_bounds_cons.
  split; [apply nth_error_Some; congruence|]. apply in_bounds_snoc. split; [apply (located_bounds _ _ _ Hj)|]. apply nth_error_Some. congruence.
Qed.

Lemma first_entries components : Forall (fun c => rows c <> []) components -> exists idx cs, located components idx cs.
Proof.
  induction 1 as [|c components Hc _ (idx & cs & IH)]; [exists [], []; exact I|].
  destruct (rows c) as [|e es] eqn:E; [congruence|]. exists (0 :: idx), (e :: cs). cbn. rewrite E. auto.
Qed.

Lemma found_located after original found : found_as after original found -> exists idx, located after idx original.
Proof.
  unfold found_as. destruct (exists_last_or after) as [->|(mid & l & ->)]; cbn [rev].
  - intros [-> _]. exists []. exact I.
  - rewrite rev_unit, rev_involutive. intros (position & ms & e & -> & H & _). apply combinations_located in H as (idx & L & _).
    destruct idx as [|lv ims]; [contradiction|]. destruct L as [Ll Lm]. exists (ims ++ [lv]). apply located_app; [apply located_length in Lm; tauto|].
    exists ims, [lv]. cbn. auto.
Qed.

Lemma wrong_labels t name t' key b i :
  wf_tensor t -> components_to_properties t [name] = (t', Ok tt) ->
  (forall b, In b (tm_blocks t) -> a_kind (bb_data (tb_values b)) <> RustEmptyArray) ->
  block_of t key b -> Forall (fun l => rows l <> []) (axes (tb_values b)) ->
  component_at (tb_values b) name i -> ~ nothing_exchanged (components_after (tb_values b) i) ->
  exists s cs1 xv cs2 found pr v, length cs1 = i /\ entry (tb_values b) s (cs1 ++ xv :: cs2) pr v
    /\ tensor_entry t' key s (cs1 ++ found) (xv ++ pr) v /\ found <> cs2.
Proof.
  intros Hwf H Hk Hb Hne Hc Hno. pose proof (wf_tensor_block _ _ _ Hwf Hb) as Hwb. assert (Hnn : [name] <> []) by discriminate.
  destruct (block_of_before _ _ _ _ _ Hnn H Hb) as (b' & _ & Hm).
  destruct (block_components_ok _ _ _ Hwb Hnn Hm) as ((pre & x & post & Hv) & _). destruct Hwb as [Hwv _].
  destruct (moved_after _ _ _ _ _ _ name i Hwv Hv eq_refl Hc) as [Hi Ea]. subst i. rewrite Ea in Hno.
  assert (Hin : In b (tm_blocks t)) by (destruct Hb as (i & _ & Hi); eapply nth_error_In; eauto).
  unfold axes in Hne. rewrite (cm_components _ _ _ _ _ _ Hv) in Hne. apply Forall_cons_iff in Hne as [Ns Hne'].
  apply Forall_app in Hne' as [Hne' Np]. apply Forall_inv in Np. apply Forall_app in Hne' as [Npre Hne']. apply Forall_cons_iff in Hne' as [Nx Npost].
  assert (Hd : Forall (fun c => NoDup (rows c)) post).
  { destruct (wf_basic_axes _ Hwv) as (_ & Hcs & _). rewrite (cm_components _ _ _ _ _ _ Hv) in Hcs.
    apply Forall_app in Hcs as [_ Hcs]. apply Forall_cons_iff in Hcs as [_ Hcs]. eapply Forall_impl; [|exact Hcs].
    intros c [Hcc _]. apply wf_labels_is_labels in Hcc. destruct Hcc as (_ & [_ Hd] & _). exact Hd. }
  destruct (exchanged post Hno Hd) as (cs2 & found & Hf & Hneq).
  destruct (first_entries pre Npre) as (i1 & cs1 & L1). destruct (found_located _ _ _ Hf) as (i2 & L2).
  destruct (rows (bb_samples (tb_values b))) as [|s ss] eqn:Es; [congruence|].
  destruct (rows (bb_properties (tb_values b))) as [|pr prs] eqn:Ep; [congruence|].
  destruct (rows x) as [|xv xs] eqn:Ex; [congruence|].
  destruct (located_length _ _ _ L1) as [_ Hl1].
  destruct (entry_exists (tb_values b) s (cs1 ++ xv :: cs2) pr Hwv (Hk b Hin)) as (v & He).
  - rewrite Es. left. reflexivity.
  - exists (i1 ++ 0 :: i2). rewrite (cm_components _ _ _ _ _ _ Hv). apply located_app; [exact Hl1|]. exists i1, (0 :: i2). cbn. rewrite Ex. auto.
  - rewrite Ep. left. reflexivity.
  - exists s, cs1, xv, cs2, found, pr, v. split; [exact Hl1|]. split; [exact He|]. split; [|exact Hneq].
    apply (exact_values t name t' Hwf H Hk). exists b, cs1, xv, cs2, found, pr. rewrite <- Hl1 in Hc, Ea. rewrite Ea. auto 10.
Qed.
