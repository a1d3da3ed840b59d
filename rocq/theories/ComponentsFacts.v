(* Lemmas about components_to_properties *)
From Coq Require Import Permutation.
From Verif Require Import Base BaseFacts LayoutFacts SwapLayoutFacts Labels Array Block Tensor Spec SpecTensor LabelsFacts ArrayFacts BlockFacts TensorFacts KeysFacts MergeFacts GroupFacts BlocksFacts MergePropertiesFacts.
Local Open Scope string_scope.
Local Open Scope list_scope.
Local Open Scope nat_scope.

(** * Lists *)

Lemma set_nth_app2 {A} (l r : list A) i x : set_nth (l ++ r) (length l + i) x = l ++ set_nth r i x.
Proof. induction l as [|y l IH]; simpl; [reflexivity|]. rewrite IH. reflexivity. Qed.

Lemma set_nth_middle {A} (l r : list A) x y : set_nth (l ++ x :: r) (length l) y = l ++ y :: r.
Proof. rewrite <- (Nat.add_0_r (length l)), set_nth_app2. reflexivity. Qed.

Lemma nth_error_middle {A} (l r : list A) x : nth_error (l ++ x :: r) (length l) = Some x.
Proof. rewrite nth_error_app2, Nat.sub_diag by lia. reflexivity. Qed.

Lemma remove_nth_middle {A} (l r : list A) x : remove_nth (length l) (l ++ x :: r) = l ++ r.
Proof.
  unfold remove_nth. rewrite firstn_app_exact by reflexivity. f_equal.
  replace (l ++ x :: r) with ((l ++ [x]) ++ r) by (rewrite <- app_assoc; reflexivity).
  apply skipn_app_exact. rewrite app_length. simpl. lia.
Qed.

Lemma swap_nth_self {A} i (l : list A) : swap_nth i i l = l.
Proof.
  unfold swap_nth. destruct (nth_error l i) as [x|] eqn:E; [|reflexivity].
  apply nth_error_ext. intros j. rewrite !nth_error_set_nth. rewrite set_nth_length.
  destruct (Nat.eqb_spec j i) as [->|H]; [|reflexivity].
  destruct (Nat.ltb_spec i (length l)) as [Hi|Hi]; simpl; congruence.
Qed.

(* an element is moved over at most one other *)
Lemma swap_nth_left {A} (l post r : list A) x : length post <= 1 ->
  swap_nth (length l) (length l + length post) (l ++ x :: post ++ r) = l ++ post ++ x :: r.
Proof.
  destruct post as [|y [|? ?]]; simpl; intros H; [|clear H|lia].
  - rewrite Nat.add_0_r. apply swap_nth_self.
  - unfold swap_nth. rewrite nth_error_middle.
    replace (l ++ x :: y :: r) with ((l ++ [x]) ++ y :: r) by (rewrite <- app_assoc; reflexivity).
    replace (length l + 1) with (length (l ++ [x])) by (rewrite app_length; reflexivity).
    rewrite nth_error_middle. rewrite <- app_assoc. simpl. rewrite set_nth_middle.
    rewrite app_length. simpl. rewrite (set_nth_app2 l (y :: y :: r) 1). reflexivity.
Qed.

Lemma swap_nth_right {A} (l post r : list A) x : length post <= 1 ->
  swap_nth (length l) (length l + length post) (l ++ post ++ x :: r) = l ++ x :: post ++ r.
Proof.
  destruct post as [|y [|? ?]]; simpl; intros H; [|clear H|lia].
  - rewrite Nat.add_0_r. apply swap_nth_self.
  - exact (swap_nth_left l [x] r y (le_n 1)).
Qed.

Lemma swap_nth_length {A} i j (l : list A) : length (swap_nth i j l) = length l.
Proof.
  unfold swap_nth. destruct (nth_error l i); [|reflexivity]. destruct (nth_error l j); [|reflexivity].
  rewrite !set_nth_length. reflexivity.
Qed.

Lemma product_rows_length r1 r2 : length (product_rows r1 r2) = length r1 * length r2.
Proof.
  unfold product_rows. induction r1 as [|r r1 IH]; simpl; [reflexivity|]. rewrite app_length, map_length, IH. reflexivity.
Qed.

Lemma product_rows_nth r1 r2 : forall q k, k < length r2 ->
  nth_error (product_rows r1 r2) (q * length r2 + k)
  = match nth_error r1 q, nth_error r2 k with Some a, Some b => Some (a ++ b) | _, _ => None end.
Proof.
  unfold product_rows. induction r1 as [|r r1 IH]; intros q k Hk; simpl.
  - destruct (q * length r2 + k), q; reflexivity.
  - destruct q as [|q]; simpl.
    + rewrite nth_error_app1 by (rewrite map_length; assumption). rewrite nth_error_map. destruct (nth_error r2 k); reflexivity.
    + rewrite nth_error_app2 by (rewrite map_length; lia). rewrite map_length.
      replace (length r2 + q * length r2 + k - length r2) with (q * length r2 + k) by lia. apply IH. assumption.
Qed.

Lemma prod_app s1 s2 : prod (s1 ++ s2) = prod s1 * prod s2.
Proof. induction s1 as [|n s1 IH]; simpl; [lia|]. rewrite IH. lia. Qed.

Lemma ravel_merge shape : forall idx m n q r, length idx = length shape ->
  ravel (shape ++ [m; n]) (idx ++ [q; r]) = ravel (shape ++ [m * n]) (idx ++ [q * n + r]).
Proof.
  induction shape as [|s shape IH]; intros [|i idx] m n q r H; simpl in *; try discriminate; [lia|].
  rewrite IH by lia. rewrite !prod_app. simpl. lia.
Qed.

Lemma in_bounds_app s1 : forall s2 i1 i2, length i1 = length s1 ->
  (in_bounds (s1 ++ s2) (i1 ++ i2) <-> in_bounds s1 i1 /\ in_bounds s2 i2).
Proof.
  unfold in_bounds. induction s1 as [|n s1 IH]; intros s2 [|i i1] i2 H; simpl in *; try discriminate.
  - split; [intros; split; [constructor|assumption]|tauto].
  - split.
    + intros Hf; inversion Hf; subst. rewrite IH in * by lia. split; [constructor; tauto|tauto].
    + intros [Hf H2]; inversion Hf; subst. constructor; [assumption|]. apply IH; [lia|auto].
Qed.

(** * Moving a component which is one of the last two *)

Lemma nd_swap_last a pre post m n nd1 :
  length post <= 1 -> nd_shape a = pre ++ m :: post ++ [n] ->
  nd_swap_axes (length pre) (length pre + length post) a = Some nd1 ->
  nd_shape nd1 = pre ++ post ++ [m; n] /\ wf_nd nd1
  /\ forall i1 q i2 r, length i1 = length pre -> length i2 = length post ->
       in_bounds (pre ++ post ++ [m; n]) (i1 ++ i2 ++ [q; r]) ->
       nd_get nd1 (i1 ++ i2 ++ [q; r]) = nd_get a (i1 ++ q :: i2 ++ [r]).
Proof.
  intros Hp Hs H. unfold nd_swap_axes in H. destruct (_ && _); [|discriminate]. inversion H as [E]; clear H.
  assert (Hsw : swap_nth (length pre) (length pre + length post) (nd_shape a) = pre ++ post ++ [m; n]).
  { rewrite Hs. apply swap_nth_left. assumption. }
  rewrite Hsw in *. split; [reflexivity|]. split; [apply nd_tabulate_wf|].
  intros i1 q i2 r H1 H2 Hb. rewrite nd_get_tabulate by assumption.
  rewrite <- H1, <- H2. rewrite swap_nth_right by lia. reflexivity.
Qed.

Lemma wf_nd_reshape nd shape : wf_nd nd -> prod shape = length (nd_data nd) -> wf_nd (mk_nd shape (nd_data nd)).
Proof. unfold wf_nd. simpl. intros _ H. symmetry. assumption. Qed.

Lemma div_mod_small n q r : r < n -> (q * n + r) / n = q /\ (q * n + r) mod n = r.
Proof.
  intros H. split.
  - rewrite Nat.div_add_l by lia. rewrite Nat.div_small by assumption. lia.
  - rewrite Nat.add_comm, Nat.mod_add by lia. apply Nat.mod_small. assumption.
Qed.

(* an element of the reshaped array *)
Lemma merged_axes_get nd pre m n shape i1 q r :
  nd_shape nd = pre ++ [m; n] -> shape = pre ++ [m * n] -> length i1 = length pre ->
  nd_get (mk_nd shape (nd_data nd)) (i1 ++ [q * n + r]) = nd_get nd (i1 ++ [q; r]).
Proof.
  intros H -> Hl. unfold nd_get. simpl. rewrite H. rewrite ravel_merge by assumption. reflexivity.
Qed.

(** * One block *)

Lemma find_component_ok variables cs : forall i,
  find_component variables cs = Some i ->
  exists pre x post, cs = pre ++ x :: post /\ length pre = i /\ labels_names x = variables
    /\ ~ In variables (map labels_names pre).
Proof.
  induction cs as [|c cs IH]; intros i H; simpl in H; [discriminate|].
  destruct (names_eqb (labels_names c) variables) eqn:E.
  - apply names_eqb_eq in E. inversion H; subst. exists [], c, cs. simpl. auto.
  - destruct (find_component variables cs) as [j|] eqn:F; [|discriminate]. simpl in H. inversion H; subst.
    destruct (IH j eq_refl) as (pre & x & post & -> & <- & Hx & Hn). exists (c :: pre), x, post. simpl.
    repeat split; auto. intros [Hc|Hc]; [|contradiction]. apply names_eqb_eq in Hc. congruence.
Qed.

Lemma find_component_found variables pre x post :
  labels_names x = variables -> NoDup (map labels_names (pre ++ x :: post)) ->
  find_component variables (pre ++ x :: post) = Some (length pre).
Proof.
  intros Hx. induction pre as [|c pre IH]; simpl; intros Hnd.
  - rewrite Hx, names_eqb_refl. reflexivity.
  - inversion Hnd as [|? ? Hc Hnd']; subst.
    destruct (names_eqb (labels_names c) (labels_names x)) eqn:E.
    + apply names_eqb_eq in E. exfalso. apply Hc. rewrite map_app. apply in_or_app. right. simpl. auto.
    + rewrite IH by assumption. reflexivity.
Qed.

Lemma find_component_none variables cs :
  find_component variables cs = None <-> ~ In variables (map labels_names cs).
Proof.
  induction cs as [|c cs IH]; simpl; [tauto|].
  destruct (names_eqb (labels_names c) variables) eqn:E.
  - apply names_eqb_eq in E. split; [discriminate|]. intros H; exfalso; apply H; auto.
  - destruct (find_component variables cs) as [i|] eqn:F; simpl.
    + split; [discriminate|]. intros H. exfalso.
      assert (G : Some i = None) by (apply IH; intros Hi; apply H; auto). discriminate.
    + split; [|reflexivity]. intros _ [Hc|Hc].
      * apply names_eqb_eq in Hc. congruence.
      * apply IH in Hc; auto.
Qed.

Lemma product_rows_prefixed r1 r2 : product_rows r1 r2 = flat_map (fun e => map (app e) r2) r1.
Proof. reflexivity. Qed.

(* what a successful call does to one set of data and labels *)
Record component_moved (variables : list string) (b : BasicBlock) (pre : list Labels) (x : Labels)
    (post : list Labels) (b' : BasicBlock) : Prop := {
  cm_components : bb_components b = pre ++ x :: post;
  cm_moved : labels_names x = variables;
  cm_build : labels_build (variables ++ labels_names (bb_properties b))
               (product_rows (rows x) (rows (bb_properties b))) = Ok (bb_properties b');
  cm_samples : bb_samples b' = bb_samples b;
  cm_components' : bb_components b' = pre ++ post;
  cm_kind : a_kind (bb_data b') = a_kind (bb_data b);
  cm_callbacks : a_callbacks (bb_data b') = a_callbacks (bb_data b);
  cm_shape : shape_of (bb_data b') =
    length (rows (bb_samples b)) :: map (fun l => length (rows l)) (pre ++ post)
      ++ [length (rows x) * length (rows (bb_properties b))];
  cm_data : a_kind (bb_data b) <> RustEmptyArray ->
    prod (shape_of (bb_data b')) = length (nd_data (a_nd (bb_data b')))
    /\ exists nd1, nd_swap_axes (S (length pre)) (S (length pre) + length post) (a_nd (bb_data b)) = Some nd1
       /\ nd_data (a_nd (bb_data b')) = nd_data nd1;
  cm_strides : a_kind (bb_data b) = RustNdarray ->
    let swap := swap_nth (S (length pre)) (S (length pre) + length post) in
    to_shape_strides (swap (shape_of (bb_data b))) (swap (a_strides (bb_data b))) (shape_of (bb_data b'))
    = Some (a_strides (bb_data b'));
}.

(* the checks before the array is modified *)
Definition prepared (b : BasicBlock) (component_axis : nat) (moved_component : Labels)
  : outcome (Labels * nat * list nat) :=
  let? builder := builder_new (labels_names moved_component ++ labels_names (bb_properties b)) in
  let? moved := labels_iter moved_component in
  let? old := labels_iter (bb_properties b) in
  let? builder := builder_add_all builder (product_rows moved old) in
  let? new_properties := builder_finish builder in
  let? shape := array_shape (bb_data b) in
  let? properties_axis :=
    (if length shape =? 0 then Panic "attempt to subtract with overflow" else Ok (length shape - 1)) in
  let? count := labels_count new_properties in
  let? shape := set_slice shape properties_axis count in
  if component_axis + 1 <? length shape
  then Ok (new_properties, properties_axis, remove_nth (component_axis + 1) shape)
  else Panic "removal index should be < len".

Lemma prepared_ok b pre x post r :
  wf_basic b -> bb_components b = pre ++ x :: post ->
  (prepared b (length pre) x = Ok r <->
   exists np, labels_build (labels_names x ++ labels_names (bb_properties b))
               (product_rows (rows x) (rows (bb_properties b))) = Ok np
     /\ answers (bb_data b) OpShape
     /\ r = (np, S (S (length pre + length post)),
             length (rows (bb_samples b)) :: map (fun l => length (rows l)) (pre ++ post)
             ++ [length (rows x) * length (rows (bb_properties b))])).
Proof.
  intros Hwf Hc. destruct (wf_basic_axes _ Hwf) as (Hs & Hcs & Hp). pose proof (wf_basic_shape _ Hwf) as Hsh.
  rewrite Hc in *. apply Forall_app in Hcs as [Hpre Hcs]. inversion Hcs as [|? ? Hx Hpost]; subst.
  assert (Hsh' : shape_of (bb_data b) = (length (rows (bb_samples b)) :: map (fun l => length (rows l)) pre)
             ++ length (rows x) :: map (fun l => length (rows l)) post ++ [length (rows (bb_properties b))]).
  { rewrite Hsh, map_app. simpl. rewrite <- app_assoc. reflexivity. }
  assert (Hlen : length (shape_of (bb_data b)) = S (S (S (length pre + length post)))).
  { rewrite Hsh'. simpl. rewrite !app_length. simpl. rewrite app_length, !map_length. simpl. lia. }
  assert (Hrest : forall np, labels_build (labels_names x ++ labels_names (bb_properties b))
               (product_rows (rows x) (rows (bb_properties b))) = Ok np ->
     answers (bb_data b) OpShape ->
     (let? shape := array_shape (bb_data b) in
      let? properties_axis :=
        (if length shape =? 0 then Panic "attempt to subtract with overflow" else Ok (length shape - 1)) in
      let? count := labels_count np in
      let? shape := set_slice shape properties_axis count in
      if length pre + 1 <? length shape
      then Ok (np, properties_axis, remove_nth (length pre + 1) shape)
      else Panic "removal index should be < len")
     = Ok (np, S (S (length pre + length post)),
             length (rows (bb_samples b)) :: map (fun l => length (rows l)) (pre ++ post)
             ++ [length (rows x) * length (rows (bb_properties b))])).
  { intros np Hnp Ha. rewrite (proj2 (array_shape_ok _ (shape_of (bb_data b)))) by auto. cbn [bind].
    rewrite Hlen. simpl Nat.eqb. cbn [bind]. cbn iota.
    assert (Hne : labels_names x ++ labels_names (bb_properties b) <> []).
    { intros E. apply app_eq_nil in E as [_ E]. destruct Hp as [_ Hp]. contradiction. }
    pose proof (labels_build_is_labels _ _ _ Hne Hnp) as Hil.
    rewrite (is_labels_count _ _ _ Hil Hne). cbn [bind]. rewrite product_rows_length.
    unfold set_slice. rewrite Hlen. replace (S (S (S (length pre + length post))) - 1) with (S (S (length pre + length post))) by lia.
    rewrite (proj2 (Nat.ltb_lt _ _)) by lia. cbn [bind]. rewrite set_nth_length, Hlen.
    rewrite (proj2 (Nat.ltb_lt _ _)) by lia. do 2 f_equal.
    rewrite Hsh'.
    set (s0 := length (rows (bb_samples b)) :: map (fun l => length (rows l)) pre).
    set (mpost := map (fun l => length (rows l)) post).
    replace (s0 ++ length (rows x) :: mpost ++ [length (rows (bb_properties b))])
      with ((s0 ++ length (rows x) :: mpost) ++ [length (rows (bb_properties b))]) by (rewrite <- app_assoc; reflexivity).
    replace (S (S (length pre + length post))) with (length (s0 ++ length (rows x) :: mpost)).
    2:{ rewrite app_length. unfold s0, mpost. simpl. rewrite !map_length. lia. }
    rewrite set_nth_middle. rewrite <- app_assoc, <- app_comm_cons.
    replace (length pre + 1) with (length s0) by (unfold s0; simpl; rewrite map_length; lia).
    rewrite remove_nth_middle. unfold s0, mpost. simpl. rewrite map_app, <- app_assoc. reflexivity. }
  unfold prepared. split.
  - intros H. bind_inv H. bind_inv H. bind_inv H. bind_inv H. bind_inv H.
    apply labels_iter_ok in Hb0 as [_ ->]; [|apply axis_wf; assumption].
    apply labels_iter_ok in Hb1 as [_ ->]; [|apply axis_wf; assumption].
    assert (Hbuild : labels_build (labels_names x ++ labels_names (bb_properties b))
               (product_rows (rows x) (rows (bb_properties b))) = Ok a3).
    { unfold labels_build. rewrite Hb. cbn [bind]. rewrite Hb2. cbn [bind]. assumption. }
    exists a3. split; [assumption|].
    pose proof H as H'. bind_inv H'. apply array_shape_ok in Hb0 as [Ha _]. split; [assumption|].
    rewrite (Hrest a3 Hbuild Ha) in H. congruence.
  - intros (np & Hnp & Ha & ->). rewrite <- (Hrest np Hnp Ha).
    unfold labels_build in Hnp. bind_inv Hnp. bind_inv Hnp. rewrite Hb. cbn [bind].
    rewrite (proj2 (labels_iter_ok x (rows x) (axis_wf _ Hx))) by (destruct Hx; auto). cbn [bind].
    rewrite (proj2 (labels_iter_ok _ (rows (bb_properties b)) (axis_wf _ Hp))) by (destruct Hp; auto). cbn [bind].
    rewrite Hb0. cbn [bind]. rewrite Hnp. reflexivity.
Qed.

Lemma basic_block_components_eq b variables :
  basic_block_components_to_properties b variables =
  match find_component variables (bb_components b) with
  | None =>
      (b, Err (InvalidParameter ("unable to find [" +++ join ", " variables +++ "] in the components ")))
  | Some component_axis =>
      match nth_error (bb_components b) component_axis with
      | None => (b, Panic "removal index should be < len")
      | Some moved_component =>
          let components := remove_nth component_axis (bb_components b) in
          let with_data data := mk_basic data (bb_samples b) components (bb_properties b) in
          match prepared b component_axis moved_component with
          | Ok (new_properties, properties_axis, new_shape) =>
              match array_swap_axes (bb_data b) (component_axis + 1) (properties_axis - 1) with
              | (data1, Ok _) =>
                  match array_reshape data1 new_shape with
                  | (data2, Ok _) => (mk_basic data2 (bb_samples b) components new_properties, Ok tt)
                  | (data2, failure) => (with_data data2, failure)
                  end
              | (data1, failure) => (with_data data1, failure)
              end
          | Err e => (with_data (bb_data b), Err e)
          | Panic m => (with_data (bb_data b), Panic m)
          | Undefined r => (with_data (bb_data b), Undefined r)
          end
      end
  end.
Proof. reflexivity. Qed.

Lemma array_swap_ok a i j a' r :
  array_swap_axes a i j = (a', Ok r) ->
  a_kind a' = a_kind a /\ a_callbacks a' = a_callbacks a /\
  (a_kind a <> RustEmptyArray -> nd_swap_axes i j (a_nd a) = Some (a_nd a')).
Proof.
  unfold array_swap_axes. destruct (a_kind a) as [| |o] eqn:K.
  - destruct (nd_swap_axes i j (a_nd a)) eqn:E; intros H; inversion H; subst; simpl; auto.
  - destruct (_ && _); intros H; inversion H; subst; simpl. repeat split; auto. congruence.
  - destruct (call a OpSwapAxes (Ok tt)) eqn:C; try (intros H; inversion H; fail).
    destruct (nd_swap_axes i j (a_nd a)) eqn:E; intros H; inversion H; subst; simpl; auto.
Qed.

Lemma array_reshape_ok a shape a' r :
  array_reshape a shape = (a', Ok r) ->
  a_kind a' = a_kind a /\ a_callbacks a' = a_callbacks a /\ shape_of a' = shape /\
  (a_kind a <> RustEmptyArray -> prod shape = length (nd_data (a_nd a)) /\ nd_data (a_nd a') = nd_data (a_nd a)).
Proof.
  unfold array_reshape, nd_to_shape. destruct (a_kind a) as [| |o] eqn:K.
  - destruct (Nat.eqb_spec (prod shape) (length (nd_data (a_nd a)))) as [E|E]; intros H; inversion H; subst; simpl; auto.
  - intros H; inversion H; subst; simpl. repeat split; auto; congruence.
  - destruct (call a OpReshape (Ok tt)) eqn:C; try (intros H; inversion H; fail).
    destruct (Nat.eqb_spec (prod shape) (length (nd_data (a_nd a)))) as [E|E]; intros H; inversion H; subst; simpl; auto.
Qed.

Lemma array_swap_strides a i j a' r :
  array_swap_axes a i j = (a', Ok r) -> a_kind a = RustNdarray ->
  a_strides a' = swap_nth i j (a_strides a) /\ shape_of a' = swap_nth i j (shape_of a) /\ wf_nd (a_nd a').
Proof.
  intros H K. unfold array_swap_axes in H. rewrite K in H. unfold nd_swap_axes in H.
  destruct (_ && _); inversion H. split; [reflexivity|]. split; [reflexivity|apply nd_tabulate_wf].
Qed.

Lemma array_reshape_strides a shape a' r :
  array_reshape a shape = (a', Ok r) -> a_kind a = RustNdarray -> wf_nd (a_nd a) ->
  length (a_strides a) = length (shape_of a) ->
  to_shape_strides (shape_of a) (a_strides a) shape = Some (a_strides a').
Proof.
  intros H K Hw Hl. unfold array_reshape in H. rewrite K in H. unfold nd_to_shape in H.
  destruct (Nat.eqb_spec (prod shape) (length (nd_data (a_nd a)))) as [E|]; inversion H. cbn [a_strides with_layout].
  unfold reshaped_strides. destruct (to_shape_defined (shape_of a) (a_strides a) shape) as [s Hs]; [exact Hl| |].
  - rewrite E. exact Hw.
  - unfold shape_of in Hs. rewrite Hs. exact Hs.
Qed.

Lemma basic_components_ok b variables b' :
  wf_basic b -> basic_block_components_to_properties b variables = (b', Ok tt) ->
  exists pre x post, component_moved variables b pre x post b'.
Proof.
  intros Hwf. rewrite basic_block_components_eq.
  destruct (find_component variables (bb_components b)) as [i|] eqn:F; [|discriminate].
  apply find_component_ok in F as (pre & x & post & Hc & <- & Hx & _).
  rewrite Hc at 1. rewrite nth_error_middle. rewrite Hc, remove_nth_middle. cbn zeta.
  destruct (prepared b (length pre) x) as [[[np axis] shape]|e|m|u] eqn:P; try discriminate.
  apply (prepared_ok _ _ _ _ _ Hwf Hc) in P as (np' & Hnp & Ha & E). inversion E; subst np' axis shape; clear E.
  destruct (array_swap_axes _ _ _) as [data1 [[]|e|m|u]] eqn:S1; try discriminate.
  destruct (array_reshape _ _) as [data2 [[]|e|m|u]] eqn:S2; try discriminate.
  intros H; inversion H; subst b'; clear H.
  pose proof (array_swap_strides _ _ _ _ _ S1) as Z1. pose proof (array_reshape_strides _ _ _ _ S2) as Z2.
  apply array_swap_ok in S1 as (K1 & C1 & D1). apply array_reshape_ok in S2 as (K2 & C2 & Sh & D2).
  exists pre, x, post. constructor; simpl; auto; try congruence.
  2:{ intros Hk. destruct (Z1 Hk) as (Z3 & Z4 & Z5). rewrite Z3, Z4 in Z2. rewrite K1, !swap_nth_length in Z2.
      specialize (Z2 Hk Z5 (proj2 (proj1 Hwf) Hk)). rewrite <- Sh in Z2.
      replace (length pre + 1) with (S (length pre)) in Z2 by lia.
      replace (S (S (length pre + length post)) - 1) with (S (length pre) + length post) in Z2 by lia. exact Z2. }
  intros Hk. destruct D2 as [D2 D3]; [congruence|]. specialize (D1 Hk). rewrite Sh, D3. split; [assumption|].
  exists (a_nd data1). split; [|reflexivity].
  replace (length pre + 1) with (S (length pre)) in D1 by lia.
  replace (S (S (length pre + length post)) - 1) with (S (length pre) + length post) in D1 by lia. assumption.
Qed.

Section Moved.
  Context (variables : list string) (b : BasicBlock) (pre : list Labels) (x : Labels) (post : list Labels) (b' : BasicBlock).
  Hypothesis Hwf : wf_basic b.
  Hypothesis Hm : component_moved variables b pre x post b'.

  Lemma moved_properties_labels :
    is_labels (bb_properties b') (variables ++ labels_names (bb_properties b))
      (product_rows (rows x) (rows (bb_properties b))).
  Proof.
    apply labels_build_is_labels; [|apply (cm_build _ _ _ _ _ _ Hm)].
    destruct (wf_basic_axes _ Hwf) as (_ & _ & _ & Hp). intros E. apply app_eq_nil in E as [_ E]. contradiction.
  Qed.

  Lemma moved_properties_rows : rows (bb_properties b') = product_rows (rows x) (rows (bb_properties b)).
  Proof.
    pose proof moved_properties_labels as H. assert (Hw : wf_labels (bb_properties b')) by (do 2 eexists; exact H).
    apply wf_labels_is_labels in Hw. apply (is_labels_unique _ _ _ _ _ Hw H).
  Qed.

  Lemma moved_properties_names : labels_names (bb_properties b') = variables ++ labels_names (bb_properties b).
  Proof. apply (is_labels_names _ _ _ moved_properties_labels). Qed.

  Lemma moved_basic_wf : wf_basic b'.
  Proof.
    destruct (wf_basic_axes _ Hwf) as (Hs & Hcs & Hp). destruct Hwf as (Ha & _ & _ & Hone & Hnd).
    destruct Hm as [Hc Hx Hb Hsam Hcomp Hk Hcb Hsh Hd Hst]. rewrite Hc in *.
    apply Forall_app in Hcs as [Hpre Hcs]. apply Forall_cons_iff in Hcs as [Hxx Hpost].
    assert (Hax : axis_labels (bb_properties b')).
    { split; [do 2 eexists; apply moved_properties_labels|]. rewrite moved_properties_names.
      destruct Hp as [_ Hp]. intros E. apply app_eq_nil in E as [_ E]. contradiction. }
    split; [|split; [|split; [|split]]].
    - split; intros K; rewrite Hk in K; [rewrite <- prod_volume; symmetry; apply Hd; exact K|].
      apply (to_shape_length _ _ _ _) with (2 := Hst K). rewrite !swap_nth_length. exact (proj2 Ha K).
    - unfold axes. rewrite Hsam, Hcomp. constructor; [assumption|]. apply Forall_app. split; [|constructor; auto].
      apply Forall_app; auto.
    - rewrite Hsh. unfold axes. rewrite Hsam, Hcomp. simpl. rewrite (map_app _ (pre ++ post)). simpl.
      rewrite moved_properties_rows, product_rows_length. reflexivity.
    - rewrite Hcomp. apply Forall_app in Hone as [H1 H2]. apply Forall_cons_iff in H2 as [_ H2]. apply Forall_app. auto.
    - rewrite Hcomp, map_app. rewrite map_app in Hnd. simpl in Hnd. apply NoDup_remove_1 in Hnd. assumption.
  Qed.

  (* where the elements go, when the component is one of the last two *)
  Lemma moved_element :
    a_kind (bb_data b) <> RustEmptyArray -> length post <= 1 ->
    forall i i1 q i2 r v, length i1 = length pre -> length i2 = length post -> r < length (rows (bb_properties b)) ->
      (element (bb_data b') (i :: (i1 ++ i2) ++ [q * length (rows (bb_properties b)) + r]) v
       <-> element (bb_data b) (i :: (i1 ++ q :: i2) ++ [r]) v).
  Proof.
    intros Hk Hp i i1 q i2 r v H1 H2 Hr.
    pose proof (wf_basic_shape _ Hwf) as Hsh0. destruct Hm as [Hc Hx Hb Hsam Hcomp Hk' Hcb Hsh Hd].
    destruct (Hd Hk) as (Hvol & nd1 & Hsw & Hdata).
    set (cnt := fun l : Labels => length (rows l)) in *.
    set (A := cnt (bb_samples b) :: map cnt pre). set (B := map cnt post). set (m := cnt x). set (n := cnt (bb_properties b)) in *.
    assert (HA : length A = S (length pre)) by (unfold A; simpl; rewrite map_length; reflexivity).
    assert (HB : length B = length post) by (unfold B; apply map_length).
    assert (Hs0 : nd_shape (a_nd (bb_data b)) = A ++ m :: B ++ [n]).
    { change (nd_shape (a_nd (bb_data b))) with (shape_of (bb_data b)). rewrite Hsh0, Hc, map_app. unfold A, B, m, n.
      simpl. rewrite <- app_assoc. reflexivity. }
    assert (HpB : length B <= 1) by lia.
    rewrite <- HA, <- HB in Hsw. destruct (nd_swap_last _ _ _ _ _ _ HpB Hs0 Hsw) as (Hs1 & Hw1 & Hget).
    assert (Hs2 : shape_of (bb_data b') = (A ++ B) ++ [m * n]).
    { rewrite Hsh. unfold A, B, m, n. rewrite map_app. simpl. rewrite <- !app_assoc. reflexivity. }
    assert (Hw' : wf_nd (a_nd (bb_data b'))) by (unfold wf_nd; symmetry; exact Hvol).
    assert (Hw0 : wf_nd (a_nd (bb_data b))) by (apply wf_array_nd; [destruct Hwf; assumption|assumption]).
    rewrite !element_get by assumption.
    change (length (rows (bb_properties b))) with n in *.
    assert (Hnd' : a_nd (bb_data b') = mk_nd ((A ++ B) ++ [m * n]) (nd_data nd1)).
    { rewrite <- Hs2, <- Hdata. unfold shape_of. destruct (a_nd (bb_data b')); reflexivity. }
    change (i :: (i1 ++ i2) ++ [q * n + r]) with (((i :: i1) ++ i2) ++ [q * n + r]).
    replace (i :: (i1 ++ q :: i2) ++ [r]) with ((i :: i1) ++ q :: i2 ++ [r]) by (simpl; rewrite <- app_assoc; reflexivity).
    rewrite Hnd', (merged_axes_get nd1 (A ++ B) m n _ ((i :: i1) ++ i2) q r).
    2:{ rewrite Hs1, <- app_assoc. reflexivity. }
    2: reflexivity.
    2:{ rewrite !app_length, HA, HB. cbn [length]. lia. }
    unfold shape_of in Hs2 |- *. rewrite Hs2, Hs0.
    assert (Hl1 : length (i :: i1) = length A) by (rewrite HA; cbn [length]; lia).
    assert (Hl2 : length ((i :: i1) ++ i2) = length (A ++ B)) by (rewrite !app_length; lia).
    rewrite (in_bounds_app (A ++ B)) by assumption. rewrite (in_bounds_app A B) by assumption.
    rewrite (in_bounds_app A) by assumption. change (m :: B ++ [n]) with ([m] ++ B ++ [n]).
    change (q :: i2 ++ [r]) with ([q] ++ i2 ++ [r]). rewrite (in_bounds_app [m]) by reflexivity.
    rewrite (in_bounds_app B) by congruence.
    assert (Hmn : in_bounds [m * n] [q * n + r] <-> in_bounds [m] [q] /\ in_bounds [n] [r]).
    { unfold in_bounds. split.
      - intros H; inversion H; subst. assert (q < m) by nia. split; repeat constructor; assumption.
      - intros [H _]; inversion H; subst. repeat constructor. nia. }
    rewrite Hmn.
    split.
    - intros [([HbA HbB] & Hbm & Hbn) <-]. split; [tauto|]. symmetry.
      rewrite <- (app_assoc (i :: i1) i2 [q; r]). apply (Hget (i :: i1) q i2 r); [assumption|congruence|].
      apply (in_bounds_app A); [assumption|]. split; [assumption|]. apply in_bounds_app; [congruence|].
      split; [assumption|]. inversion Hbm; inversion Hbn; subst. repeat constructor; assumption.
    - intros [(HbA & Hbm & HbB & Hbn) <-]. split; [tauto|].
      rewrite <- (app_assoc (i :: i1) i2 [q; r]). apply (Hget (i :: i1) q i2 r); [assumption|congruence|].
      apply (in_bounds_app A); [assumption|]. split; [assumption|]. apply in_bounds_app; [congruence|].
      split; [assumption|]. inversion Hbm; inversion Hbn; subst. repeat constructor; assumption.
  Qed.

  Lemma moved_entry :
    a_kind (bb_data b) <> RustEmptyArray -> length post <= 1 ->
    forall s cs' pr' v,
      entry b' s cs' pr' v <->
      exists cs1 xv cs2 pr, length cs1 = length pre /\ cs' = cs1 ++ cs2 /\ pr' = xv ++ pr
        /\ entry b s (cs1 ++ xv :: cs2) pr v.
  Proof.
    intros Hk Hp s cs' pr' v. pose proof (moved_element Hk Hp) as He. rewrite entry_iff.
    rewrite (cm_samples _ _ _ _ _ _ Hm), (cm_components' _ _ _ _ _ _ Hm), moved_properties_rows.
    set (props := rows (bb_properties b)) in *. split.
    - intros (i & js & k & Hi & Hj & Hkk & Hv).
      assert (Hlcs : length cs' = length (pre ++ post)) by (apply located_length in Hj; tauto).
      rewrite <- (firstn_skipn (length pre) cs') in Hj.
      assert (Hl1 : length (firstn (length pre) cs') = length pre).
      { rewrite firstn_length, Hlcs, app_length. lia. }
      apply located_app in Hj as (j1 & j2 & -> & Hj1 & Hj2); [|assumption].
      assert (Hkl : k < length (product_rows (rows x) props)) by (apply nth_error_Some; congruence).
      rewrite product_rows_length in Hkl.
      assert (Hn : length props <> 0) by (intros E; rewrite E in Hkl; lia).
      assert (Ek : k = (k / length props) * length props + k mod length props) by (rewrite Nat.mul_comm; apply Nat.div_mod; assumption).
      assert (Hr : k mod length props < length props) by (apply Nat.mod_upper_bound; assumption).
      rewrite Ek in Hkk, Hv. rewrite product_rows_nth in Hkk by assumption.
      destruct (nth_error (rows x) (k / length props)) as [xv|] eqn:Ex; [|discriminate].
      destruct (nth_error props (k mod length props)) as [pr|] eqn:Ep; [|discriminate]. inversion Hkk; subst pr'.
      exists (firstn (length pre) cs'), xv, (skipn (length pre) cs'), pr.
      split; [assumption|]. split; [symmetry; apply firstn_skipn|]. split; [reflexivity|].
      apply entry_iff. exists i, (j1 ++ (k / length props) :: j2), (k mod length props).
      split; [assumption|]. split; [|split; [assumption|]].
      + rewrite (cm_components _ _ _ _ _ _ Hm). apply located_app; [assumption|].
        exists j1, ((k / length props) :: j2). split; [reflexivity|]. split; [assumption|]. simpl. auto.
      + apply He; auto.
        * apply located_length in Hj1. tauto.
        * apply located_length in Hj2. tauto.
    - intros (cs1 & xv & cs2 & pr & Hl & -> & -> & H). apply entry_iff in H as (i & js & k & Hi & Hj & Hkk & Hv).
      rewrite (cm_components _ _ _ _ _ _ Hm) in Hj. apply located_app in Hj as (j1 & j2 & -> & Hj1 & Hj2); [|assumption].
      destruct j2 as [|q j2]; simpl in Hj2; [contradiction|]. destruct Hj2 as [Hq Hj2].
      assert (Hkl : k < length props) by (apply nth_error_Some; unfold props; congruence).
      exists i, (j1 ++ j2), (q * length props + k). split; [assumption|].
      split; [|split].
      + apply located_app; [assumption|]. eauto.
      + rewrite product_rows_nth by assumption. rewrite Hq. unfold props. rewrite Hkk. reflexivity.
      + apply He; auto.
        * apply located_length in Hj1. tauto.
        * apply located_length in Hj2. tauto.
  Qed.
End Moved.

Lemma moved_component_at variables b pre x post b' name i :
  wf_basic b -> component_moved variables b pre x post b' -> variables = [name] ->
  (component_at b name i <-> i = length pre).
Proof.
  intros (_ & _ & _ & _ & Hnd) Hm ->. unfold component_at. rewrite (cm_components _ _ _ _ _ _ Hm) in *.
  assert (H0 : nth_error (map labels_names (pre ++ x :: post)) (length pre) = Some [name]).
  { rewrite nth_error_map, nth_error_middle. simpl. rewrite (cm_moved _ _ _ _ _ _ Hm). reflexivity. }
  split.
  - intros H. eapply NoDup_nth_error_inj; eauto.
  - intros ->. assumption.
Qed.

Lemma among_last_two_post variables b pre x post b' name :
  wf_basic b -> component_moved variables b pre x post b' -> variables = [name] ->
  (among_last_two b name <-> length post <= 1).
Proof.
  intros Hwf Hm Hv. unfold among_last_two. rewrite (cm_components _ _ _ _ _ _ Hm), app_length. simpl. split.
  - intros (i & Hi & Hl). apply (moved_component_at _ _ _ _ _ _ _ _ Hwf Hm Hv) in Hi. lia.
  - intros H. exists (length pre). split; [|lia]. apply (moved_component_at _ _ _ _ _ _ _ _ Hwf Hm Hv). reflexivity.
Qed.

(** * Values and gradients *)

Lemma gradients_components_ok variables gradients : forall gradients',
  Forall (fun pg => wf_basic (snd pg)) gradients ->
  gradients_components_to_properties variables gradients = (gradients', Ok tt) ->
  Forall2 (fun pg pg' => fst pg' = fst pg
    /\ exists pre x post, component_moved variables (snd pg) pre x post (snd pg')) gradients gradients'.
Proof.
  induction gradients as [|[q g] gradients IH]; intros gradients' Hwf H; simpl in H.
  - inversion H; subst. constructor.
  - inversion Hwf as [|? ? Hg Hgs]; subst. simpl in Hg.
    destruct (basic_block_components_to_properties g variables) as [g' [[]|e|m|u]] eqn:E; try discriminate.
    destruct (gradients_components_to_properties variables gradients) as [gs' r] eqn:E'.
    inversion H; subst. constructor.
    + simpl. split; [reflexivity|]. apply basic_components_ok; assumption.
    + apply IH; auto.
Qed.

Lemma block_components_ok b variables b' :
  wf_block b -> variables <> [] -> tensor_block_components_to_properties b variables = (b', Ok tt) ->
  (exists pre x post, component_moved variables (tb_values b) pre x post (tb_values b'))
  /\ Forall2 (fun pg pg' => fst pg' = fst pg
       /\ exists pre x post, component_moved variables (snd pg) pre x post (snd pg')) (tb_gradients b) (tb_gradients b')
  /\ tb_gradient_parameters b' = tb_gradient_parameters b.
Proof.
  intros Hwf Hne H. destruct Hwf as (Hv & Hg & _). unfold tensor_block_components_to_properties in H.
  destruct variables as [|v variables]; [congruence|].
  destruct (basic_block_components_to_properties (tb_values b) (v :: variables)) as [values [[]|e|m|u]] eqn:E; try discriminate.
  destruct (gradients_components_to_properties (v :: variables) (tb_gradients b)) as [gs r] eqn:E'.
  inversion H; subst. simpl. split; [apply basic_components_ok; assumption|]. split; [|reflexivity].
  apply gradients_components_ok; [|assumption]. eapply Forall_impl; [|exact Hg]. intros pg [Hpg _]. assumption.
Qed.

Lemma split_unique variables (pre1 pre2 : list Labels) x1 x2 post1 post2 :
  labels_names x1 = variables -> labels_names x2 = variables ->
  NoDup (map labels_names (pre1 ++ x1 :: post1)) ->
  pre1 ++ x1 :: post1 = pre2 ++ x2 :: post2 -> pre1 = pre2 /\ x1 = x2 /\ post1 = post2.
Proof.
  intros H1 H2 Hnd E.
  assert (Hl : length pre1 = length pre2).
  { eapply NoDup_nth_error_inj; [exact Hnd| |].
    - rewrite nth_error_map, nth_error_middle. reflexivity.
    - rewrite E, nth_error_map, nth_error_middle. simpl. congruence. }
  destruct (app_eq_length _ _ _ _ Hl E) as [-> E']. inversion E'; subst. auto.
Qed.

Lemma Forall2_middle {A B} (P : A -> B -> Prop) l2' x l2 l1 :
  Forall2 P l1 (l2' ++ x :: l2) -> exists l1' y l1'', l1 = l1' ++ y :: l1'' /\ Forall2 P l1' l2' /\ P y x /\ Forall2 P l1'' l2.
Proof.
  intros H. apply Forall2_app_inv_r in H as (l1' & r & H1 & H2 & ->). inversion H2; subst. eauto 10.
Qed.

(* the component is at the same place, from the end, in values and gradients *)
Lemma gradient_component_place b q g variables pre x post b' pre_g x_g post_g g' :
  wf_block b -> In (q, g) (tb_gradients b) ->
  component_moved variables (tb_values b) pre x post b' ->
  component_moved variables g pre_g x_g post_g g' ->
  same_labels x_g x /\ length post_g = length post
  /\ exists prefix pre', pre_g = prefix ++ pre' /\ Forall2 same_labels pre' pre /\ Forall2 same_labels post_g post.
Proof.
  intros Hwf Hin Hv Hg. destruct (wf_block_gradient _ _ _ Hwf Hin) as (Hwg & (_ & Hends & _) & _).
  destruct Hends as (prefix & rest & Hc & Hf). rewrite (cm_components _ _ _ _ _ _ Hv) in Hf.
  apply Forall2_middle in Hf as (pre' & x' & post' & -> & F1 & F2 & F3).
  rewrite app_assoc in Hc. rewrite (cm_components _ _ _ _ _ _ Hg) in Hc.
  assert (Hnx : labels_names x' = variables).
  { destruct F2 as [F2 _]. unfold labels_names. rewrite F2. apply (cm_moved _ _ _ _ _ _ Hv). }
  assert (Hnd : NoDup (map labels_names (pre_g ++ x_g :: post_g))).
  { destruct Hwg as (_ & _ & _ & _ & Hnd). rewrite <- (cm_components _ _ _ _ _ _ Hg). assumption. }
  destruct (split_unique variables _ _ _ _ _ _ (cm_moved _ _ _ _ _ _ Hg) Hnx Hnd Hc) as (-> & -> & ->).
  split; [assumption|]. split; [eapply Forall2_len; eauto|]. exists prefix, pre'. auto.
Qed.

Lemma block_components_wf b variables b' :
  wf_block b -> variables <> [] -> tensor_block_components_to_properties b variables = (b', Ok tt) -> wf_block b'.
Proof.
  intros Hwf Hne H. destruct (block_components_ok _ _ _ Hwf Hne H) as ((pre & x & post & Hv) & Hg & Hpar).
  pose proof Hwf as (Hwv & Hwg & Hnd & Hperm & Hval).
  assert (Hkeys : map fst (tb_gradients b') = map fst (tb_gradients b)).
  { clear - Hg. induction Hg as [|? ? ? ? [E _] ? IH]; simpl; [reflexivity|]. rewrite E, IH. reflexivity. }
  split; [apply (moved_basic_wf _ _ _ _ _ _ Hwv Hv)|]. rewrite Hkeys, Hpar. split; [|auto].
  apply Forall_forall. intros [q g'] Hin.
  destruct (Forall2_In_r _ _ _ _ Hg Hin) as ([q0 g] & Hin0 & E & pre_g & x_g & post_g & Hm). simpl in E, Hm |- *. subst q0.
  destruct (wf_block_gradient _ _ _ Hwf Hin0) as (Hwb & (Hsam & _ & Hprop & Hkind) & _).
  destruct (gradient_component_place _ _ _ _ _ _ _ _ _ _ _ _ Hwf Hin0 Hv Hm) as (Hx & Hl & prefix & pre' & Hpre & F1 & F2).
  split; [apply (moved_basic_wf _ _ _ _ _ _ Hwb Hm)|].
  split; [|split; [|split]].
  - rewrite (cm_samples _ _ _ _ _ _ Hm). assumption.
  - rewrite (cm_components' _ _ _ _ _ _ Hm), (cm_components' _ _ _ _ _ _ Hv). exists prefix, (pre' ++ post_g).
    split; [rewrite Hpre, app_assoc; reflexivity|]. apply Forall2_app; assumption.
  - pose proof (cm_build _ _ _ _ _ _ Hm) as B1. pose proof (cm_build _ _ _ _ _ _ Hv) as B2.
    destruct Hx as [_ Hx]. rewrite Hx, Hprop in B1. congruence.
  - rewrite (cm_kind _ _ _ _ _ _ Hm), (cm_kind _ _ _ _ _ _ Hv). assumption.
Qed.

(** * Tensor maps *)

Lemma blocks_components_ok variables blocks : forall blocks',
  blocks_components_to_properties variables blocks = (blocks', Ok tt) <->
  Forall2 (fun b b' => tensor_block_components_to_properties b variables = (b', Ok tt)) blocks blocks'.
Proof.
  induction blocks as [|b blocks IH]; intros blocks'; simpl.
  - split; intros H; inversion H; subst; [constructor|reflexivity].
  - destruct (tensor_block_components_to_properties b variables) as [b1 [[]|e|m|u]] eqn:E.
    + destruct (blocks_components_to_properties variables blocks) as [bs r] eqn:E'. split.
      * intros H; inversion H; subst. constructor; [assumption|]. apply IH. reflexivity.
      * intros H; inversion H as [|? b1' ? bs' H1 H2]; subst. apply IH in H2. congruence.
    + split; [discriminate|]. intros H; inversion H; subst; congruence.
    + split; [discriminate|]. intros H; inversion H; subst; congruence.
    + split; [discriminate|]. intros H; inversion H; subst; congruence.
Qed.

Lemma components_to_properties_ok t variables t' :
  variables <> [] -> components_to_properties t variables = (t', Ok tt) ->
  tm_keys t' = tm_keys t
  /\ Forall2 (fun b b' => tensor_block_components_to_properties b variables = (b', Ok tt)) (tm_blocks t) (tm_blocks t').
Proof.
  intros Hne H. unfold components_to_properties in H. destruct variables as [|v variables]; [congruence|].
  destruct (blocks_components_to_properties (v :: variables) (tm_blocks t)) as [bs r] eqn:E.
  inversion H; subst. split; [reflexivity|]. apply (proj1 (blocks_components_ok (v :: variables) _ _)). exact E.
Qed.

Lemma block_of_components t variables t' key b' :
  variables <> [] -> components_to_properties t variables = (t', Ok tt) ->
  (block_of t' key b' <-> exists b, block_of t key b /\ exists i, nth_error (tm_blocks t) i = Some b
     /\ nth_error (rows (tm_keys t)) i = Some key /\ nth_error (tm_blocks t') i = Some b'
     /\ tensor_block_components_to_properties b variables = (b', Ok tt)).
Proof.
  intros Hne H. apply components_to_properties_ok in H as [Hk Hf]; [|assumption]. unfold block_of. rewrite Hk. split.
  - intros (i & H1 & H2). destruct (Forall2_nth_error_r _ _ _ _ _ Hf H2) as (b & Hb & Hc).
    exists b. split; [exists i; auto|]. exists i. auto.
  - intros (b & _ & i & H1 & H2 & H3 & H4). exists i. auto.
Qed.

Lemma block_of_before t variables t' key b :
  variables <> [] -> components_to_properties t variables = (t', Ok tt) -> block_of t key b ->
  exists b', block_of t' key b' /\ tensor_block_components_to_properties b variables = (b', Ok tt).
Proof.
  intros Hne H (i & H1 & H2). apply components_to_properties_ok in H as [Hk Hf]; [|assumption].
  destruct (Forall2_nth_error_l _ _ _ _ _ Hf H2) as (b' & Hb & Hc). exists b'. split; [|assumption].
  exists i. rewrite Hk. auto.
Qed.

Lemma block_of_after t variables t' key b' :
  variables <> [] -> components_to_properties t variables = (t', Ok tt) -> block_of t' key b' ->
  exists b, block_of t key b /\ tensor_block_components_to_properties b variables = (b', Ok tt).
Proof.
  intros Hne H Hb. apply (block_of_components _ _ _ _ _ Hne H) in Hb as (b & Hb & i & _ & _ & _ & Hc). eauto.
Qed.

Lemma wf_tensor_block t key b : wf_tensor t -> block_of t key b -> wf_block b.
Proof.
  intros (_ & Hb & _) (i & _ & H). rewrite Forall_forall in Hb. apply Hb. eapply nth_error_In; eauto.
Qed.

Lemma tensor_entry_of t key s cs pr v :
  tensor_entry t key s cs pr v <-> exists b, block_of t key b /\ entry (tb_values b) s cs pr v.
Proof.
  unfold tensor_entry, block_of. split.
  - intros (i & b & H1 & H2 & H3). exists b. split; [exists i; auto|assumption].
  - intros (b & (i & H1 & H2) & H3). exists i, b. auto.
Qed.

Lemma components_values t name t' :
  wf_tensor t -> components_to_properties t [name] = (t', Ok tt) ->
  (forall b, In b (tm_blocks t) -> a_kind (bb_data (tb_values b)) <> RustEmptyArray) ->
  (forall b, In b (tm_blocks t) -> among_last_two (tb_values b) name) ->
  forall key s cs' pr' v,
    tensor_entry t' key s cs' pr' v <->
    exists b cs1 xv cs2 pr, block_of t key b /\ component_at (tb_values b) name (length cs1)
      /\ cs' = cs1 ++ cs2 /\ pr' = xv ++ pr /\ entry (tb_values b) s (cs1 ++ xv :: cs2) pr v.
Proof.
  intros Hwf H Hk Hl key s cs' pr' v. assert (Hne : [name] <> []) by discriminate. rewrite tensor_entry_of.
  assert (G : forall b b', block_of t key b -> tensor_block_components_to_properties b [name] = (b', Ok tt) ->
            (entry (tb_values b') s cs' pr' v <-> exists cs1 xv cs2 pr, component_at (tb_values b) name (length cs1)
               /\ cs' = cs1 ++ cs2 /\ pr' = xv ++ pr /\ entry (tb_values b) s (cs1 ++ xv :: cs2) pr v)).
  { intros b b' Hb Hc. pose proof (wf_tensor_block _ _ _ Hwf Hb) as Hwb.
    destruct (block_components_ok _ _ _ Hwb Hne Hc) as ((pre & x & post & Hv) & _).
    assert (Hin : In b (tm_blocks t)) by (destruct Hb as (i & _ & Hi); eapply nth_error_In; eauto).
    destruct Hwb as [Hwv _].
    rewrite (moved_entry _ _ _ _ _ _ Hwv Hv (Hk b Hin)).
    2:{ apply (among_last_two_post _ _ _ _ _ _ name Hwv Hv eq_refl). auto. }
    split; intros (cs1 & xv & cs2 & pr & H1 & H2); exists cs1, xv, cs2, pr; (split; [|assumption]);
      apply (moved_component_at _ _ _ _ _ _ name _ Hwv Hv eq_refl); assumption. }
  split.
  - intros (b' & Hb' & He). destruct (block_of_after _ _ _ _ _ Hne H Hb') as (b & Hb & Hc).
    destruct (proj1 (G b b' Hb Hc) He) as (cs1 & xv & cs2 & pr & He'). exists b, cs1, xv, cs2, pr. auto.
  - intros (b & cs1 & xv & cs2 & pr & Hb & He). destruct (block_of_before _ _ _ _ _ Hne H Hb) as (b' & Hb' & Hc).
    exists b'. split; [assumption|]. apply (G b b' Hb Hc). eauto.
Qed.

Lemma components_gradients t name t' :
  wf_tensor t -> components_to_properties t [name] = (t', Ok tt) ->
  (forall b, In b (tm_blocks t) -> a_kind (bb_data (tb_values b)) <> RustEmptyArray) ->
  (forall b, In b (tm_blocks t) -> among_last_two (tb_values b) name) ->
  forall key q s rest cs' pr' v,
    tensor_gradient_value t' key q s rest cs' pr' v <->
    exists b i g cs1 xv cs2 pr, block_of t key b /\ In (q, g) (tb_gradients b)
      /\ nth_error (rows (bb_samples (tb_values b))) i = Some s
      /\ component_at g name (length cs1)
      /\ cs' = cs1 ++ cs2 /\ pr' = xv ++ pr /\ entry g (Z.of_nat i :: rest) (cs1 ++ xv :: cs2) pr v.
Proof.
  intros Hwf H Hk Hl key q s rest cs' pr' v. assert (Hne : [name] <> []) by discriminate.
  unfold tensor_gradient_value.
  assert (G : forall b b', block_of t key b -> tensor_block_components_to_properties b [name] = (b', Ok tt) ->
            bb_samples (tb_values b') = bb_samples (tb_values b)
            /\ (forall g, In (q, g) (tb_gradients b) -> exists g', In (q, g') (tb_gradients b'))
            /\ forall g', In (q, g') (tb_gradients b') -> exists g, In (q, g) (tb_gradients b)
               /\ forall i, (entry g' (Z.of_nat i :: rest) cs' pr' v <->
                   exists cs1 xv cs2 pr, component_at g name (length cs1)
                     /\ cs' = cs1 ++ cs2 /\ pr' = xv ++ pr /\ entry g (Z.of_nat i :: rest) (cs1 ++ xv :: cs2) pr v)).
  { intros b b' Hb Hc. pose proof (wf_tensor_block _ _ _ Hwf Hb) as Hwb.
    destruct (block_components_ok _ _ _ Hwb Hne Hc) as ((pre & x & post & Hv) & Hg & _).
    assert (Hin : In b (tm_blocks t)) by (destruct Hb as (i & _ & Hi); eapply nth_error_In; eauto).
    pose proof Hwb as [Hwv _].
    split; [apply (cm_samples _ _ _ _ _ _ Hv)|]. split.
    { intros g Hgi. destruct (Forall2_In_l _ _ _ _ Hg Hgi) as ([q' g'] & Hg' & E & _). simpl in E. subst. eauto. }
    intros g' Hg'. destruct (Forall2_In_r _ _ _ _ Hg Hg') as ([q0 g] & Hgi & E & pre_g & x_g & post_g & Hm).
    simpl in E, Hm. subst q0. exists g. split; [assumption|]. intros i.
    destruct (wf_block_gradient _ _ _ Hwb Hgi) as (Hwg & (_ & _ & _ & Hkind) & _).
    destruct (gradient_component_place _ _ _ _ _ _ _ _ _ _ _ _ Hwb Hgi Hv Hm) as (_ & Hlen & _).
    rewrite (moved_entry _ _ _ _ _ _ Hwg Hm).
    2:{ rewrite Hkind. auto. }
    2:{ rewrite Hlen. apply (among_last_two_post _ _ _ _ _ _ name Hwv Hv eq_refl). auto. }
    split; intros (cs1 & xv & cs2 & pr & H1 & H2); exists cs1, xv, cs2, pr; (split; [|assumption]);
      apply (moved_component_at _ _ _ _ _ _ name _ Hwg Hm eq_refl); assumption. }
  split.
  - intros (b' & Hb' & i & g' & Hi & Hg' & He). destruct (block_of_after _ _ _ _ _ Hne H Hb') as (b & Hb & Hc).
    destruct (G b b' Hb Hc) as (Hs & _ & Hgr). destruct (Hgr g' Hg') as (g & Hg & Hiff).
    destruct (proj1 (Hiff i) He) as (cs1 & xv & cs2 & pr & He'). rewrite Hs in Hi. exists b, i, g, cs1, xv, cs2, pr. auto.
  - intros (b & i & g & cs1 & xv & cs2 & pr & Hb & Hg & Hi & He).
    destruct (block_of_before _ _ _ _ _ Hne H Hb) as (b' & Hb' & Hc).
    destruct (G b b' Hb Hc) as (Hs & Hex & Hgr). destruct (Hex g Hg) as (g' & Hg').
    destruct (Hgr g' Hg') as (g2 & Hg2 & Hiff).
    assert (g2 = g) as ->.
    { pose proof (wf_tensor_block _ _ _ Hwf Hb) as Hwb.
      apply wf_block_gradient in Hg, Hg2; auto. destruct Hg as (_ & _ & Hg). destruct Hg2 as (_ & _ & Hg2). congruence. }
    exists b'. split; [assumption|]. exists i, g'. rewrite Hs. split; [assumption|]. split; [assumption|].
    apply Hiff. eauto.
Qed.

(* names of the axes, and the new properties *)
Lemma components_names t name t' :
  wf_tensor t -> components_to_properties t [name] = (t', Ok tt) ->
  tm_keys t' = tm_keys t
  /\ forall key b', block_of t' key b' ->
     exists b pre x post, block_of t key b
       /\ bb_components (tb_values b) = pre ++ x :: post /\ labels_names x = [name]
       /\ bb_samples (tb_values b') = bb_samples (tb_values b)
       /\ bb_components (tb_values b') = pre ++ post
       /\ labels_names (bb_properties (tb_values b')) = name :: labels_names (bb_properties (tb_values b))
       /\ rows (bb_properties (tb_values b'))
          = flat_map (fun xv => map (app xv) (rows (bb_properties (tb_values b)))) (rows x).
Proof.
  intros Hwf H. assert (Hne : [name] <> []) by discriminate. split; [apply (components_to_properties_ok _ _ _ Hne H)|].
  intros key b' Hb'. destruct (block_of_after _ _ _ _ _ Hne H Hb') as (b & Hb & Hc).
  pose proof (wf_tensor_block _ _ _ Hwf Hb) as Hwb.
  destruct (block_components_ok _ _ _ Hwb Hne Hc) as ((pre & x & post & Hv) & _). destruct Hwb as [Hwv _].
  exists b, pre, x, post. split; [assumption|]. split; [apply (cm_components _ _ _ _ _ _ Hv)|].
  split; [apply (cm_moved _ _ _ _ _ _ Hv)|]. split; [apply (cm_samples _ _ _ _ _ _ Hv)|].
  split; [apply (cm_components' _ _ _ _ _ _ Hv)|].
  split; [apply (moved_properties_names _ _ _ _ _ _ Hwv Hv)|apply (moved_properties_rows _ _ _ _ _ _ Hwv Hv)].
Qed.

(** ** The result is well formed *)

Lemma names_split variables (pre1 pre2 post1 post2 : list (list string)) :
  NoDup (pre1 ++ variables :: post1) -> pre1 ++ variables :: post1 = pre2 ++ variables :: post2 ->
  pre1 ++ post1 = pre2 ++ post2.
Proof.
  intros Hnd E. assert (Hl : length pre1 = length pre2).
  { eapply NoDup_nth_error_inj; [exact Hnd|apply nth_error_middle|]. rewrite E. apply nth_error_middle. }
  destruct (app_eq_length _ _ _ _ Hl E) as [-> E']. inversion E'; subst. reflexivity.
Qed.

Lemma moved_names_same variables b1 pre1 x1 post1 b1' b2 pre2 x2 post2 b2' :
  wf_basic b1 -> component_moved variables b1 pre1 x1 post1 b1' -> component_moved variables b2 pre2 x2 post2 b2' ->
  map labels_names (bb_components b1) = map labels_names (bb_components b2) ->
  map labels_names (bb_components b1') = map labels_names (bb_components b2').
Proof.
  intros (_ & _ & _ & _ & Hnd) H1 H2 E.
  rewrite (cm_components' _ _ _ _ _ _ H1), (cm_components' _ _ _ _ _ _ H2), !map_app.
  rewrite (cm_components _ _ _ _ _ _ H1) in E, Hnd. rewrite (cm_components _ _ _ _ _ _ H2) in E.
  rewrite !map_app in *. simpl in *. rewrite (cm_moved _ _ _ _ _ _ H1), ?(cm_moved _ _ _ _ _ _ H2) in *.
  eapply names_split; eauto.
Qed.

Lemma components_same_gradient_names b1 b2 variables b1' b2' :
  wf_block b1 -> wf_block b2 -> variables <> [] ->
  tensor_block_components_to_properties b1 variables = (b1', Ok tt) ->
  tensor_block_components_to_properties b2 variables = (b2', Ok tt) ->
  same_gradient_names b1 b2 -> same_gradient_names b1' b2'.
Proof.
  intros W1 W2 Hne H1 H2 Hs q g1' Hin.
  destruct (block_components_ok _ _ _ W1 Hne H1) as (_ & G1 & _). destruct (block_components_ok _ _ _ W2 Hne H2) as (_ & G2 & _).
  destruct (Forall2_In_r _ _ _ _ G1 Hin) as ([q0 g1] & I1 & E & p1 & x1 & o1 & M1). simpl in E, M1. subst q0.
  destruct (Hs q g1 I1) as (g2 & I2 & N1 & N2).
  destruct (Forall2_In_l _ _ _ _ G2 I2) as ([q0 g2'] & I2' & E & p2 & x2 & o2 & M2). simpl in E, M2. subst q0.
  exists g2'. split; [assumption|]. rewrite (cm_samples _ _ _ _ _ _ M1), (cm_samples _ _ _ _ _ _ M2). split; [assumption|].
  eapply moved_names_same; eauto. apply (wf_block_gradient _ _ _ W1 I1).
Qed.

Lemma components_wf t variables t' :
  wf_tensor t -> components_to_properties t variables = (t', Ok tt) ->
  wf_tensor t' /\ (forall b' q g', In b' (tm_blocks t') -> In (q, g') (tb_gradients b') ->
                     bb_properties g' = bb_properties (tb_values b')).
Proof.
  intros Hwf H.
  assert (G : wf_tensor t').
  { destruct variables as [|v variables]; [inversion H; subst; assumption|].
    assert (Hne : v :: variables <> []) by discriminate. set (vs := v :: variables) in *.
    pose proof Hwf as (Hk & Hb & Hlen & Hs). destruct (components_to_properties_ok _ _ _ Hne H) as [Hkeys Hf].
    rewrite Forall_forall in Hb.
    split; [rewrite Hkeys; assumption|]. split; [|split].
    - apply Forall_forall. intros b' Hin. destruct (Forall2_In_r _ _ _ _ Hf Hin) as (b & Hib & Hc).
      eapply block_components_wf; eauto.
    - rewrite Hkeys, <- Hlen. symmetry. eapply Forall2_len; eauto.
    - intros b1' b2' I1 I2. destruct (Forall2_In_r _ _ _ _ Hf I1) as (b1 & B1 & C1). destruct (Forall2_In_r _ _ _ _ Hf I2) as (b2 & B2 & C2).
      destruct (Hs b1 b2 B1 B2) as (N1 & N2 & N3 & N4 & N5).
      destruct (block_components_ok _ _ _ (Hb _ B1) Hne C1) as ((p1 & x1 & o1 & M1) & _).
      destruct (block_components_ok _ _ _ (Hb _ B2) Hne C2) as ((p2 & x2 & o2 & M2) & _).
      pose proof (Hb _ B1) as [W1 _]. pose proof (Hb _ B2) as [W2 _].
      split; [rewrite (cm_samples _ _ _ _ _ _ M1), (cm_samples _ _ _ _ _ _ M2); assumption|].
      split; [apply (moved_names_same _ _ _ _ _ _ _ _ _ _ _ W1 M1 M2 N2)|].
      split; [rewrite (moved_properties_names _ _ _ _ _ _ W1 M1), (moved_properties_names _ _ _ _ _ _ W2 M2), N3; reflexivity|].
      split; [apply (components_same_gradient_names b1 b2 vs)|apply (components_same_gradient_names b2 b1 vs)]; auto. }
  split; [assumption|]. intros b' q g' Hb Hg. destruct G as (_ & G & _). rewrite Forall_forall in G.
  destruct (wf_block_gradient _ _ _ (G b' Hb) Hg) as (_ & (_ & _ & Hp & _) & _). assumption.
Qed.

(** ** When the call succeeds *)

Lemma swap_nth_Permutation {A} i j (l : list A) : Permutation (swap_nth i j l) l.
Proof.
  unfold swap_nth. destruct (nth_error l i) as [x|] eqn:Hi; [|reflexivity].
  destruct (nth_error l j) as [y|] eqn:Hj; [|reflexivity].
  assert (Li : i < length l) by (apply nth_error_Some; congruence).
  assert (Lj : j < length l) by (apply nth_error_Some; congruence).
  apply Permutation_sym, Permutation_nth_error. split; [rewrite !set_nth_length; reflexivity|].
  exists (fun n => if n =? i then j else if n =? j then i else n). split.
  - intros a b. destruct (Nat.eqb_spec a i), (Nat.eqb_spec b i), (Nat.eqb_spec a j), (Nat.eqb_spec b j); lia.
  - intros n. rewrite !nth_error_set_nth, !set_nth_length.
    rewrite (proj2 (Nat.ltb_lt i _) Li), (proj2 (Nat.ltb_lt j _) Lj), !andb_true_r.
    destruct (Nat.eqb_spec n j) as [->|Hnj].
    + destruct (Nat.eqb_spec j i) as [->|_]; congruence.
    + destruct (Nat.eqb_spec n i) as [->|Hni]; congruence.
Qed.

Lemma prod_Permutation l l' : Permutation l l' -> prod l = prod l'.
Proof. induction 1; simpl in *; lia. Qed.

Lemma array_swap_succeeds a i j :
  responsive a -> i < length (shape_of a) -> j < length (shape_of a) ->
  exists a', array_swap_axes a i j = (a', Ok tt)
    /\ (a_kind a <> RustEmptyArray -> length (nd_data (a_nd a')) = prod (shape_of a)).
Proof.
  intros Hr Hi Hj. unfold shape_of in *. unfold array_swap_axes.
  assert (E : nd_swap_axes i j (a_nd a) = Some (nd_tabulate (swap_nth i j (nd_shape (a_nd a)))
                      (fun idx => nd_get (a_nd a) (swap_nth i j idx)))).
  { unfold nd_swap_axes. rewrite (proj2 (Nat.ltb_lt i _) Hi), (proj2 (Nat.ltb_lt j _) Hj). reflexivity. }
  assert (L : length (nd_data (nd_tabulate (swap_nth i j (nd_shape (a_nd a)))
                      (fun idx => nd_get (a_nd a) (swap_nth i j idx)))) = prod (nd_shape (a_nd a))).
  { etransitivity; [apply nd_tabulate_wf|]. apply prod_Permutation. apply swap_nth_Permutation. }
  destruct (a_kind a) as [| |o] eqn:K.
  - rewrite E. eexists. split; [reflexivity|]. intros _. exact L.
  - rewrite (proj2 (Nat.ltb_lt i _) Hi), (proj2 (Nat.ltb_lt j _) Hj). simpl.
    eexists. split; [reflexivity|]. congruence.
  - rewrite call_answers by apply Hr. rewrite E. eexists. split; [reflexivity|]. intros _. exact L.
Qed.

Lemma array_reshape_succeeds a shape :
  responsive a -> (a_kind a <> RustEmptyArray -> prod shape = length (nd_data (a_nd a))) ->
  exists a', array_reshape a shape = (a', Ok tt).
Proof.
  intros Hr Hp. unfold array_reshape, nd_to_shape. destruct (a_kind a) as [| |o] eqn:K.
  - rewrite Hp, Nat.eqb_refl by discriminate. eauto.
  - eauto.
  - rewrite call_answers by apply Hr. rewrite Hp, Nat.eqb_refl by discriminate. eauto.
Qed.

Lemma responsive_same a a' : a_kind a' = a_kind a -> a_callbacks a' = a_callbacks a -> responsive a -> responsive a'.
Proof. intros E1 E2 H op o. rewrite E1, E2. apply H. Qed.

Lemma product_build x p :
  axis_labels x -> axis_labels p -> (forall n, In n (labels_names x) -> ~ In n (labels_names p)) ->
  exists np, labels_build (labels_names x ++ labels_names p) (product_rows (rows x) (rows p)) = Ok np.
Proof.
  intros [Hx _] [Hp _] Hd. pose proof (wf_names_good _ Hx) as [X1 X2]. pose proof (wf_names_good _ Hp) as [P1 P2].
  pose proof (wf_rows _ Hx) as [X3 X4]. pose proof (wf_rows _ Hp) as [P3 P4].
  eexists. apply labels_build_ok. split; [|split; [|reflexivity]].
  - split; [apply Forall_app; auto|apply NoDup_app_intro; auto].
  - rewrite Forall_forall in X3, P3. split.
    + apply Forall_forall. intros r Hr. apply in_flat_map in Hr as (r1 & H1 & Hr). apply in_map_iff in Hr as (r2 & <- & H2).
      rewrite !app_length, X3, P3; auto.
    + apply (prefixed_NoDup (fun e => e) (fun _ => rows p) (rows x) (length (labels_names x))); auto.
      rewrite map_id. assumption.
Qed.

Lemma basic_components_succeeds b variables :
  wf_basic b -> responsive (bb_data b) -> In variables (map labels_names (bb_components b)) ->
  (forall n, In n variables -> ~ In n (labels_names (bb_properties b))) ->
  exists b', basic_block_components_to_properties b variables = (b', Ok tt).
Proof.
  intros Hwf Hr Hin Hd. apply in_map_iff in Hin as (x & Hx & Hin). apply in_split in Hin as (pre & post & Hc).
  destruct (wf_basic_axes _ Hwf) as (Hs & Hcs & Hp). pose proof (wf_basic_shape _ Hwf) as Hsh.
  rewrite basic_block_components_eq. rewrite Hc, (find_component_found variables pre x post Hx).
  2:{ rewrite <- Hc. apply Hwf. }
  rewrite nth_error_middle. cbn zeta.
  assert (Hax : axis_labels x) by (rewrite Hc in Hcs; apply Forall_app in Hcs as [_ Hcs]; inversion Hcs; assumption).
  destruct (product_build x (bb_properties b) Hax Hp) as (np & Hnp); [rewrite Hx; assumption|].
  rewrite (proj2 (prepared_ok b pre x post _ Hwf Hc) (ex_intro _ np (conj Hnp (conj (Hr OpShape) eq_refl)))).
  assert (Hlen : length (shape_of (bb_data b)) = S (S (S (length pre + length post)))).
  { rewrite Hsh, Hc. cbn [length]. rewrite app_length, map_length, app_length. cbn [length]. lia. }
  destruct (array_swap_succeeds (bb_data b) (length pre + 1) (S (S (length pre + length post)) - 1) Hr) as (a1 & E1 & L1); try lia.
  rewrite E1. pose proof (array_swap_ok _ _ _ _ _ E1) as (K1 & C1 & _).
  destruct (array_reshape_succeeds a1 (length (rows (bb_samples b)) :: map (fun l => length (rows l)) (pre ++ post)
             ++ [length (rows x) * length (rows (bb_properties b))])) as (a2 & E2).
  - eapply responsive_same; eauto.
  - intros K. rewrite L1 by congruence. rewrite Hsh, Hc, !map_app. cbn [prod map]. rewrite <- !app_assoc. cbn [app prod].
    rewrite !prod_app. cbn [prod]. rewrite !prod_app. cbn [prod]. lia.
  - rewrite E2. eauto.
Qed.

Lemma gradients_components_succeeds variables gs :
  Forall (fun pg => exists g', basic_block_components_to_properties (snd pg) variables = (g', Ok tt)) gs ->
  exists gs', gradients_components_to_properties variables gs = (gs', Ok tt).
Proof.
  induction gs as [|[q g] gs IH]; intros H; simpl; [eauto|].
  inversion H as [|? ? [g' Hg] Hgs]; subst. simpl in Hg. rewrite Hg. destruct (IH Hgs) as (gs' & ->). eauto.
Qed.

Lemma gradient_has_component b q g variables :
  wf_block b -> In (q, g) (tb_gradients b) -> In variables (map labels_names (bb_components (tb_values b))) ->
  In variables (map labels_names (bb_components g)).
Proof.
  intros Hwf Hg Hin. destruct (wf_block_gradient _ _ _ Hwf Hg) as (_ & (_ & (prefix & rest & Hc & Hf) & _) & _).
  rewrite Hc, map_app. apply in_or_app. right. apply in_map_iff in Hin as (x & Hx & Hin).
  destruct (Forall2_In_r _ _ _ _ Hf Hin) as (y & Hy & [Hs _]). apply in_map_iff. exists y. split; [|assumption].
  unfold labels_names in *. congruence.
Qed.

Lemma block_components_succeeds b variables :
  wf_block b -> responsive_block b -> In variables (map labels_names (bb_components (tb_values b))) ->
  (forall n, In n variables -> ~ In n (labels_names (bb_properties (tb_values b)))) ->
  exists b', tensor_block_components_to_properties b variables = (b', Ok tt).
Proof.
  intros Hwf [Hr Hrg] Hin Hd. pose proof Hwf as [Hwv _]. unfold tensor_block_components_to_properties.
  destruct variables as [|n variables]; [eauto|].
  destruct (basic_components_succeeds _ _ Hwv Hr Hin Hd) as (v' & ->).
  destruct (gradients_components_succeeds (n :: variables) (tb_gradients b)) as (gs' & ->); [|eauto].
  apply Forall_forall. intros [q g] Hg. simpl.
  destruct (wf_block_gradient _ _ _ Hwf Hg) as (Hwg & (_ & _ & Hp & _) & _).
  apply basic_components_succeeds; [assumption|eauto|eapply gradient_has_component; eauto|].
  rewrite Hp. assumption.
Qed.

Lemma block_components_missing b variables :
  variables <> [] -> ~ In variables (map labels_names (bb_components (tb_values b))) ->
  exists m, tensor_block_components_to_properties b variables = (b, Err (InvalidParameter m)).
Proof.
  intros Hne H. unfold tensor_block_components_to_properties. destruct variables as [|n variables]; [congruence|].
  unfold basic_block_components_to_properties. rewrite (proj2 (find_component_none _ _) H). destruct b; simpl. eauto.
Qed.

Lemma blocks_components_succeeds variables bs :
  Forall (fun b => exists b', tensor_block_components_to_properties b variables = (b', Ok tt)) bs ->
  exists bs', blocks_components_to_properties variables bs = (bs', Ok tt).
Proof.
  induction bs as [|b bs IH]; intros H; simpl; [eauto|].
  inversion H as [|? ? [b' Hb] Hbs]; subst. rewrite Hb. destruct (IH Hbs) as (bs' & ->). eauto.
Qed.

Lemma components_succeeds t variables :
  wf_tensor t -> Forall responsive_block (tm_blocks t) ->
  (forall b, In b (tm_blocks t) -> In variables (map labels_names (bb_components (tb_values b)))) ->
  (forall b n, In b (tm_blocks t) -> In n variables -> ~ In n (labels_names (bb_properties (tb_values b)))) ->
  exists t', components_to_properties t variables = (t', Ok tt).
Proof.
  intros (_ & Hb & _) Hr Hin Hd. rewrite Forall_forall in Hb, Hr. unfold components_to_properties.
  destruct variables as [|n variables]; [eauto|].
  destruct (blocks_components_succeeds (n :: variables) (tm_blocks t)) as (bs & ->); [|eauto].
  apply Forall_forall. intros b Hi. apply block_components_succeeds; auto.
Qed.

Lemma components_missing t variables :
  wf_tensor t -> variables <> [] -> tm_blocks t <> [] ->
  (forall b, In b (tm_blocks t) -> ~ In variables (map labels_names (bb_components (tb_values b)))) ->
  exists m, components_to_properties t variables = (t, Err (InvalidParameter m)).
Proof.
  intros (_ & _ & _) Hne Hbs H. unfold components_to_properties. destruct variables as [|n variables]; [congruence|].
  destruct t as [keys [|b bs]]; [simpl in Hbs; congruence|]. cbn [tm_blocks blocks_components_to_properties] in *.
  destruct (block_components_missing b (n :: variables) Hne (H b (or_introl eq_refl))) as (m & ->). eauto.
Qed.

Lemma components_all_or_nothing t variables :
  wf_tensor t -> Forall responsive_block (tm_blocks t) ->
  (forall b n, In b (tm_blocks t) -> In n variables -> ~ In n (labels_names (bb_properties (tb_values b)))) ->
  (exists t', components_to_properties t variables = (t', Ok tt))
  \/ exists m, components_to_properties t variables = (t, Err (InvalidParameter m)).
Proof.
  intros Hwf Hr Hd. destruct variables as [|n variables]; [left; exists t; reflexivity|].
  destruct (tm_blocks t) as [|b0 bs] eqn:Hbs.
  { left. unfold components_to_properties. rewrite Hbs. simpl. eauto. }
  rewrite <- Hbs in *. assert (Hb0 : In b0 (tm_blocks t)) by (rewrite Hbs; left; reflexivity).
  destruct (in_dec (list_eq_dec string_dec) (n :: variables) (map labels_names (bb_components (tb_values b0)))) as [Hi|Hi].
  - left. apply components_succeeds; auto. intros b Hb. destruct Hwf as (_ & _ & _ & Hs).
    destruct (Hs b b0 Hb Hb0) as (_ & -> & _). assumption.
  - right. apply components_missing; auto; [discriminate|rewrite Hbs; discriminate|].
    intros b Hb. destruct Hwf as (_ & _ & _ & Hs). destruct (Hs b b0 Hb Hb0) as (_ & -> & _). assumption.
Qed.
