(* Lemmas about Tensor.v: merging the data of several blocks into one array *)
From Coq Require Import Permutation.
From Verif Require Import Base BaseFacts Labels Array Block Tensor Spec SpecTensor LabelsFacts ArrayFacts BlockFacts TensorFacts KeysFacts.
Local Open Scope string_scope.
Local Open Scope list_scope.
Local Open Scope nat_scope.

(** * Entries and positions *)

Lemma located_app l1 : forall l2 idx coords1 coords2,
  length coords1 = length l1 ->
  (located (l1 ++ l2) idx (coords1 ++ coords2) <->
   exists i1 i2, idx = i1 ++ i2 /\ located l1 i1 coords1 /\ located l2 i2 coords2).
Proof.
  induction l1 as [|l l1 IH]; intros l2 idx [|c coords1] coords2 H; simpl in *; try discriminate.
  - split.
    + intros Hl. exists [], idx. auto.
    + intros (i1 & i2 & -> & Hi & Hl). destruct i1; [assumption|destruct Hi].
  - destruct idx as [|i idx].
    + split; [intros []|]. intros (i1 & i2 & E & Hi & Hl). destruct i1; [destruct Hi|discriminate].
    + rewrite IH by lia. split.
      * intros (Hr & i1 & i2 & -> & Hi & Hl). exists (i :: i1), i2. auto.
      * intros (i1 & i2 & E & Hi & Hl). destruct i1 as [|i' i1]; [destruct Hi|].
        simpl in E. inversion E; subst. destruct Hi as [Hr Hi]. split; [assumption|]. eauto.
Qed.

Lemma located_length l : forall idx coords, located l idx coords -> length idx = length l /\ length coords = length l.
Proof.
  induction l as [|x l IH]; intros [|i idx] [|c coords] H; simpl in *; try contradiction; auto.
  destruct H as [_ H]. apply IH in H. lia.
Qed.

Lemma entry_iff b s cs p v :
  entry b s cs p v <->
  exists i js k, nth_error (rows (bb_samples b)) i = Some s /\ located (bb_components b) js cs
    /\ nth_error (rows (bb_properties b)) k = Some p /\ element (bb_data b) (i :: js ++ [k]) v.
Proof.
  unfold entry, axes. split.
  - intros (idx & Hl & He). destruct idx as [|i idx]; simpl in Hl; [contradiction|]. destruct Hl as [Hs Hl].
    assert (Hlen : length cs = length (bb_components b)).
    { apply located_length in Hl as [_ Hl]. rewrite !app_length in Hl. simpl in Hl. lia. }
    apply located_app in Hl as (js & ks & -> & Hj & Hk); [|assumption].
    destruct ks as [|k [|? ?]]; simpl in Hk; try tauto. destruct Hk as [Hk _]. eauto 10.
  - intros (i & js & k & Hs & Hj & Hk & He). exists (i :: js ++ [k]). split; [|assumption]. simpl.
    split; [assumption|]. apply located_app.
    + apply located_length in Hj. tauto.
    + exists js, [k]. simpl. auto.
Qed.

Lemma located_same l1 l2 : Forall2 same_labels l1 l2 -> forall js cs, located l1 js cs <-> located l2 js cs.
Proof.
  induction 1 as [|a b l1 l2 [_ Hab] H IH]; intros [|j js] [|c cs]; simpl; try tauto.
  rewrite Hab, IH. tauto.
Qed.

Lemma located_bounds l : forall js cs, located l js cs -> in_bounds (map (fun l => length (rows l)) l) js.
Proof.
  induction l as [|x l IH]; intros [|j js] [|c cs] H; simpl in *; try contradiction; [constructor|].
  destruct H as [Hj H]. constructor; [apply nth_error_Some; congruence|]. eapply IH; eauto.
Qed.

Lemma bounds_located l : forall js, in_bounds (map (fun l => length (rows l)) l) js -> exists cs, located l js cs.
Proof.
  induction l as [|x l IH]; intros js H; simpl in H; inversion H as [|? j ? js' Hj Hjs]; subst.
  - exists []. exact I.
  - destruct (IH _ Hjs) as [cs Hcs]. apply nth_error_Some in Hj.
    destruct (nth_error (rows x) j) as [r|] eqn:E; [|congruence]. exists (r :: cs). simpl. auto.
Qed.

Lemma same_labels_refl l : same_labels l l.
Proof. split; reflexivity. Qed.

Lemma same_labels_sym l1 l2 : same_labels l1 l2 -> same_labels l2 l1.
Proof. intros [H1 H2]; split; congruence. Qed.

Lemma same_labels_trans l1 l2 l3 : same_labels l1 l2 -> same_labels l2 l3 -> same_labels l1 l3.
Proof. intros [H1 H2] [H3 H4]; split; congruence. Qed.

Lemma Forall2_same_refl l : Forall2 same_labels l l.
Proof. induction l; constructor; auto using same_labels_refl. Qed.

Lemma Forall2_same_sym l1 l2 : Forall2 same_labels l1 l2 -> Forall2 same_labels l2 l1.
Proof. induction 1; constructor; auto using same_labels_sym. Qed.

Lemma Forall2_same_trans l1 l2 : Forall2 same_labels l1 l2 -> forall l3, Forall2 same_labels l2 l3 -> Forall2 same_labels l1 l3.
Proof.
  induction 1 as [|a b l1 l2 Hab H IH]; intros l3 H3; inversion H3; subst; constructor; eauto using same_labels_trans.
Qed.

Lemma Forall2_same_counts l1 l2 :
  Forall2 same_labels l1 l2 -> map (fun l => length (rows l)) l1 = map (fun l => length (rows l)) l2.
Proof. induction 1 as [|a b l1 l2 [_ Hab] H IH]; simpl; [reflexivity|]. rewrite Hab, IH. reflexivity. Qed.

Lemma labels_list_eqb_same l1 : forall l2,
  Forall wf_labels l1 -> Forall wf_labels l2 ->
  (labels_list_eqb l1 l2 = true <-> Forall2 same_labels l1 l2).
Proof.
  unfold labels_list_eqb. induction l1 as [|a l1 IH]; intros [|b l2] H1 H2; simpl.
  - split; [constructor|reflexivity].
  - split; [discriminate|]. intros H; inversion H.
  - split; [discriminate|]. intros H; inversion H.
  - inversion H1; inversion H2; subst. rewrite andb_true_iff, IH, labels_eqb_same by assumption. split.
    + intros [Ha Hl]. constructor; assumption.
    + intros H; inversion H; auto.
Qed.

(** * Mapping samples *)

(* [ms] sends the i-th source row to its position in the merged rows *)
Definition mapping_for (merged sources : list (list Z)) (ms : list sample_mapping) : Prop :=
  length ms = length sources
  /\ forall i m, nth_error ms i = Some m ->
       sm_input m = i /\ exists r, nth_error sources i = Some r /\ nth_error merged (sm_output m) = Some r.

Lemma samples_mapping_ok merged sources : forall ms,
  wf_labels merged ->
  samples_mapping_from 0 merged sources = Ok ms -> mapping_for (rows merged) sources ms.
Proof.
  intros ms Hwf H.
  enough (G : forall start sources ms, samples_mapping_from start merged sources = Ok ms ->
    length ms = length sources
    /\ forall i m, nth_error ms i = Some m ->
       sm_input m = start + i /\ exists r, nth_error sources i = Some r /\ nth_error (rows merged) (sm_output m) = Some r)
    by exact (G 0 _ _ H).
  clear sources ms H. intros start sources; revert start.
  induction sources as [|s sources IH]; intros start ms H; simpl in H.
  - inversion H; subst. split; [reflexivity|]. intros [|i] m; discriminate.
  - bind_inv H. bind_inv H. bind_inv H. inversion H; subst.
    apply expect_some_ok in Hb0. subst. apply IH in Hb1 as [Hl Hb1]. split; [simpl; congruence|].
    intros [|i] m Hi; simpl in Hi.
    + inversion Hi; subst. simpl. split; [lia|]. exists s. split; [reflexivity|].
      apply labels_position_ok; assumption.
    + apply Hb1 in Hi as [E Hr]. split; [lia|assumption].
Qed.

(** * Moving the data *)

Record move_item := mk_item {
  it_input : eqs_array;
  it_sources : list (list Z);
  it_mapping : list sample_mapping;
  it_range : option (nat * nat);
}.

Definition move_step (output : eqs_array) (it : move_item) : outcome eqs_array :=
  match it_range it with
  | Some (start, stop) => array_move_samples_from output (it_input it) (it_mapping it) start stop
  | None => Ok output
  end.

Definition in_range (it : move_item) (k : nat) : Prop :=
  exists start stop, it_range it = Some (start, stop) /\ start <= k < stop.

Definition valid_item (merged : list (list Z)) (cs : list nat) (P : nat) (it : move_item) : Prop :=
  mapping_for merged (it_sources it) (it_mapping it)
  /\ NoDup (it_sources it)
  /\ (exists np, shape_of (it_input it) = length (it_sources it) :: cs ++ [np]
      /\ forall start stop, it_range it = Some (start, stop) -> stop = start + np /\ stop <= P).

(* no element is written by two different items *)
Definition disjoint_items (its : list move_item) : Prop :=
  forall it1 it2 r k, In it1 its -> In it2 its ->
    In r (it_sources it1) -> In r (it_sources it2) -> in_range it1 k -> in_range it2 k -> it1 = it2.

Lemma foldM_view {A} (f : eqs_array -> A -> outcome eqs_array) (view : A -> move_item -> Prop) l : forall s s',
  (forall s x s', In x l -> f s x = Ok s' -> exists it, view x it /\ move_step s it = Ok s') ->
  foldM f l s = Ok s' ->
  exists its, Forall2 view l its /\ foldM move_step its s = Ok s'.
Proof.
  induction l as [|x l IH]; intros s s' Hstep H; simpl in H.
  - exists []. split; [constructor|assumption].
  - apply bind_ok in H as (s1 & H1 & H).
    destruct (Hstep s x s1 (or_introl eq_refl) H1) as (it & Hv & Hit).
    destruct (IH s1 s') as (its & Hvs & Hits); [|assumption|].
    { intros. apply Hstep; [right; assumption|assumption]. }
    exists (it :: its). split; [constructor; assumption|]. simpl. rewrite Hit. exact Hits.
Qed.

Lemma mapping_moved merged sources ms input start stop i js k v r :
  mapping_for merged sources ms -> NoDup merged ->
  nth_error merged i = Some r ->
  moved_list input start stop ms i js k = Some v ->
  exists i_in, nth_error sources i_in = Some r /\ start <= k < stop
    /\ v = nd_get input (i_in :: js ++ [k - start]).
Proof.
  intros [Hl Hm] Hnd Hr H. apply moved_list_some in H as (m & Hin & H). apply moved_some in H as (-> & Hk & ->).
  apply In_nth_error in Hin as [n Hn]. apply Hm in Hn as (E & r' & Hs & Hr'). exists n.
  rewrite E. split; [congruence|]. auto.
Qed.

Lemma moves_spec merged cs P its s0 s' :
  NoDup merged ->
  shape_of s0 = length merged :: cs ++ [P] -> wf_nd (a_nd s0) ->
  Forall (valid_item merged cs P) its -> disjoint_items its ->
  foldM move_step its s0 = Ok s' ->
  a_kind s' = a_kind s0 /\ a_callbacks s' = a_callbacks s0
  /\ shape_of s' = shape_of s0 /\ wf_nd (a_nd s')
  /\ (forall it, In it its -> it_range it <> None -> movable (a_kind s0) (a_kind (it_input it)))
  /\ forall i js k r, in_bounds (shape_of s0) (i :: js ++ [k]) -> nth_error merged i = Some r ->
       (forall it i_in start stop, In it its -> nth_error (it_sources it) i_in = Some r ->
          it_range it = Some (start, stop) -> start <= k < stop ->
          nd_get (a_nd s') (i :: js ++ [k]) = nd_get (a_nd (it_input it)) (i_in :: js ++ [k - start]))
       /\ ((forall it, In it its -> In r (it_sources it) -> ~ in_range it k) ->
           nd_get (a_nd s') (i :: js ++ [k]) = nd_get (a_nd s0) (i :: js ++ [k])).
Proof.
  intros Hnd Hsh Hwf Hval Hdis H.
  pose (Pinv := fun s => a_kind s = a_kind s0 /\ a_callbacks s = a_callbacks s0 /\ shape_of s = shape_of s0 /\ wf_nd (a_nd s)).
  pose (c := fun it (ijk : nat * list nat * nat) => let '(i, js, k) := ijk in
     match it_range it with
     | Some (start, stop) => moved_list (a_nd (it_input it)) start stop (it_mapping it) i js k
     | None => None
     end).
  pose (valid := fun ijk : nat * list nat * nat => let '(i, js, k) := ijk in in_bounds (shape_of s0) (i :: js ++ [k])).
  pose (get := fun s (ijk : nat * list nat * nat) => let '(i, js, k) := ijk in nd_get (a_nd s) (i :: js ++ [k])).
  rewrite Forall_forall in Hval.
  assert (Hstep : forall s it s'', In it its -> Pinv s -> move_step s it = Ok s'' ->
     (Pinv s'' /\ forall x, valid x -> get s'' x = match c it x with Some v => v | None => get s x end)
     /\ (it_range it <> None -> movable (a_kind s0) (a_kind (it_input it)))).
  { intros s it s'' Hin (Hk & Hc & Hs & Hw) Hst. unfold move_step in Hst.
    destruct (Hval it Hin) as (Hmap & Hnds & np & Hin_sh & Hrange).
    unfold c. destruct (it_range it) as [[start stop]|] eqn:Er.
    - destruct (Hrange _ _ eq_refl) as [Hstop HP].
      rewrite Hsh in Hs.
      destruct (array_move_spec _ _ _ _ _ _ _ _ _ _ _ Hst Hin_sh Hs Hstop HP Hw)
        as (H1 & H2 & H3 & H4 & H5 & H6).
      split.
      + split.
        * unfold Pinv. split; [congruence|]. split; [congruence|]. split; [congruence|assumption].
        * intros [[i js] k] Hb. unfold valid in Hb. unfold get. apply H6. rewrite Hs, <- Hsh. assumption.
      + intros _. rewrite <- Hk. assumption.
    - inversion Hst; subst. split.
      + split; [unfold Pinv; auto|]. intros [[i js] k] Hb. reflexivity.
      + congruence. }
  assert (Hmov : forall it, In it its -> it_range it <> None -> movable (a_kind s0) (a_kind (it_input it))).
  { assert (G : forall l s sf, (forall x, In x l -> In x its) -> Pinv s -> foldM move_step l s = Ok sf ->
       forall it, In it l -> it_range it <> None -> movable (a_kind s0) (a_kind (it_input it))).
    { induction l as [|x l IH]; intros s sf Hsub Hp Hf it Hin Hr; [destruct Hin|]. simpl in Hf.
      apply bind_ok in Hf as (s1 & Hf1 & Hf).
      destruct (Hstep s x s1 (Hsub x (or_introl eq_refl)) Hp Hf1) as [[Hp1 _] Hm].
      destruct Hin as [<-|Hin]; [auto|]. eapply IH; eauto. intros; apply Hsub; right; assumption. }
    intros it. eapply (G its s0 s'); eauto. unfold Pinv. auto. }
  destruct (foldM_overwrite move_step Pinv valid get c its s0 s') as [(Hk & Hc & Hs & Hw) Hget]; [| |assumption|].
  { intros s it s'' Hin Hp Hst. apply (Hstep s it s'' Hin Hp Hst). }
  { unfold Pinv. auto. }
  split; [assumption|]. split; [assumption|]. split; [assumption|]. split; [assumption|]. split; [assumption|].
  intros i js k r Hb Hr. destruct (Hget (i, js, k) Hb) as [Hnone Hsome].
  assert (Hcov : forall it v, In it its -> c it (i, js, k) = Some v ->
     exists i_in start stop, nth_error (it_sources it) i_in = Some r /\ it_range it = Some (start, stop)
       /\ start <= k < stop /\ v = nd_get (a_nd (it_input it)) (i_in :: js ++ [k - start])).
  { intros it v Hin Hcv. unfold c in Hcv. destruct (it_range it) as [[start stop]|] eqn:Er; [|discriminate].
    destruct (Hval it Hin) as (Hmap & _).
    destruct (mapping_moved _ _ _ _ _ _ _ _ _ _ _ Hmap Hnd Hr Hcv) as (i_in & H1 & H2 & H3). eauto 10. }
  split.
  - intros it i_in start stop Hin Hsrc Hrange Hk2.
    destruct (Hval it Hin) as ([Hml Hmap] & Hnds & _).
    assert (Hci : c it (i, js, k) = Some (nd_get (a_nd (it_input it)) (i_in :: js ++ [k - start]))).
    { unfold c. rewrite Hrange.
      destruct (moved_list (a_nd (it_input it)) start stop (it_mapping it) i js k) as [v|] eqn:E.
      - destruct (mapping_moved _ _ _ _ _ _ _ _ _ _ _ (conj Hml Hmap) Hnd Hr E) as (i2 & H1 & H2 & ->).
        assert (i2 = i_in) by (eapply NoDup_nth_error_inj; [exact Hnds|exact H1|exact Hsrc]). subst. reflexivity.
      - exfalso. assert (Hlt : i_in < length (it_mapping it)).
        { rewrite Hml. apply nth_error_Some. congruence. }
        destruct (nth_error (it_mapping it) i_in) as [m|] eqn:Em; [|apply nth_error_None in Em; lia].
        destruct (Hmap _ _ Em) as (E1 & r' & Hr1 & Hr2).
        assert (r' = r) by congruence. subst r'.
        assert (sm_output m = i) by (eapply NoDup_nth_error_inj; [exact Hnd|exact Hr2|exact Hr]).
        rewrite moved_list_none in E. specialize (E m (nth_error_In _ _ Em)). apply moved_none in E. apply E. auto. }
    apply (Hsome it _ Hin Hci).
    intros it2 w Hin2 Hc2. destruct (Hcov it2 w Hin2 Hc2) as (i2 & st2 & sp2 & H1 & H2 & H3 & H4).
    assert (it2 = it).
    { apply (Hdis it2 it r k); auto.
      - eapply nth_error_In; eauto.
      - eapply nth_error_In; eauto.
      - exists st2, sp2. auto.
      - exists start, stop. auto. }
    subst it2. congruence.
  - intros Hun. apply Hnone. intros it Hin. destruct (c it (i, js, k)) as [v|] eqn:E; [|reflexivity]. exfalso.
    destruct (Hcov it v Hin E) as (i_in & start & stop & H1 & H2 & H3 & _).
    apply (Hun it Hin).
    + eapply nth_error_In; eauto.
    + exists start, stop. auto.
Qed.

(** * Entries of merged blocks *)

(* an item together with the block it comes from, and what is added in front of
   its properties *)
Definition item_of (new : BasicBlock) (source : BasicBlock) (prefix : list Z) (it : move_item) : Prop :=
  it_input it = bb_data source
  /\ length (it_sources it) = length (rows (bb_samples source))
  /\ Forall2 same_labels (bb_components source) (bb_components new)
  /\ (forall start stop, it_range it = Some (start, stop) ->
        stop = start + length (rows (bb_properties source))
        /\ forall k r, nth_error (rows (bb_properties source)) k = Some r ->
             nth_error (rows (bb_properties new)) (start + k) = Some (prefix ++ r)).

Lemma merged_entries (new : BasicBlock) (sources : list (BasicBlock * list Z)) its s0 :
  wf_basic new ->
  Forall (fun sp => wf_basic (fst sp)) sources ->
  Forall2 (fun sp it => item_of new (fst sp) (snd sp) it) sources its ->
  NoDup (rows (bb_samples new)) ->
  shape_of s0 = map (fun l => length (rows l)) (axes new) ->
  wf_nd (a_nd s0) -> (forall idx, nd_get (a_nd s0) idx = 0%Z) ->
  Forall (valid_item (rows (bb_samples new)) (map (fun l => length (rows l)) (bb_components new))
            (length (rows (bb_properties new)))) its ->
  disjoint_items its ->
  foldM move_step its s0 = Ok (bb_data new) ->
  forall s' cs p' v,
    entry new s' cs p' v <->
    (exists n source prefix it i s p, nth_error sources n = Some (source, prefix) /\ nth_error its n = Some it
       /\ it_range it <> None
       /\ nth_error (it_sources it) i = Some s' /\ nth_error (rows (bb_samples source)) i = Some s
       /\ p' = prefix ++ p /\ entry source s cs p v)
    \/ (In s' (rows (bb_samples new)) /\ (exists js, located (bb_components new) js cs)
        /\ (exists k, nth_error (rows (bb_properties new)) k = Some p'
            /\ forall it, In it its -> In s' (it_sources it) -> ~ in_range it k)
        /\ v = 0%Z).
Proof.
  intros Hwfn Hwfs Hof Hnd Hsh0 Hwf0 Hzero Hval Hdis Hfold s' cs p' v.
  assert (Hsh0' : shape_of s0 = length (rows (bb_samples new))
     :: map (fun l => length (rows l)) (bb_components new) ++ [length (rows (bb_properties new))]).
  { rewrite Hsh0. unfold axes. simpl. rewrite map_app. reflexivity. }
  destruct (moves_spec _ _ _ _ _ _ Hnd Hsh0' Hwf0 Hval Hdis Hfold) as (Hk & Hc & Hs & Hw & Hmov & Hget).
  assert (Hpn : NoDup (rows (bb_properties new))).
  { apply wf_rows_NoDup. destruct Hwfn as (_ & Hax & _). rewrite Forall_forall in Hax.
    apply Hax. unfold axes. right. apply in_or_app. simpl; auto. }
  rewrite entry_iff. split.
  - intros (i & js & k & Hi & Hj & Hk' & He).
    assert (Hb : in_bounds (shape_of s0) (i :: js ++ [k])) by (rewrite <- Hs; apply He).
    destruct (Hget i js k s' Hb Hi) as [Hcov Hun].
    apply element_get in He as [_ He]; [|assumption].
    (* is it covered? *)
    destruct (Exists_dec (fun it => In s' (it_sources it) /\ in_range it k) its) as [Hex|Hex].
    { intros it. destruct (in_dec (list_eq_dec Z.eq_dec) s' (it_sources it)) as [H1|H1]; [|right; tauto].
      unfold in_range. destruct (it_range it) as [[start stop]|].
      - destruct (le_dec start k) as [H2|H2].
        + destruct (lt_dec k stop) as [H3|H3].
          * left. split; [assumption|]. eauto.
          * right. intros [_ (a & b & E & Hab)]. inversion E; subst. lia.
        + right. intros [_ (a & b & E & Hab)]. inversion E; subst. lia.
      - right. intros [_ (a & b & E & _)]. discriminate. }
    + left. apply Exists_exists in Hex as (it & Hin & Hsrc & start & stop & Hrange & Hkr).
      apply In_nth_error in Hin as [n Hn]. destruct (Forall2_nth_error_r _ _ _ _ _ Hof Hn) as ([source prefix] & Hn' & Hit).
      simpl in Hit. destruct Hit as (Hinp & Hlen & Hcomp & Hr). destruct (Hr _ _ Hrange) as [Hstop Hprop].
      apply In_nth_error in Hsrc as [i_in Hi_in].
      assert (Hlt : i_in < length (rows (bb_samples source))) by (rewrite <- Hlen; apply nth_error_Some; congruence).
      destruct (nth_error (rows (bb_samples source)) i_in) as [s|] eqn:Es; [|apply nth_error_None in Es; lia].
      assert (Hlt2 : k - start < length (rows (bb_properties source))) by lia.
      destruct (nth_error (rows (bb_properties source)) (k - start)) as [p|] eqn:Ep; [|apply nth_error_None in Ep; lia].
      exists n, source, prefix, it, i_in, s, p. split; [assumption|]. split; [assumption|].
      split; [congruence|]. split; [assumption|]. split; [assumption|]. split.
      * apply Hprop in Ep. replace (start + (k - start)) with k in Ep by lia. congruence.
      * apply entry_iff. exists i_in, js, (k - start). split; [assumption|]. split; [apply (located_same _ _ Hcomp); assumption|].
        split; [assumption|].
        assert (Hwsrc : wf_basic source).
        { rewrite Forall_forall in Hwfs. apply (Hwfs (source, prefix)). eapply nth_error_In; eauto. }
        destruct Hwsrc as (Hwa & _ & Hshs & _).
        assert (Hm : movable (a_kind s0) (a_kind (it_input it))) by (apply Hmov; [eapply nth_error_In; eauto|congruence]).
        rewrite <- Hinp in *.
        apply element_get.
        -- apply wf_array_nd; [assumption|]. destruct Hm as [Hm1 Hm2]. congruence.
        -- split.
           ++ rewrite Hshs. unfold axes. simpl. rewrite map_app. constructor; [assumption|].
              apply in_bounds_snoc. split; [|assumption].
              eapply located_bounds. apply (located_same _ _ Hcomp). eassumption.
           ++ rewrite <- He. symmetry. eapply Hcov; eauto. eapply nth_error_In; eauto.
    + right. split; [eapply nth_error_In; eauto|]. split; [eauto|]. split.
      * exists k. split; [assumption|]. intros it Hin Hsrc Hkr. apply Hex. apply Exists_exists. eauto.
      * rewrite <- He. rewrite Hun; [apply Hzero|]. intros it Hin Hsrc Hkr. apply Hex. apply Exists_exists. eauto.
  - intros [(n & source & prefix & it & i_in & s & p & Hn & Hnit & Hrn & Hsrc & Hss & -> & He)
           |(Hs' & [js Hj] & (k & Hk' & Hun) & ->)].
    + destruct (Forall2_nth_error_l _ _ _ _ _ Hof Hn) as (it' & Hn' & Hit). simpl in Hit.
      assert (it' = it) by congruence. subst it'.
      destruct Hit as (Hinp & Hlen & Hcomp & Hr).
      destruct (it_range it) as [[start stop]|] eqn:Er; [|congruence].
      destruct (Hr _ _ eq_refl) as [Hstop Hprop].
      apply entry_iff in He as (i0 & js & k & Hi0 & Hj & Hkp & He).
      assert (Hwsrc : wf_basic source).
      { rewrite Forall_forall in Hwfs. apply (Hwfs (source, prefix)). eapply nth_error_In; eauto. }
      assert (i0 = i_in).
      { destruct Hwsrc as (_ & Hax & _). inversion Hax as [|? ? [Hsw _] _]; subst.
        eapply NoDup_nth_error_inj; [apply (wf_rows_NoDup _ Hsw)| |]; eauto. }
      subst i0.
      assert (Hitin : In it its) by (eapply nth_error_In; eauto).
      rewrite Forall_forall in Hval. destruct (Hval it Hitin) as ([Hml Hmap] & Hnds & _).
      assert (Hlt : i_in < length (it_mapping it)) by (rewrite Hml; apply nth_error_Some; congruence).
      destruct (nth_error (it_mapping it) i_in) as [m|] eqn:Em; [|apply nth_error_None in Em; lia].
      destruct (Hmap _ _ Em) as (E1 & r' & Hr1 & Hr2). assert (r' = s') by congruence. subst r'.
      exists (sm_output m), js, (start + k). split; [assumption|].
      split; [apply (located_same _ _ Hcomp); assumption|]. split; [apply Hprop; assumption|].
      assert (Hklt : k < length (rows (bb_properties source))) by (apply nth_error_Some; congruence).
      assert (Hb : in_bounds (shape_of s0) (sm_output m :: js ++ [start + k])).
      { rewrite Hsh0'. constructor; [apply nth_error_Some; congruence|]. apply in_bounds_snoc. split.
        - eapply located_bounds. apply (located_same _ _ Hcomp). eassumption.
        - apply nth_error_Some. rewrite (Hprop _ _ Hkp). discriminate. }
      apply element_get; [assumption|]. split; [rewrite Hs; assumption|].
      destruct (Hget _ _ _ _ Hb Hr2) as [Hcov _].
      rewrite (Hcov it i_in start stop Hitin Hsrc Er) by lia.
      replace (start + k - start) with k by lia. rewrite Hinp.
      destruct Hwsrc as (Hwa & _ & Hshs & _).
      assert (Hm : movable (a_kind s0) (a_kind (it_input it))) by (apply Hmov; [assumption|congruence]).
      apply element_get in He; [tauto|]. apply wf_array_nd; [assumption|]. destruct Hm as [Hm1 Hm2]. congruence.
    + apply In_nth_error in Hs' as [i Hi]. exists i, js, k. split; [assumption|]. split; [assumption|].
      split; [assumption|].
      assert (Hb : in_bounds (shape_of s0) (i :: js ++ [k])).
      { rewrite Hsh0'. constructor; [apply nth_error_Some; congruence|]. apply in_bounds_snoc. split.
        - eapply located_bounds. eassumption.
        - apply nth_error_Some. congruence. }
      apply element_get; [assumption|]. split; [rewrite Hs; assumption|].
      destruct (Hget _ _ _ _ Hb Hi) as [_ Hz]. rewrite Hz; [apply Hzero|]. exact Hun.
Qed.
