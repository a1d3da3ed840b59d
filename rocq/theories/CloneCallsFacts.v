(* Copies of blocks, with arrays in memory *)
From Verif Require Import Base BaseFacts Labels Array Block Tensor Origin CApi Callbacks SpecCallbacks CallbacksStore CallbacksFacts CallbacksStoreFacts.
Local Open Scope string_scope.
Local Open Scope list_scope.
Local Open Scope nat_scope.

Definition added (s : store) (array : eqs_array) : store := mk_store (s_array (put s (s_next s) array)) (S (s_next s)).

Lemma play_copy s a : play s (p_copy a) =
  match array_clone (s_array s a) with
  | Ok array => (added s array, Ok (s_next s))
  | Err e => (s, Err e)
  | Panic message => (s, Panic message)
  | Undefined reason => (s, Undefined reason)
  end.
Proof.
  unfold p_copy. cbn [play respond]. unfold array_clone. destruct (a_kind (s_array s a)); try reflexivity.
  destruct (a_callbacks (s_array s a) OpCopy) as [| |status]; try reflexivity.
  destruct (Z.eqb_spec status 0) as [->|H]; [reflexivity|]. cbn [play an_null an_status].
  destruct (Z.eqb_spec status 0); [contradiction|reflexivity].
Qed.

Lemma clone_same array array' : array_clone array = Ok array' -> array' = array.
Proof.
  unfold array_clone. destruct (a_kind array); [congruence..|]. destruct (a_callbacks array OpCopy) as [| |status]; [congruence..|].
  destruct (status =? 0)%Z; congruence.
Qed.

Lemma added_before s array a : a < s_next s -> s_array (added s array) a = s_array s a.
Proof. intros H. unfold added, put. cbn [s_array]. destruct (Nat.eqb_spec (s_next s) a); [lia|reflexivity]. Qed.

Lemma added_new s array : s_array (added s array) (s_next s) = array.
Proof. unfold added, put. cbn [s_array]. rewrite Nat.eqb_refl. reflexivity. Qed.

Definition kept (s s' : store) : Prop := s_next s <= s_next s' /\ forall a, a < s_next s -> s_array s' a = s_array s a.

Lemma kept_refl s : kept s s.
Proof. split; [lia|reflexivity]. Qed.

Lemma kept_added s array : kept s (added s array).
Proof. split; [cbn; lia|apply added_before]. Qed.

Lemma kept_trans s1 s2 s3 : kept s1 s2 -> kept s2 s3 -> kept s1 s3.
Proof. intros [H1 H2] [H3 H4]. split; [lia|]. intros a Ha. rewrite H4 by lia. apply H2. exact Ha. Qed.

Definition see_gradients (s : store) (l : list (string * BasicBlock)) := map (fun pg => (fst pg, see_basic s (snd pg))) l.

Lemma play_gradients_clone l : forall done s, Forall (fun pg => data_of (snd pg) < s_next s) done -> Forall (fun pg => data_of (snd pg) < s_next s) l ->
  let '(s', r) := play s (p_gradients_clone done l) in
  let '(n, o) := clone_arrays (map (fun pg => bb_data (snd pg)) (see_gradients s l)) in
  kept s s' /\ s_next s' = s_next s + n /\
  match r with
  | Ok l' => o = Ok tt /\ see_gradients s' l' = see_gradients s (done ++ l)
      /\ map (fun pg => data_of (snd pg)) l' = map (fun pg => data_of (snd pg)) done ++ seq (s_next s) (length l)
  | Err e => o = Err e
  | Panic message => o = Panic message
  | Undefined reason => o = Undefined reason
  end.
Proof.
  induction l as [|[parameter gradient] l IH]; intros done s Hd Hl.
  - cbn [p_gradients_clone play see_gradients map clone_arrays length seq]. split; [apply kept_refl|]. split; [lia|]. split; [reflexivity|]. rewrite !app_nil_r. split; reflexivity.
  - inversion Hl as [|? ? Hg Hl']; subst. cbn [snd] in Hg. cbn [p_gradients_clone]. unfold p_basic_clone. rewrite !play_or_drop, play_copy.
    cbn [see_gradients map snd see_basic bb_data clone_arrays]. fold (see_gradients s l).
    destruct (array_clone (s_array s (data_of gradient))) as [array|e|message|reason] eqn:Ec; cbn [play];
      try (split; [apply kept_refl|split; [lia|reflexivity]]).
    apply clone_same in Ec. subst array. set (s1 := added s (s_array s (data_of gradient))).
    set (g' := mk_basic (pointer (s_next s)) (bb_samples gradient) (bb_components gradient) (bb_properties gradient)).
    assert (Hk : kept s s1) by apply kept_added. destruct Hk as [Hk1 Hk2].
    assert (Hlater : forall m, Forall (fun pg => data_of (snd pg) < s_next s) m -> see_gradients s1 m = see_gradients s m).
    { intros m Hm. apply map_ext_in. intros [q x] Hin. rewrite Forall_forall in Hm. specialize (Hm _ Hin). cbn [fst snd] in *. unfold see_basic. rewrite Hk2 by exact Hm. reflexivity. }
    assert (Hd1 : Forall (fun pg => data_of (snd pg) < s_next s1) (done ++ [(parameter, g')])).
    { apply Forall_app. split; [eapply Forall_impl; [|exact Hd]; intros pg Hpg; cbv beta in *; lia|]. constructor; [|constructor]. change (s_next s < S (s_next s)). lia. }
    assert (Hl1 : Forall (fun pg => data_of (snd pg) < s_next s1) l) by (eapply Forall_impl; [|exact Hl']; intros pg Hpg; cbv beta in *; lia).
    specialize (IH (done ++ [(parameter, g')]) s1 Hd1 Hl1). destruct (play s1 (p_gradients_clone (done ++ [(parameter, g')]) l)) as [s' r].
    rewrite (Hlater l Hl') in IH. destruct (clone_arrays _) as [n o]. destruct IH as (IH1 & IH2 & IH3).
    split; [exact (kept_trans _ _ _ (conj Hk1 Hk2) IH1)|]. split; [rewrite IH2; cbn; lia|].
    destruct r; [|exact IH3..]. destruct IH3 as (H1 & H2 & H3). split; [exact H1|]. split.
    + rewrite H2. unfold see_gradients. rewrite !map_app. fold (see_gradients s1 done) (see_gradients s1 l). rewrite (Hlater done Hd), (Hlater l Hl').
      rewrite <- app_assoc. f_equal. cbn [map app fst snd]. f_equal. f_equal. unfold see_basic, g'. cbn [data_of bb_data bb_samples bb_components bb_properties].
      replace (data_of _) with (s_next s) by reflexivity. unfold s1. rewrite added_new. reflexivity.
    + rewrite H3, map_app, <- app_assoc. f_equal.
Qed.

Lemma play_block_clone s b : Forall (fun a => a < s_next s) (Callbacks.block_arrays b) ->
  let '(s', r) := play s (p_block_clone b) in
  let '(n, o) := clone_arrays (CApi.block_arrays (see_block s b)) in
  (forall a, a < s_next s -> s_array s' a = s_array s a) /\ s_next s' = s_next s + n
  /\ (let? b' := r in Ok (see_block s' b')) = (let? _ := o in Ok (see_block s b))
  /\ (forall b', r = Ok b' -> Callbacks.block_arrays b' = seq (s_next s) (length (Callbacks.block_arrays b))).
Proof.
  intros H. inversion H as [|? ? Hv Hg]; subst. unfold p_block_clone, p_basic_clone. rewrite !play_or_drop, play_copy.
  unfold CApi.block_arrays. cbn [see_block tb_values tb_gradients see_basic bb_data clone_arrays].
  destruct (array_clone (s_array s (data_of (tb_values b)))) as [array|e|message|reason] eqn:Ec; cbn [play];
    try (split; [reflexivity|split; [lia|split; [reflexivity|discriminate]]]).
  apply clone_same in Ec. subst array. set (s1 := added s (s_array s (data_of (tb_values b)))).
  assert (Hk : kept s s1) by apply kept_added.
  assert (Hg0 : Forall (fun pg => data_of (snd pg) < s_next s) (tb_gradients b)).
  { rewrite Forall_map in Hg. exact Hg. }
  assert (Hg1 : Forall (fun pg => data_of (snd pg) < s_next s1) (tb_gradients b)).
  { eapply Forall_impl; [|exact Hg0]. intros pg Hpg. destruct Hk. cbv beta in *. lia. }
  rewrite play_or_drop.
  pose proof (play_gradients_clone (tb_gradients b) [] s1 (Forall_nil _) Hg1) as G.
  destruct (play s1 (p_gradients_clone [] (tb_gradients b))) as [s' r].
  assert (E : see_gradients s1 (tb_gradients b) = see_gradients s (tb_gradients b)).
  { apply map_ext_in. intros [q x] Hin. rewrite Forall_forall in Hg0. specialize (Hg0 _ Hin). cbn [fst snd] in *. unfold see_basic. rewrite (proj2 Hk) by exact Hg0. reflexivity. }
  rewrite E in G. fold (see_gradients s (tb_gradients b)).
  destruct (clone_arrays (map (fun pg => bb_data (snd pg)) (see_gradients s (tb_gradients b)))) as [n o]. destruct G as (G1 & G2 & G3).
  pose proof (kept_trans _ _ _ Hk G1) as Hk'.
  destruct r as [l'|e|message|reason]; cbn [play].
  2-4: subst o; split; [exact (proj2 Hk')|split; [rewrite G2; cbn; lia|split; [reflexivity|discriminate]]].
  destruct G3 as (-> & G4 & G5). split; [exact (proj2 Hk')|]. split; [rewrite G2; cbn; lia|]. split.
  - cbn [bind]. f_equal. unfold see_block. cbn [tb_values tb_gradients tb_gradient_parameters].
    fold (see_gradients s' l') (see_gradients s (tb_gradients b)). rewrite G4. cbn [app]. rewrite E. f_equal.
    unfold see_basic. cbn [data_of bb_data bb_samples bb_components bb_properties]. f_equal.
    replace (data_of _) with (s_next s) by reflexivity. rewrite (proj2 G1) by (cbn; lia). unfold s1. apply added_new.
  - intros b' Eb. inversion Eb; subst b'. unfold Callbacks.block_arrays. cbn [tb_values tb_gradients]. rewrite G5. cbn [map app length seq].
    rewrite map_length. reflexivity.
Qed.
