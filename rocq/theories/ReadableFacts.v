(* When the data of the arrays can be read after the transformations *)
From Verif Require Import Base BaseFacts LayoutFacts SwapLayoutFacts Labels Array Block Tensor Spec SpecTensor SpecIo LabelsFacts ArrayFacts BlockFacts TensorFacts GroupFacts DefinedFacts ComponentsFacts.
Local Open Scope string_scope.
Local Open Scope list_scope.
Local Open Scope nat_scope.

(** * Moving keys *)

(* an ndarray which was just created *)
Definition created (a : eqs_array) : Prop := a_kind a = RustNdarray /\ a_strides a = default_strides (shape_of a).

Lemma created_readable a : created a -> readable a.
Proof.
  intros [Hk Hs]. exists (nd_data (a_nd a)). unfold array_data, array_shape, call. rewrite Hk. cbn [bind].
  rewrite Hs. unfold shape_of. rewrite default_standard. reflexivity.
Qed.

Lemma created_create a shape a' : a_kind a = RustNdarray -> array_create a shape = Ok a' -> created a'.
Proof.
  intros Hk H. unfold array_create, call in H. rewrite Hk in H. inversion H. split; [exact Hk|reflexivity].
Qed.

Lemma created_move a input ms start stop a' : created a -> array_move_samples_from a input ms start stop = Ok a' -> created a'.
Proof.
  intros [Hk Hs] H. unfold array_move_samples_from in H. rewrite Hk in H. destruct (a_kind input); try discriminate.
  destruct (nd_move_samples _ _ _ _ _) as [nd|] eqn:E; [|discriminate]. inversion H. split; [exact Hk|].
  unfold shape_of, with_nd. cbn [a_strides a_nd]. rewrite Hs. unfold shape_of. f_equal.
  unfold nd_move_samples in E. destruct (_ <? 2); [discriminate|]. symmetry. eapply nd_move_loop_shape. exact E.
Qed.

Lemma created_move_gradient p q cs gs block m start stop a a' : created a ->
  move_gradient p q cs gs block m start stop a = Ok a' -> created a'.
Proof.
  intros Hf H. unfold move_gradient in H. bind_inv H. bind_inv H. bind_inv H. bind_inv H.
  eapply created_move; [exact Hf|exact H].
Qed.

Definition created_block (b : TensorBlock) : Prop := forall part, In part (parts_of_block b) -> created (bb_data part).

Lemma created_new a s cs ps b msg : created a -> expect msg (tensor_block_new a s cs ps) = Ok b -> created_block b.
Proof.
  intros Hf H. destruct (tensor_block_new a s cs ps) as [b'| | |] eqn:E; try discriminate. inversion H. subst b'.
  unfold tensor_block_new in E. bind_inv E. unfold basic_block_new in Hb. bind_inv Hb. bind_inv Hb. inversion Hb. subst.
  inversion E. subst. intros part [<-|[]]. exact Hf.
Qed.

Lemma in_insert_new {V} (m : list (string * V)) k v x : In x (hm_insert_new m k v) -> In x m \/ x = (k, v).
Proof. unfold hm_insert_new. intros H. apply in_app_or in H as [H|[H|[]]]; auto. Qed.

Lemma created_gradient b q a s cs b' : created_block b -> created a -> add_merged_gradient b q a s cs = Ok b' -> created_block b'.
Proof.
  intros Hb Ha H. unfold add_merged_gradient, tensor_block_add_gradient in H.
  destruct (check_gradient b q a s cs); try discriminate.
  destruct (cstring_new q); cbn [expect bind] in H; [|discriminate]. inversion H. subst.
  intros part [<-|Hp]; [apply Hb; left; reflexivity|]. cbn [tb_gradients] in Hp. apply in_map_iff in Hp as ([k g] & <- & Hg).
  apply in_insert_new in Hg as [Hg|Hg]; [apply Hb; right; apply (in_map snd) in Hg; exact Hg|].
  inversion Hg. exact Ha.
Qed.

Definition ndarray_block (b : TensorBlock) : Prop := forall part, In part (parts_of_block b) -> a_kind (bb_data part) = RustNdarray.

Lemma created_merge_samples p blocks names sort b :
  (forall k b, In (k, b) blocks -> ndarray_block b) ->
  merge_blocks_along_samples p blocks names sort = Ok b -> created_block b.
Proof.
  intros Hk H. unfold merge_blocks_along_samples in H. destruct blocks as [|[k first] blocks]; [discriminate|].
  assert (Hf : a_kind (bb_data (tb_values first)) = RustNdarray) by (apply (Hk k first); left; reflexivity).
  bind_inv H. bind_inv H. destruct a0 as [merged mappings].
  bind_inv H. bind_inv H. bind_inv H. bind_inv H. bind_inv H. bind_inv H. bind_inv H.
  match type of H with foldM ?f _ ?s = Ok _ => apply (foldM_inv f created_block _ s b) in H; [exact H| |] end.
  - intros s [q g] s' _ Hs E. bind_inv E. bind_inv E. bind_inv E. bind_inv E. bind_inv E. bind_inv E.
    eapply created_gradient; [exact Hs| |exact E].
    match goal with X : foldM ?f _ ?s = Ok ?r |- created ?r => apply (foldM_inv f created _ s r) in X; [exact X| |] end.
    + intros ? [[? ?] ?] ? _ ? ?. eapply created_move_gradient; eassumption.
    + eapply created_create; eassumption.
  - eapply created_new; [|eassumption].
    match goal with X : foldM ?f _ ?s = Ok ?r |- created ?r => apply (foldM_inv f created _ s r) in X; [exact X| |] end.
    + intros ? [[? ?] ?] ? _ ? ?. eapply created_move; eassumption.
    + eapply created_create; eassumption.
Qed.

Lemma created_merge_properties p blocks keys names sort b :
  (forall k b, In (k, b) blocks -> ndarray_block b) ->
  merge_blocks_along_properties p blocks keys names sort = Ok b -> created_block b.
Proof.
  intros Hk H. unfold merge_blocks_along_properties in H. destruct blocks as [|[k first] blocks]; [discriminate|].
  assert (Hf : a_kind (bb_data (tb_values first)) = RustNdarray) by (apply (Hk k first); left; reflexivity).
  bind_inv H. bind_inv H. destruct a0 as [merged mappings].
  do 11 bind_inv H.
  match type of H with foldM ?f _ ?s = Ok _ => apply (foldM_inv f created_block _ s b) in H; [exact H| |] end.
  - intros s [q g] s' _ Hs E. do 7 bind_inv E.
    eapply created_gradient; [exact Hs| |exact E].
    match goal with X : foldM ?f _ ?s = Ok ?r |- created ?r => apply (foldM_inv f created _ s r) in X; [exact X| |] end.
    + intros ? [[[? ?] ?] [[? ?]|]] ? _ ? X; [eapply created_move_gradient; eassumption|inversion X; subst; assumption].
    + eapply created_create; eassumption.
  - eapply created_new; [|eassumption].
    match goal with X : foldM ?f _ ?s = Ok ?r |- created ?r => apply (foldM_inv f created _ s r) in X; [exact X| |] end.
    + intros ? [[[? ?] ?] [[? ?]|]] ? _ ? X; [eapply created_move; eassumption|inversion X; subst; assumption].
    + eapply created_create; eassumption.
Qed.

Lemma created_merged_blocks t new_keys positions merge blocks :
  Forall ndarray_block (tm_blocks t) ->
  (forall l b, (forall k b, In (k, b) l -> ndarray_block b) -> merge l = Ok b -> created_block b) ->
  merged_blocks t new_keys positions merge = Ok blocks -> Forall created_block blocks.
Proof.
  intros Ht Hm H. rewrite Forall_forall in Ht. unfold merged_blocks in H. bind_inv H. destruct (a =? 1).
  - bind_inv H. bind_inv H. inversion H. constructor; [|constructor]. eapply Hm; [|eassumption].
    intros k b Hin. unfold all_blocks_to_merge in Hb0. bind_inv Hb0. apply mapM_ok in Hb0.
    destruct (Forall2_In_r _ _ _ _ Hb0 Hin) as ([k' b'] & Hin' & E). bind_inv E. inversion E. subst.
    apply Ht. eapply in_combine_r. exact Hin'.
  - bind_inv H. apply mapM_ok in H. apply Forall_forall. intros b Hin.
    destruct (Forall2_In_r _ _ _ _ H Hin) as (entry & _ & E). bind_inv E. eapply Hm; [|exact E].
    intros k b' Hin'. unfold blocks_to_merge_for in Hb1. bind_inv Hb1. bind_inv Hb1. apply mapM_ok in Hb1.
    destruct (Forall2_In_r _ _ _ _ Hb1 Hin') as (i & _ & E'). bind_inv E'. bind_inv E'. bind_inv E'. inversion E'. subst.
    apply Ht. unfold index_slice in Hb4. destruct (nth_error (tm_blocks t) i) eqn:En; [|discriminate]. inversion Hb4. subst.
    eapply nth_error_In. exact En.
Qed.

Lemma in_ndarrays_blocks t : in_ndarrays t <-> Forall ndarray_block (tm_blocks t).
Proof.
  rewrite Forall_forall. split.
  - intros H b Hb part Hp. exact (H b part Hb Hp).
  - intros H b part Hb Hp. exact (H b Hb part Hp).
Qed.

Lemma created_tensor t : Forall created_block (tm_blocks t) -> in_ndarrays t /\ readable_tensor t.
Proof.
  rewrite Forall_forall. intros H. split; intros b part Hb Hp.
  - exact (proj1 (H b Hb part Hp)).
  - apply created_readable. exact (H b Hb part Hp).
Qed.

Lemma keys_to_samples_readable p t keys sort t' : in_ndarrays t ->
  keys_to_samples p t keys sort = (t', Ok tt) -> in_ndarrays t' /\ readable_tensor t'.
Proof.
  intros Ht H. apply in_ndarrays_blocks in Ht. apply created_tensor. unfold keys_to_samples in H.
  destruct (keys_to_samples_compute p t keys sort) as [[new_keys blocks]| | |] eqn:E; try discriminate; injection H as <-; cbn [tm_blocks].
  unfold keys_to_samples_compute in E. bind_inv E.
  destruct (0 <? a); [discriminate|]. bind_inv E. destruct a0 as [nk positions]. bind_inv E. injection E as <- <-.
  eapply created_merged_blocks; [exact Ht| |eassumption]. intros l b Hl Hb'. exact (created_merge_samples _ _ _ _ _ Hl Hb').
Qed.

Lemma keys_to_properties_readable p t keys sort t' : in_ndarrays t ->
  keys_to_properties p t keys sort = (t', Ok tt) -> in_ndarrays t' /\ readable_tensor t'.
Proof.
  intros Ht H. apply in_ndarrays_blocks in Ht. apply created_tensor. unfold keys_to_properties in H.
  destruct (keys_to_properties_compute p t keys sort) as [[new_keys blocks]| | |] eqn:E; try discriminate; injection H as <-; cbn [tm_blocks].
  unfold keys_to_properties_compute in E. bind_inv E. destruct a as [nk positions]. bind_inv E. bind_inv E. injection E as <- <-.
  eapply created_merged_blocks; [exact Ht| |eassumption]. intros l b Hl Hb'. exact (created_merge_properties _ _ _ _ _ _ Hl Hb').
Qed.

(** * Moving components *)

Lemma readable_ndarray a : a_kind a = RustNdarray ->
  (readable a <-> is_standard_layout (shape_of a) (a_strides a) = true).
Proof.
  intros K. unfold readable, array_data, array_shape, call, shape_of. rewrite K. cbn [bind].
  destruct (is_standard_layout _ _); split; try discriminate; eauto. intros [n H]. discriminate.
Qed.

Lemma split_strides {A} (strides : list A) n : length strides = n + 3 ->
  exists s0 sc sd sp, strides = s0 ++ [sc; sd; sp] /\ length s0 = n.
Proof.
  intros H. assert (Hl : length (skipn n strides) = 3) by (rewrite skipn_length; lia).
  destruct (skipn n strides) as [|sc [|sd [|sp [|? ?]]]] eqn:E; try discriminate Hl.
  exists (firstn n strides), sc, sd, sp. split; [rewrite <- E, firstn_skipn; reflexivity|apply firstn_length_le; lia].
Qed.

Lemma nonempty_rows (cs : list Labels) :
  prod (map (fun l => length (rows l)) cs) <> 0 <-> Forall (fun c => rows c <> []) cs.
Proof.
  induction cs as [|c cs IH]; cbn [map prod]; [split; [constructor|discriminate]|].
  rewrite Forall_cons_iff, <- IH. destruct (rows c) as [|r rs]; cbn [length]; [split; [lia|intros [H _]; congruence]|].
  split; [intros H; split; [discriminate|nia]|intros [_ H]; nia].
Qed.

Lemma moved_readable name b pre x post b' :
  wf_basic b -> component_moved [name] b pre x post b' -> length post <= 1 ->
  a_kind (bb_data b) = RustNdarray -> readable (bb_data b) ->
  (readable (bb_data b') <-> ~ left_exchanged b name).
Proof.
  intros Hwf Hm Hp K Hr. pose proof Hwf as (Ha & _ & Hsh & _ & Hnd).
  apply (readable_ndarray _ K) in Hr. rewrite (readable_ndarray _ (eq_trans (cm_kind _ _ _ _ _ _ Hm) K)).
  pose proof (cm_strides _ _ _ _ _ _ Hm K) as Hst. cbv zeta in Hst. pose proof (proj2 Ha K) as Hl.
  destruct post as [|y [|? ?]]; [| |cbn [length] in Hp; lia].
  - cbn [length] in Hst. rewrite Nat.add_0_r, !swap_nth_self in Hst.
    rewrite (reshape_standard _ _ _ _ Hl Hr Hst). split; [intros _|reflexivity].
    intros (pre' & m & l & E & En & _). rewrite (cm_components _ _ _ _ _ _ Hm) in E.
    rewrite (cm_components _ _ _ _ _ _ Hm) in Hnd. change [m; l] with (m :: [l]) in E.
    destruct (split_unique [name] _ _ _ _ _ _ (cm_moved _ _ _ _ _ _ Hm) En Hnd E) as (_ & _ & E'). discriminate.
  - pose proof (cm_shape _ _ _ _ _ _ Hm) as Hsh'.
    set (c := length (rows x)) in *. set (d := length (rows y)) in *. set (p := length (rows (bb_properties b))) in *.
    set (shape0 := length (rows (bb_samples b)) :: map (fun l => length (rows l)) pre).
    assert (E1 : shape_of (bb_data b) = shape0 ++ [c; d; p]).
    { rewrite Hsh. unfold axes. rewrite (cm_components _ _ _ _ _ _ Hm). cbn [map]. rewrite !map_app. cbn [map].
      rewrite <- app_assoc. reflexivity. }
    assert (E2 : shape_of (bb_data b') = shape0 ++ [d; c * p]).
    { rewrite Hsh'. rewrite map_app. cbn [map]. rewrite <- app_assoc. reflexivity. }
    assert (Hne : shape0 <> []) by (unfold shape0; discriminate).
    assert (L0 : length shape0 = S (length pre)) by (unfold shape0; cbn [length]; rewrite map_length; reflexivity).
    destruct (split_strides (a_strides (bb_data b)) (length shape0)) as (s0 & sc & sd & sp & Es & Ls0).
    { rewrite Hl, E1, app_length. reflexivity. }
    rewrite E1, E2, Es in *. rewrite <- L0 in Hst. cbn [length] in Hst.
    pose proof (swap_nth_left shape0 [d] [p] c (le_n _)) as X1. cbn [length app] in X1.
    pose proof (swap_nth_left s0 [sd] [sp] sc (le_n _)) as X2. cbn [length app] in X2. rewrite Ls0 in X2.
    rewrite X1, X2 in Hst.
    rewrite (swapped_standard shape0 s0 c d p sc sd sp _ Hne Ls0 Hr Hst).
    unfold left_exchanged. split; intros H X; apply H; clear H.
    + destruct X as (pre' & m & l & E & En & H1 & H2 & H3 & H4 & H5). rewrite (cm_components _ _ _ _ _ _ Hm) in E, Hnd.
      change [m; l] with (m :: [l]) in E.
      destruct (split_unique [name] _ _ _ _ _ _ (cm_moved _ _ _ _ _ _ Hm) En Hnd E) as (<- & <- & E'). inversion E'. subst l.
      split; [exact H3|]. split; [exact H1|]. split; [exact H2|]. unfold shape0. cbn [prod].
      apply nonempty_rows in H5. destruct (rows (bb_samples b)); [congruence|]. cbn [length]. nia.
    + destruct X as (H1 & H2 & H3 & H4). exists pre, x, y. split; [exact (cm_components _ _ _ _ _ _ Hm)|].
      split; [exact (cm_moved _ _ _ _ _ _ Hm)|]. split; [exact H2|]. split; [exact H3|]. split; [exact H1|].
      unfold shape0 in H4. cbn [prod] in H4. split; [intros E; rewrite E in H4; apply H4; reflexivity|].
      apply nonempty_rows. intros E. apply H4. rewrite E. lia.
Qed.

Lemma parts_moved b name b' :
  wf_block b -> tensor_block_components_to_properties b [name] = (b', Ok tt) -> among_last_two (tb_values b) name ->
  Forall2 (fun part part' => wf_basic part /\ exists pre x post, component_moved [name] part pre x post part' /\ length post <= 1)
    (parts_of_block b) (parts_of_block b').
Proof.
  intros Hwf H Hl. destruct (block_components_ok b [name] b' Hwf ltac:(discriminate) H) as ((pre & x & post & Hv) & Hg & _).
  pose proof (proj1 Hwf) as Hwv. pose proof (proj1 (among_last_two_post _ _ _ _ _ _ name Hwv Hv eq_refl) Hl) as Hp.
  constructor; [split; [exact Hwv|]; exists pre, x, post; split; assumption|].
  assert (G : forall l l', (forall q g, In (q, g) l -> In (q, g) (tb_gradients b)) ->
    Forall2 (fun pg pg' => fst pg' = fst pg
       /\ exists pre x post, component_moved [name] (snd pg) pre x post (snd pg')) l l' ->
    Forall2 (fun part part' => wf_basic part /\ exists pre x post, component_moved [name] part pre x post part' /\ length post <= 1)
      (map snd l) (map snd l')).
  { intros l l' Hin F. induction F as [|[q g] [q' g'] l l' (E & pre_g & x_g & post_g & Hm) F IH]; cbn [map snd]; constructor.
    - cbn [snd] in Hm. pose proof (Hin q g (or_introl eq_refl)) as Hgi.
      destruct (wf_block_gradient _ _ _ Hwf Hgi) as (Hwg & _ & _).
      destruct (gradient_component_place _ _ _ _ _ _ _ _ _ _ _ _ Hwf Hgi Hv Hm) as (_ & Hlen & _).
      split; [exact Hwg|]. exists pre_g, x_g, post_g. split; [exact Hm|]. rewrite Hlen. exact Hp.
    - apply IH. intros q0 g0 H0. apply Hin. right. exact H0. }
  apply G; [auto|exact Hg].
Qed.

Lemma components_readable t name t' :
  wf_tensor t -> in_ndarrays t -> readable_tensor t ->
  (forall b, In b (tm_blocks t) -> among_last_two (tb_values b) name) ->
  components_to_properties t [name] = (t', Ok tt) ->
  (readable_tensor t' <-> forall b part, In b (tm_blocks t) -> In part (parts_of_block b) -> ~ left_exchanged part name).
Proof.
  intros Hwf Hn Hr Hl H. destruct (components_to_properties_ok t [name] t' ltac:(discriminate) H) as [_ Hf].
  assert (G : forall b b', In b (tm_blocks t) -> tensor_block_components_to_properties b [name] = (b', Ok tt) ->
    Forall2 (fun part part' => readable (bb_data part') <-> ~ left_exchanged part name) (parts_of_block b) (parts_of_block b')).
  { intros b b' Hb E. assert (Hwb : wf_block b) by (destruct Hwf as (_ & Hbs & _); rewrite Forall_forall in Hbs; exact (Hbs b Hb)).
    pose proof (parts_moved b name b' Hwb E (Hl b Hb)) as F.
    assert (Hp : Forall (fun part => a_kind (bb_data part) = RustNdarray /\ readable (bb_data part)) (parts_of_block b)).
    { apply Forall_forall. intros part Hp. split; [exact (Hn b part Hb Hp)|exact (Hr b part Hb Hp)]. }
    clear -F Hp. induction F as [|part part' l l' (Hw & pre & x & post & Hm & Hlen) F IH]; constructor.
    - destruct (Forall_inv Hp) as [K R]. exact (moved_readable name part pre x post part' Hw Hm Hlen K R).
    - apply IH. exact (Forall_inv_tail Hp). }
  split.
  - intros Hr' b part Hb Hp. destruct (Forall2_In_l _ _ _ _ Hf Hb) as (b' & Hb' & E).
    destruct (Forall2_In_l _ _ _ _ (G b b' Hb E) Hp) as (part' & Hp' & X). apply X. exact (Hr' b' part' Hb' Hp').
  - intros Hx b' part' Hb' Hp'. destruct (Forall2_In_r _ _ _ _ Hf Hb') as (b & Hb & E).
    destruct (Forall2_In_r _ _ _ _ (G b b' Hb E) Hp') as (part & Hp & X). apply X. exact (Hx b part Hb Hp).
Qed.
