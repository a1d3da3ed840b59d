(* Lemmas about MoveWith.v *)
From Verif Require Import Base BaseFacts LayoutFacts Labels Array Block Tensor Strided Spec SpecTensor LabelsFacts ArrayFacts BlockFacts TensorFacts KeysFacts MergeFacts GroupFacts BlocksFacts MergePropertiesFacts MovedFacts DefinedFacts CompleteFacts Numpy SpecNumpy NumpyFacts MoveWith.
Local Open Scope string_scope.
Local Open Scope list_scope.
Local Open Scope nat_scope.

(** * Outcomes *)

Lemma bind_ext {A B} (x : outcome A) (f g : A -> outcome B) : (forall a, x = Ok a -> f a = g a) -> bind x f = bind x g.
Proof. destruct x; cbn; intros H; [apply H; reflexivity|reflexivity|reflexivity|reflexivity]. Qed.

Lemma foldM_inv_ext {A S} (f g : S -> A -> outcome S) (I : S -> Prop) l : forall s,
  (forall s x, In x l -> I s -> f s x = g s x /\ forall s', g s x = Ok s' -> I s') -> I s -> foldM f l s = foldM g l s.
Proof.
  induction l as [|x l IH]; intros s H Hs; cbn [foldM]; [reflexivity|].
  destruct (H s x (or_introl eq_refl) Hs) as [-> Hs']. apply bind_ext. intros s' E. apply IH; [|auto].
  intros s0 y Hy. apply H. right. exact Hy.
Qed.

(** * Moves *)

Definition usable (origin : nat) (a : eqs_array) : Prop := numpy_array origin a /\ wf_nd (a_nd a).

Definition agrees (origin : nat) (move : eqs_array -> eqs_array -> list sample_mapping -> nat -> nat -> outcome eqs_array) : Prop :=
  forall output input samples start stop, usable origin output -> usable origin input ->
    same_components (shape_of input) (shape_of output) start stop ->
    move output input samples start stop = array_move_samples_from output input samples start stop.

(* the arrays can be stored in memory one after the other *)
Lemma numpy_agrees f origin move : follows_numpy f -> acts_as_numpy f origin move -> agrees origin move.
Proof.
  intros Hf H output input samples start stop [[Hko Hco] Hwo] [[Hki Hci] Hwi] Hsame.
  set (ni := np_new [] (shape_of input) Float64 (nd_data (a_nd input))).
  set (no := np_new (fst ni) (shape_of output) Float64 (nd_data (a_nd output))).
  assert (Mi : in_memory (fst ni) (snd ni)) by (apply new_in_memory; exact Hwi).
  assert (Mi' : in_memory (fst no) (snd ni)) by (apply in_memory_app; exact Mi).
  assert (Mo : in_memory (fst no) (snd no)) by (apply new_in_memory; exact Hwo).
  assert (Ei : a_nd input = mk_nd (np_shape (snd ni)) (np_elements (fst no) (snd ni))).
  { transitivity (mk_nd (shape_of input) (nd_data (a_nd input))); [unfold shape_of; destruct (a_nd input); reflexivity|].
    f_equal. unfold no. cbn [np_new fst]. rewrite elements_app by exact Mi. symmetry. apply new_elements. exact Hwi. }
  assert (Eo : a_nd output = mk_nd (np_shape (snd no)) (np_elements (fst no) (snd no))).
  { transitivity (mk_nd (shape_of output) (nd_data (a_nd output))); [unfold shape_of; destruct (a_nd output); reflexivity|].
    f_equal. symmetry. apply new_elements. exact Hwo. }
  rewrite (H (fst no) (snd ni) (snd no)); try assumption.
  - unfold array_move_samples_from. rewrite Hko, Hki, Nat.eqb_refl, call_works, Ei, Eo by exact Hco.
    rewrite (move_same f (fst no) (snd ni) (snd no)); try assumption; [|reflexivity|apply new_apart; exact Hwo].
    destruct (np_move_samples _ _ _ _ _ _ _); reflexivity.
  - apply new_apart. exact Hwo.
  - cbn. lia.
  - reflexivity.
  - split; [exact Hki|]. split; [exact Ei|exact Hci].
  - split; [exact Hko|]. split; [exact Eo|exact Hco].
Qed.

Lemma move_usable origin output input samples start stop output' :
  usable origin output -> same_components (shape_of input) (shape_of output) start stop ->
  array_move_samples_from output input samples start stop = Ok output' -> usable origin output' /\ shape_of output' = shape_of output.
Proof.
  intros [[Hk Hc] Hw] (n_in & n_out & cs & np & P & Hi & Ho & Hstop & HP) E.
  destruct (array_move_spec _ _ _ _ _ _ _ _ _ _ _ E Hi Ho Hstop HP Hw) as (H1 & H2 & _ & H3 & H4 & _).
  split; [|exact H3]. split; [|exact H4]. split; [congruence|]. rewrite H2. exact Hc.
Qed.

Lemma create_usable origin a shape a' : numpy_array origin a -> array_create a shape = Ok a' -> usable origin a' /\ shape_of a' = shape.
Proof.
  intros [Hk Hc]. unfold array_create. rewrite Hk, call_works by exact Hc. intros E. inversion E; subst. split; [|reflexivity].
  split; [split; [exact Hk|exact Hc]|apply nd_zeros_wf].
Qed.

(** * Groups of blocks *)

Section Group.
  Context (origin : nat) (move : eqs_array -> eqs_array -> list sample_mapping -> nat -> nat -> outcome eqs_array).
  Context (Hmove : agrees origin move).

  Definition usable_block (b : TensorBlock) : Prop :=
    wf_block b /\ numpy_array origin (bb_data (tb_values b))
    /\ forall q g, In (q, g) (tb_gradients b) -> numpy_array origin (bb_data g).

  Lemma basic_usable g : wf_basic g -> numpy_array origin (bb_data g) -> usable origin (bb_data g).
  Proof. intros Hw Hn. split; [exact Hn|]. apply wf_array_nd; [apply Hw|]. destruct Hn as [Hn _]. rewrite Hn. discriminate. Qed.

  (* one move of values *)
  Lemma values_step n cs P b samples start stop s :
    usable_block b -> counts (bb_components (tb_values b)) = cs ->
    stop = start + length (rows (bb_properties (tb_values b))) -> stop <= P ->
    usable origin s /\ shape_of s = n :: cs ++ [P] ->
    move s (bb_data (tb_values b)) samples start stop = array_move_samples_from s (bb_data (tb_values b)) samples start stop
    /\ forall s', array_move_samples_from s (bb_data (tb_values b)) samples start stop = Ok s' -> usable origin s' /\ shape_of s' = n :: cs ++ [P].
  Proof.
    intros (Hw & Hn & _) <- Hstop HP [Hu Hs].
    assert (Hc : same_components (shape_of (bb_data (tb_values b))) (shape_of s) start stop).
    { rewrite (wf_basic_shape _ (proj1 Hw)), Hs. do 5 eexists. split; [reflexivity|]. split; [reflexivity|]. split; [exact Hstop|exact HP]. }
    split; [apply Hmove; [exact Hu|apply basic_usable; [apply Hw|exact Hn]|exact Hc]|].
    intros s' E. destruct (move_usable _ _ _ _ _ _ _ Hu Hc E) as [H1 H2]. split; [exact H1|congruence].
  Qed.

  (* one move of gradients *)
  Lemma gradient_step p q new_components samples b mapping start stop n P s :
    usable_block b -> Forall axis_labels new_components ->
    (p = Debug \/ forall g, In (q, g) (tb_gradients b) -> Forall2 same_labels (bb_components g) new_components) ->
    stop = start + length (rows (bb_properties (tb_values b))) -> stop <= P ->
    usable origin s /\ shape_of s = n :: counts new_components ++ [P] ->
    move_gradient_with move p q new_components samples b mapping start stop s = move_gradient p q new_components samples b mapping start stop s
    /\ forall s', move_gradient p q new_components samples b mapping start stop s = Ok s' ->
         usable origin s' /\ shape_of s' = n :: counts new_components ++ [P].
  Proof.
    intros (Hw & _ & Hn) Hax Hp Hstop HP [Hu Hs]. unfold move_gradient_with, move_gradient.
    destruct (tensor_block_gradient b q) as [g|] eqn:Eg; cbn [expect_some bind]; [|split; [reflexivity|discriminate]].
    apply gradient_In in Eg. destruct (wf_block_gradient _ _ _ Hw Eg) as (Hwg & (_ & _ & Hgp & _) & _).
    destruct (wf_basic_axes _ Hwg) as (_ & Hgc & _).
    destruct (debug_assert p (labels_list_eqb (bb_components g) new_components) "assertion failed: *gradient.components == *new_components")
      as [u|e|e|e] eqn:Ed; cbn [bind]; try (split; [reflexivity|discriminate]).
    assert (Hcs : Forall2 same_labels (bb_components g) new_components).
    { destruct Hp as [->|Hp]; [|exact (Hp g Eg)]. cbn in Ed. destruct (labels_list_eqb (bb_components g) new_components) eqn:El; [|discriminate].
      apply (labels_list_eqb_same _ _ (axes_wf _ Hgc) (axes_wf _ Hax)). exact El. }
    assert (Hc : same_components (shape_of (bb_data g)) (shape_of s) start stop).
    { rewrite (wf_basic_shape _ Hwg), Hs. unfold counts. rewrite <- (Forall2_same_counts _ _ Hcs). do 5 eexists.
      split; [reflexivity|]. split; [reflexivity|]. split; [rewrite Hgp; exact Hstop|exact HP]. }
    destruct (labels_iter (bb_samples g)) as [rs|e|e|e]; cbn [bind]; try (split; [reflexivity|discriminate]).
    destruct (gradient_samples_to_move p 0 samples mapping rs) as [ms|e|e|e]; cbn [bind]; try (split; [reflexivity|discriminate]).
    split; [apply Hmove; [exact Hu|apply basic_usable; [exact Hwg|exact (Hn q g Eg)]|exact Hc]|].
    intros s' E. destruct (move_usable _ _ _ _ _ _ _ Hu Hc E) as [H1 H2]. split; [exact H1|congruence].
  Qed.

  Lemma samples_same p k0 b0 others extracted sort :
    let blocks := (k0, b0) :: others in
    (forall k b, In (k, b) blocks -> usable_block b) ->
    (p = Debug \/ forall k b, In (k, b) blocks -> agreeing_gradients b b0) ->
    merge_blocks_along_samples_with move p blocks extracted sort = merge_blocks_along_samples p blocks extracted sort.
  Proof.
    intros blocks Hb Hp. unfold merge_blocks_along_samples_with, merge_blocks_along_samples. unfold blocks at 1 4. fold blocks.
    assert (Hwf : Forall (fun kb : KeyAndBlock => wf_block (snd kb)) blocks).
    { apply Forall_forall. intros [k b] Hin. apply (Hb k b Hin). }
    destruct (Hb k0 b0 (or_introl eq_refl)) as (Hw0 & Hn0 & Hg0). pose proof (proj1 Hw0) as Hv0.
    destruct (wf_basic_axes _ Hv0) as (Hs0 & Hc0 & Hp0).
    apply bind_ext. intros [] Hchk. rewrite (check_same_samples_ok _ _ Hv0 Hwf), Forall_forall in Hchk.
    apply bind_ext. intros [merged maps] _. apply bind_ext. intros shape Hshape. apply array_shape_ok in Hshape as [_ Hshape].
    apply bind_ext. intros n_samples _. apply bind_ext. intros new_shape Hns.
    rewrite Hshape, (wf_basic_shape _ Hv0) in Hns. apply set_slice_first in Hns. subst new_shape.
    apply bind_ext. intros s0 Hs. apply (create_usable origin _ _ _ Hn0) in Hs.
    rewrite (labels_count_axis _ Hp0). cbn [bind]. set (P := length (rows (bb_properties (tb_values b0)))) in *.
    assert (Hprops : forall k b, In (k, b) blocks -> length (rows (bb_properties (tb_values b))) = P).
    { intros k b Hin. apply Hchk in Hin as [_ [_ Hin]]. cbn [snd] in Hin. unfold P. rewrite Hin. reflexivity. }
    match goal with |- bind ?x _ = bind ?y _ => assert (E : x = y) end.
    { apply (foldM_inv_ext _ _ (fun s => usable origin s /\ shape_of s = n_samples :: counts (bb_components (tb_values b0)) ++ [P])); [|exact Hs]. intros s [[k b] ms] Hin Hi. apply in_combine_l in Hin.
      apply values_step; [exact (Hb k b Hin)| | |lia|exact Hi].
      - apply Forall2_same_counts. apply (Hchk (k, b) Hin).
      - rewrite (Hprops k b Hin). reflexivity. }
    rewrite E. apply bind_ext. intros data _. apply bind_ext. intros nb _. apply foldM_ext. intros nb' [q g0] Hqg.
    destruct (wf_block_gradient _ _ _ Hw0 Hqg) as (Hwg & (_ & _ & Hgp & _) & _). destruct (wf_basic_axes _ Hwg) as (_ & Hgc & _).
    apply bind_ext. intros new_samples _. apply bind_ext. intros gshape Hgs. apply array_shape_ok in Hgs as [_ Hgs].
    apply bind_ext. intros n_grad _. apply bind_ext. intros new_gshape Hns.
    rewrite Hgs, (wf_basic_shape _ Hwg) in Hns. apply set_slice_first in Hns. subst new_gshape.
    apply bind_ext. intros s1 Hs1. apply (create_usable origin _ _ _ Hn0) in Hs1. rewrite Hgp in Hs1.
    match goal with |- bind ?x _ = bind ?y _ => assert (E' : x = y); [|rewrite E'; reflexivity] end.
    apply (foldM_inv_ext _ _ (fun s => usable origin s /\ shape_of s = n_grad :: counts (bb_components g0) ++ [P])); [|exact Hs1]. intros s [[k b] ms] Hin Hi. apply in_combine_l in Hin.
    apply gradient_step; [exact (Hb k b Hin)|exact Hgc| | |lia|exact Hi].
    - destruct Hp as [->|Hp]; [left; reflexivity|right]. intros g Hg. apply (Hp k b Hin q); assumption.
    - rewrite (Hprops k b Hin). reflexivity.
  Qed.

  Lemma properties_same p k0 b0 others (keys : option Labels) extracted sort n :
    let blocks := (k0, b0) :: others in
    (forall k b, In (k, b) blocks -> usable_block b) ->
    (p = Debug \/ forall k b, In (k, b) blocks -> agreeing_gradients b b0) ->
    NoDup (map fst blocks) -> (forall k b, In (k, b) blocks -> length k = n) ->
    match keys with Some l => axis_labels l /\ length (labels_names l) = n | None => True end ->
    merge_blocks_along_properties_with move p blocks keys extracted sort = merge_blocks_along_properties p blocks keys extracted sort.
  Proof.
    intros blocks Hb Hp Hnd Hlen Hkeys. unfold merge_blocks_along_properties_with, merge_blocks_along_properties. unfold blocks at 1 4. fold blocks.
    assert (Hwf : Forall (fun kb : KeyAndBlock => wf_block (snd kb)) blocks).
    { apply Forall_forall. intros [k b] Hin. apply (Hb k b Hin). }
    destruct (Hb k0 b0 (or_introl eq_refl)) as (Hw0 & Hn0 & Hg0). pose proof (proj1 Hw0) as Hv0.
    destruct (wf_basic_axes _ Hv0) as (Hs0 & Hc0 & Hp0).
    apply bind_ext. intros [] Hchk. rewrite (check_same_properties_ok _ _ _ Hv0 Hwf), Forall_forall in Hchk.
    apply bind_ext. intros [merged maps] _. apply bind_ext. intros nprows Hnp.
    assert (Hk : match keys with
      | Some l => axis_labels l /\ length (labels_names l) = n /\ (forall k b, In (k, b) blocks -> block_properties b = block_properties b0)
      | None => True end).
    { destruct keys as [l|]; [|exact I]. split; [apply Hkeys|]. split; [apply Hkeys|]. intros k b Hin. apply Hchk in Hin as [_ Hin].
      apply (Hin eq_refl). }
    apply (merged_properties_ok keys k0 b0 others n) in Hnp; auto.
    2:{ destruct keys; tauto. }
    apply bind_ext. intros newp Hbuild.
    assert (Hnewp : wf_labels newp) by (eapply labels_build_wf; exact Hbuild).
    apply labels_build_is_labels in Hbuild; [|intros E; apply app_eq_nil in E as [_ E]; apply (proj2 Hp0 E)].
    assert (Hnewrows : rows newp = new_properties (option_map rows keys) blocks b0) by (rewrite (is_labels_rows _ _ _ Hbuild); exact Hnp).
    assert (Hnewax : axis_labels newp).
    { split; [exact Hnewp|]. rewrite (is_labels_names _ _ _ Hbuild). intros E. apply app_eq_nil in E as [_ E]. apply (proj2 Hp0 E). }
    rewrite (labels_count_axis _ Hnewax). cbn [bind]. set (P := length (rows newp)).
    apply bind_ext. intros shape Hshape. apply array_shape_ok in Hshape as [_ Hshape].
    apply bind_ext. intros n_samples _. apply bind_ext. intros new_shape Hns.
    rewrite Hshape, (wf_basic_shape _ Hv0) in Hns. apply set_slice_first in Hns. subst new_shape.
    apply bind_ext. intros new_shape Hns. apply set_slice_last in Hns. subst new_shape.
    apply bind_ext. intros s0 Hs. apply (create_usable origin _ _ _ Hn0) in Hs.
    apply bind_ext. intros ranges Hranges. rewrite mapM_ok in Hranges.
    assert (Hrange : forall k b ms start stop, In (((k, b), ms), Some (start, stop)) (combine (combine blocks maps) ranges) ->
       In (k, b) blocks /\ stop = start + length (rows (bb_properties (tb_values b))) /\ stop <= P).
    { intros k b ms start stop Hx. apply In_nth_error in Hx as [i Hi]. apply nth_error_combine in Hi as [Hi1 Hi2].
      apply nth_error_combine in Hi1 as [Hi1 _]. assert (Hin : In (k, b) blocks) by (eapply nth_error_In; exact Hi1). split; [exact Hin|].
      destruct (Forall2_nth_error_l _ _ _ _ _ Hranges Hi1) as (rg & Hrg & E). rewrite Hi2 in Hrg. inversion Hrg; subst rg.
      destruct (property_range_ok keys k0 b0 others n newp k b (Some (start, stop))) as (Hne & _ & Hrr); auto.
      destruct (Hrr _ _ eq_refl) as [E' Hn]. split; [exact E'|]. fold (block_properties b) in *.
      destruct (length (block_properties b)) as [|m] eqn:El.
      { apply length_zero_iff_nil in El. contradiction. }
      destruct (nth_error (block_properties b) m) as [r|] eqn:Em; [|apply nth_error_None in Em; lia].
      apply Hn in Em. assert (start + m < length (rows newp)) by (apply nth_error_Some; congruence). unfold P. lia. }
    match goal with |- bind ?x _ = bind ?y _ => assert (E : x = y) end.
    { apply (foldM_inv_ext _ _ (fun s => usable origin s /\ shape_of s = n_samples :: counts (bb_components (tb_values b0)) ++ [P])); [|exact Hs]. intros s [[[k b] ms] [[start stop]|]] Hin Hi; [|split; [reflexivity|intros s' Es; inversion Es; subst; exact Hi]].
      destruct (Hrange _ _ _ _ _ Hin) as (Hin' & Hstop & Hle).
      apply values_step; [exact (Hb k b Hin')| |exact Hstop|exact Hle|exact Hi].
      apply Forall2_same_counts. apply (Hchk (k, b) Hin'). }
    rewrite E. apply bind_ext. intros data _. apply bind_ext. intros nb _. apply foldM_ext. intros nb' [q g0] Hqg.
    destruct (wf_block_gradient _ _ _ Hw0 Hqg) as (Hwg & (_ & _ & Hgp & _) & _). destruct (wf_basic_axes _ Hwg) as (_ & Hgc & _).
    apply bind_ext. intros new_samples _. apply bind_ext. intros gshape Hgs. apply array_shape_ok in Hgs as [_ Hgs].
    apply bind_ext. intros n_grad _. apply bind_ext. intros new_gshape Hns.
    rewrite Hgs, (wf_basic_shape _ Hwg) in Hns. apply set_slice_first in Hns. subst new_gshape.
    apply bind_ext. intros new_gshape Hns. apply set_slice_last in Hns. subst new_gshape.
    apply bind_ext. intros s1 Hs1. apply (create_usable origin _ _ _ Hn0) in Hs1.
    match goal with |- bind ?x _ = bind ?y _ => assert (E' : x = y); [|rewrite E'; reflexivity] end.
    apply (foldM_inv_ext _ _ (fun s => usable origin s /\ shape_of s = n_grad :: counts (bb_components g0) ++ [P])); [|exact Hs1]. intros s [[[k b] ms] [[start stop]|]] Hin Hi; [|split; [reflexivity|intros s' Es; inversion Es; subst; exact Hi]].
    destruct (Hrange _ _ _ _ _ Hin) as (Hin' & Hstop & Hle).
    apply gradient_step; [exact (Hb k b Hin')|exact Hgc| |exact Hstop|exact Hle|exact Hi].
    destruct Hp as [->|Hp]; [left; reflexivity|right]. intros g Hg. apply (Hp k b Hin' q); assumption.
  Qed.
End Group.

(** * Tensor maps *)

Section Tensor.
  Context (origin : nat) (move : eqs_array -> eqs_array -> list sample_mapping -> nat -> nat -> outcome eqs_array).
  Context (Hmove : agrees origin move).
  Context (p : profile) (t : TensorMap) (keys : Labels).
  Context (Ht : wf_tensor t) (Hn : numpy_tensor origin t).
  Context (Hp : p = Debug \/ agreeing_groups t (labels_names keys)).

  Lemma group_usable e k b : In (k, b) (group t (labels_names keys) e) -> usable_block origin b.
  Proof.
    intros Hin. apply group_blocks in Hin. destruct (Hn b Hin) as [H1 H2]. split; [|split; [exact H1|exact H2]].
    exact (wf_tensor_block t b Ht Hin).
  Qed.

  Lemma group_agrees e k0 b0 others : group t (labels_names keys) e = (k0, b0) :: others ->
    p = Debug \/ forall k b, In (k, b) ((k0, b0) :: others) -> agreeing_gradients b b0.
  Proof.
    intros Eg. destruct Hp as [->|Hagree]; [left; reflexivity|right]. intros k b Hin. rewrite <- Eg in Hin.
    apply in_group_block_of in Hin as (key1 & Hk1 & En1 & _).
    assert (Hin' : In (k0, b0) (group t (labels_names keys) e)) by (rewrite Eg; left; reflexivity).
    apply in_group_block_of in Hin' as (key2 & Hk2 & En2 & _). apply (Hagree key1 b key2 b0); congruence.
  Qed.

  Lemma keys_to_samples_any_move sort : keys_to_samples_with move p t keys sort = keys_to_samples p t keys sort.
  Proof.
    unfold keys_to_samples_with, keys_to_samples.
    assert (E : keys_to_samples_compute_with move p t keys sort = keys_to_samples_compute p t keys sort); [|rewrite E; reflexivity].
    unfold keys_to_samples_compute_with, keys_to_samples_compute. apply bind_ext. intros count _. destruct (0 <? count); [reflexivity|].
    apply bind_ext. intros [nk pos] Erem. rewrite !(merged_blocks_mapM _ _ _ _ _ Ht Erem).
    match goal with |- bind ?x _ = bind ?y _ => assert (E : x = y); [|rewrite E; reflexivity] end.
    apply mapM_ext. intros e _. pose proof (group_usable e) as Hu. pose proof (group_agrees e) as Ha.
    destruct (group t (labels_names keys) e) as [|[k0 b0] others]; [reflexivity|].
    apply (samples_same origin move Hmove); [exact Hu|exact (Ha _ _ _ eq_refl)].
  Qed.

  Lemma keys_to_properties_any_move sort : wf_labels keys -> keys_to_properties_with move p t keys sort = keys_to_properties p t keys sort.
  Proof.
    intros Hk. unfold keys_to_properties_with, keys_to_properties.
    assert (E : keys_to_properties_compute_with move p t keys sort = keys_to_properties_compute p t keys sort); [|rewrite E; reflexivity].
    unfold keys_to_properties_compute_with, keys_to_properties_compute. apply bind_ext. intros [nk pos] Erem. apply bind_ext. intros count Hcount.
    rewrite !(merged_blocks_mapM _ _ _ _ _ Ht Erem).
    match goal with |- bind ?x _ = bind ?y _ => assert (E : x = y); [|rewrite E; reflexivity] end.
    destruct (remove_variables_ok _ _ _ _ (proj1 Ht) Erem) as (Hv & _).
    assert (Hlen : length (filter (is_moved (labels_names keys)) (labels_names (tm_keys t))) = length (labels_names keys)).
    { apply moved_names_length; [apply Ht|apply (wf_labels_good_names _ Hk)|exact Hv]. }
    apply mapM_ext. intros e _. pose proof (group_usable e) as Hu. pose proof (group_agrees e) as Ha.
    pose proof (group_keys_distinct t (labels_names keys) e Ht) as Hnd.
    pose proof (fun k b => group_keys_length t (labels_names keys) e k b Ht) as Hl.
    destruct (group t (labels_names keys) e) as [|[k0 b0] others]; [reflexivity|].
    apply (properties_same origin move Hmove) with (n := length (labels_names keys)).
    - exact Hu.
    - exact (Ha _ _ _ eq_refl).
    - exact Hnd.
    - intros k b Hin. rewrite (Hl k b Hin). exact Hlen.
    - destruct (count =? 0) eqn:E0; [exact I|]. split; [|reflexivity]. split; [exact Hk|].
      intros E. unfold labels_count in Hcount. destruct keys as [ns vs ps]. cbn in *. subst. cbn in Hcount. discriminate Hcount.
  Qed.
End Tensor.

(* C88 *)
Lemma keys_to_samples_numpy f origin move p t keys sort :
  follows_numpy f -> acts_as_numpy f origin move -> wf_tensor t -> numpy_tensor origin t ->
  (p = Debug \/ agreeing_groups t (labels_names keys)) ->
  keys_to_samples_with move p t keys sort = keys_to_samples p t keys sort.
Proof. intros Hf Hm Ht Hn Hp. eapply keys_to_samples_any_move; try eassumption. eapply numpy_agrees; eassumption. Qed.

Lemma keys_to_properties_numpy f origin move p t keys sort :
  follows_numpy f -> acts_as_numpy f origin move -> wf_tensor t -> numpy_tensor origin t -> wf_labels keys ->
  (p = Debug \/ agreeing_groups t (labels_names keys)) ->
  keys_to_properties_with move p t keys sort = keys_to_properties p t keys sort.
Proof. intros Hf Hm Ht Hn Hk Hp. eapply keys_to_properties_any_move; try eassumption. eapply numpy_agrees; eassumption. Qed.

(* the function of Array.v is one of these implementations *)
Lemma array_move_acts f origin : follows_numpy f -> acts_as_numpy f origin array_move_samples_from.
Proof.
  intros Hf m a b input output samples start stop Ha Hb Hel _ Ht (Hki & Hni & Hci) (Hko & Hno & Hco) Hsame.
  unfold array_move_samples_from. rewrite Hko, Hki, Nat.eqb_refl, call_works, Hni, Hno by exact Hco.
  rewrite (move_same f m a b) by assumption. destruct (np_move_samples _ _ _ _ _ _ _); reflexivity.
Qed.
