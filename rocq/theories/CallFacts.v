(* What each function of the C API does (C60 to C66) *)
From Coq Require Import Lia Permutation Sorted.
From Verif Require Import Base BaseFacts Labels Array Block Tensor Npy Io Origin CApi Spec SpecTensor SpecIo SpecApi
  LabelsFacts ArrayFacts BlockFacts TensorFacts KeysFacts MergeFacts ApiFacts QuietFacts ReportFacts OwnerFacts LabelsApiFacts
  ReachFacts HandleFacts.
Local Open Scope string_scope.
Local Open Scope list_scope.
Local Open Scope nat_scope.

(** * Labels *)

Lemma from_c_describes c l : given_labels c -> labels_from_c c = Ok l -> describes c l.
Proof.
  intros [Hr Hs] H. destruct (labels_from_c_is c Hr Hs) as [H1 H2]. destruct (proj1 H1 (ex_intro _ l H)) as (A & B & _).
  split; [exact A|]. split; [exact B|]. apply H2. exact H.
Qed.

Lemma is_labels_same l1 l2 names rs : is_labels l1 names rs -> is_labels l2 names rs -> same_labels l1 l2.
Proof.
  intros H1 H2. split.
  - pose proof (is_labels_names _ _ _ H1). pose proof (is_labels_names _ _ _ H2). unfold labels_names in *. congruence.
  - rewrite (is_labels_rows _ _ _ H1), (is_labels_rows _ _ _ H2). reflexivity.
Qed.

Lemma describes_from_c c l : given_labels c -> describes c l -> exists l', labels_from_c c = Ok l' /\ same_labels l' l.
Proof.
  intros [Hr Hs] (A & B & H). destruct (labels_from_c_is c Hr Hs) as [H1 H2].
  destruct (proj2 H1) as [l' Hl'].
  - split; [exact A|]. split; [exact B|]. destruct H as (H & H0 & _). split; [exact H|apply H0].
  - exists l'. split; [exact Hl'|]. eapply is_labels_same; [apply H2; exact Hl'|exact H].
Qed.

Lemma from_c_describes_all cs ls : Forall given_labels cs -> mapM labels_from_c cs = Ok ls -> Forall2 describes cs ls.
Proof.
  intros Hg H. apply mapM_ok in H. revert Hg. induction H; intros Hg; inversion Hg; subst; constructor; auto using from_c_describes.
Qed.

Lemma describes_from_c_all cs ls : Forall given_labels cs -> Forall2 describes cs ls ->
  exists ls', mapM labels_from_c cs = Ok ls' /\ Forall2 same_labels ls' ls.
Proof.
  intros Hg H. revert Hg. induction H as [|c l cs ls H _ IH]; intros Hg; inversion Hg as [|? ? Hc Hcs]; subst.
  - exists []. split; [reflexivity|constructor].
  - destruct (describes_from_c c l Hc H) as (l' & H1 & H2). destruct (IH Hcs) as (ls' & H3 & H4).
    exists (l' :: ls'). cbn [mapM]. rewrite H1. cbn [bind]. rewrite H3. split; [reflexivity|constructor; assumption].
Qed.

Lemma describes_wf c l : describes c l -> wf_labels l.
Proof. intros (_ & _ & H). eexists. eexists. exact H. Qed.

Lemma describes_wf_all cs ls : Forall2 describes cs ls -> Forall wf_labels ls.
Proof. induction 1; constructor; eauto using describes_wf. Qed.

Lemma same_map {B} (f : Labels -> B) ls ls' : (forall l l', same_labels l l' -> f l = f l') -> Forall2 same_labels ls ls' ->
  map f ls = map f ls'.
Proof. intros H. induction 1; cbn [map]; [reflexivity|]. f_equal; auto. Qed.

Lemma shapes_agree_same data s s' cs cs' p p' : same_labels s s' -> Forall2 same_labels cs cs' -> same_labels p p' ->
  shapes_agree data s cs p -> shapes_agree data s' cs' p'.
Proof.
  intros Hs Hc Hp (H1 & H2 & H3 & H4 & H5). split; [|split; [|split; [|split]]].
  - rewrite H1. apply same_map; [intros l l' [_ E]; congruence|]. constructor; [exact Hs|]. apply Forall2_app; [exact Hc|]. constructor; [exact Hp|constructor].
  - clear -Hc H2. induction Hc as [|c c' cs cs' [E _] _ IH]; inversion H2; subst; constructor; [unfold labels_names in *; congruence|auto].
  - rewrite <- (same_map labels_names cs cs'); [exact H3|intros l l' [E _]; exact E|exact Hc].
  - destruct Hs as [E _]. unfold labels_names in *. congruence.
  - destruct Hp as [E _]. unfold labels_names in *. congruence.
Qed.

(** * Calls *)

(* a failed call does not return zero *)
Lemma failed_not_zero p thread w c w' v r w1 v1 o : plain_world w -> run_call p thread w c = (w', v, r) ->
  call_body p thread w c = (w1, v1, o) -> o <> Ok tt -> r <> Returned 0.
Proof.
  intros Hw H Hb Ho Hr. apply (run_call_zero _ _ _ _ _ _ _ Hw H) in Hr as [w2 E]. rewrite Hb in E. injection E as _ _ ->. apply Ho. reflexivity.
Qed.

Lemma run_call_fields_of p thread w c w' v r w1 v1 o : run_call p thread w c = (w', v, r) -> call_body p thread w c = (w1, v1, o) ->
  v = v1 /\ w_blocks w' = w_blocks w1 /\ w_tensors w' = w_tensors w1 /\ w_destroyed w' = w_destroyed w1.
Proof.
  intros H Hb. apply run_call_fields in H as (w2 & o2 & E & H). rewrite Hb in E. injection E as <- <- <-. tauto.
Qed.

Lemma unused_next w n : owners w -> unused_arrays w (seq (w_next_array w) n).
Proof.
  intros Hw. apply arrays_once in Hw as (_ & _ & _ & H & _). split; [apply seq_NoDup|].
  intros a Ha. apply in_seq in Ha. split; intros Hin; assert (a < w_next_array w) by (apply H; auto); lia.
Qed.

(** * C60: eqs_block *)

Lemma same_sym_all l1 l2 : Forall2 same_labels l1 l2 -> Forall2 same_labels l2 l1.
Proof. induction 1; constructor; auto using same_labels_sym. Qed.

Lemma create_described data cs cc cp samples components properties :
  given_labels cs -> Forall given_labels cc -> given_labels cp -> answers data OpShape ->
  describes cs samples -> Forall2 describes cc components -> describes cp properties ->
  shapes_agree data samples components properties ->
  exists b, (let? samples := labels_from_c cs in
    let? components := mapM labels_from_c cc in
    let? properties := labels_from_c cp in
    tensor_block_new data samples components properties) = Ok b.
Proof.
  intros Hs Hc Hp Ha D1 D2 D3 Hsh.
  destruct (describes_from_c _ _ Hs D1) as (s1 & F1 & G1). destruct (describes_from_c_all _ _ Hc D2) as (c1 & F2 & G2).
  destruct (describes_from_c _ _ Hp D3) as (p1 & F3 & G3). rewrite F1. cbn [bind]. rewrite F2. cbn [bind].
  rewrite F3. cbn [bind]. exists (mk_block (mk_basic data s1 c1 p1) [] []).
  apply tensor_block_new_ok; [eapply labels_from_c_wf; eassumption| |eapply labels_from_c_wf; eassumption|exact Ha|].
  - eapply describes_wf_all, from_c_describes_all; eassumption.
  - split; [|reflexivity]. eapply shapes_agree_same; [apply same_labels_sym; exact G1|apply same_sym_all; exact G2|apply same_labels_sym; exact G3|exact Hsh].
Qed.

Lemma block_create_call p files calls i thread data cs cc cp s' v r :
  never_crashed p (world_start files) calls ->
  let s := state_at p (world_start files) calls i in
  given_labels cs -> Forall given_labels cc -> given_labels cp -> answers data OpShape ->
  run_call p thread s (BlockCreate data cs cc cp) = (s', v, r) ->
  (r = Returned 0 <-> exists samples components properties,
     describes cs samples /\ Forall2 describes cc components /\ describes cp properties
     /\ shapes_agree data samples components properties)
  /\ exists array, unused_arrays s [array] /\ w_tensors s' = w_tensors s
  /\ (r = Returned 0 -> exists handle samples components properties,
        describes cs samples /\ Forall2 describes cc components /\ describes cp properties
        /\ v = VBlock (BlockAt handle) /\ w_destroyed s' = w_destroyed s
        /\ w_blocks s' = (handle, mk_owned_block (mk_block (mk_basic data samples components properties) [] []) [array]) :: w_blocks s)
  /\ (r <> Returned 0 -> v = VBlock BlockNull /\ w_blocks s' = w_blocks s /\ w_destroyed s' = w_destroyed s ++ [array]).
Proof.
  intros Hn s Hs Hc Hp Ha Hr. pose proof (owners_state p files calls Hn i) as Hown. pose proof (state_plain p files calls i) as Hpl.
  fold s in Hown, Hpl. pose proof (unused_next s 1 Hown) as Hun. cbn [seq] in Hun.
  destruct (call_body p thread s (BlockCreate data cs cc cp)) as [[w1 v1] o] eqn:Hb. pose proof Hb as Hb0.
  destruct (run_call_fields_of _ _ _ _ _ _ _ _ _ _ Hr Hb) as (-> & Eb & Et & Ed).
  cbn [call_body] in Hb. unfold eqs_block in Hb. cbn [new_arrays seq] in Hb.
  match type of Hb with match ?body with _ => _ end = _ => destruct body as [b|err|m|x] eqn:E end; injection Hb as <- <- <-.
  { apply bind_ok in E as (samples & E1 & E). apply bind_ok in E as (components & E2 & E). apply bind_ok in E as (properties & E3 & E).
    pose proof (from_c_describes _ _ Hs E1) as D1. pose proof (from_c_describes_all _ _ Hc E2) as D2. pose proof (from_c_describes _ _ Hp E3) as D3.
    apply tensor_block_new_ok in E as [Hshape ->]; [|eauto using describes_wf, describes_wf_all..].
    assert (H0 : r = Returned 0) by (apply (run_call_zero _ _ _ _ _ _ _ Hpl Hr); eexists; exact Hb0).
    split; [split; [intros _; exists samples, components, properties; auto|intros _; exact H0]|].
    exists (w_next_array s). split; [exact Hun|]. split; [exact Et|]. split; [|intros H; contradiction].
    intros _. exists (w_next_handle s), samples, components, properties. repeat (split; [assumption || reflexivity|]). exact Eb. }
  all: assert (Hnz : r <> Returned 0) by (eapply failed_not_zero; [exact Hpl|exact Hr|exact Hb0|discriminate]).
  all: split; [split; [intros H; contradiction|]|].
  all: try (intros (samples & components & properties & D1 & D2 & D3 & Hsh);
            destruct (create_described data cs cc cp samples components properties Hs Hc Hp Ha D1 D2 D3 Hsh) as [b Hb]; congruence).
  all: exists (w_next_array s); (split; [exact Hun|]); (split; [exact Et|]); (split; [intros H; contradiction|]); intros _;
    (split; [reflexivity|split; [exact Eb|exact Ed]]).
Qed.

(** * C61: eqs_block_add_gradient *)

Lemma ends_with_same l l' suffix : Forall2 same_labels l l' -> ends_with l suffix -> ends_with l' suffix.
Proof.
  intros Hl (prefix & rest & -> & Hs). apply Forall2_app_inv_l in Hl as (prefix' & rest' & _ & Hr & ->).
  exists prefix', rest'. split; [reflexivity|]. clear -Hs Hr. revert rest' Hr. induction Hs as [|a b l m H _ IH]; intros rest' Hr.
  - inversion Hr. constructor.
  - inversion Hr; subst. constructor; [|auto]. eapply same_labels_trans; [apply same_labels_sym; eassumption|exact H].
Qed.

Lemma acceptable_same b q data s s' cs cs' : same_labels s s' -> Forall2 same_labels cs cs' ->
  acceptable_gradient b q data s cs -> acceptable_gradient b q data s' cs'.
Proof.
  intros Hs Hc (H1 & H2 & (A & B & C & D) & H4). split; [exact H1|]. split; [exact H2|]. split.
  - split; [|split; [|split; [exact C|exact D]]]; cbn [bb_samples bb_components] in *.
    + destruct A as [others A]. exists others. destruct Hs as [E _]. unfold labels_names in *. congruence.
    + eapply ends_with_same; eassumption.
  - eapply shapes_agree_same; [exact Hs|exact Hc|apply same_labels_refl|exact H4].
Qed.

Lemma In_updated {A} h (a x : A) l : In (h, x) l -> In (h, a) (update_handle h a l).
Proof.
  intros H. unfold update_handle. apply in_map_iff. exists (h, x). cbn [fst]. rewrite Nat.eqb_refl. auto.
Qed.

Lemma not_ok_failed {A} (o : outcome A) : (forall a, o <> Ok a) -> (let? _ := o in Ok tt) <> Ok tt.
Proof. destruct o; cbn [bind]; intros H; [destruct (H a eq_refl)|discriminate..]. Qed.

Lemma add_gradient_call p files calls i thread h b parameter data cs cc s' v r :
  never_crashed p (world_start files) calls -> ordinary p (world_start files) calls ->
  let s := state_at p (world_start files) calls i in
  block_at s h b -> utf8_text parameter -> given_labels cs -> Forall given_labels cc ->
  answers data OpShape -> answers data OpOrigin -> answers (bb_data (tb_values (ob_block b))) OpOrigin ->
  run_call p thread s (BlockAddGradient (BlockAt h) (Some parameter) data cs cc) = (s', v, r) ->
  (r = Returned 0 <-> exists samples components, describes cs samples /\ Forall2 describes cc components
     /\ acceptable_gradient (ob_block b) (c_str parameter) data samples components)
  /\ exists array, unused_arrays s [array] /\ w_tensors s' = w_tensors s
  /\ (r = Returned 0 -> exists samples components, describes cs samples /\ Forall2 describes cc components
        /\ w_destroyed s' = w_destroyed s
        /\ block_at s' h (mk_owned_block (mk_block (tb_values (ob_block b))
             (tb_gradients (ob_block b) ++ [(c_str parameter, mk_basic data samples components (bb_properties (tb_values (ob_block b))))])
             (tb_gradient_parameters (ob_block b) ++ [c_str parameter])) (ob_arrays b ++ [array])))
  /\ (r <> Returned 0 -> w_blocks s' = w_blocks s /\ w_destroyed s' = w_destroyed s ++ [array]).
Proof.
  intros Hn Ho s Hb Hu Hs Hc Ha1 Ha2 Ha3 Hr. pose proof (owners_state p files calls Hn i) as Hown. pose proof (state_plain p files calls i) as Hpl.
  pose proof (valid_state p files calls Ho i) as Hval. fold s in Hown, Hpl, Hval. pose proof (unused_next s 1 Hown) as Hun. cbn [seq] in Hun.
  assert (Hread : read_block s (BlockAt h) = Ok b) by (apply points_to_read; [exact Hown|left; exists h; auto]).
  destruct (valid_read _ _ _ Hval Hread) as [Hwf _]. assert (Hwv : wf_basic (tb_values (ob_block b))) by apply Hwf.
  assert (Hget : get_block s (BlockAt h) = Ok (h, b)).
  { cbn [get_block]. pose proof (own_blocks _ _ Hown) as [Hnd _]. apply (BaseFacts.In_hm_get _ Nat.eqb_eq _ _ _ Hnd) in Hb. rewrite Hb. reflexivity. }
  set (call := BlockAddGradient (BlockAt h) (Some parameter) data cs cc) in *.
  destruct (call_body p thread s call) as [[w1 v1] o] eqn:Hbody. pose proof Hbody as Hb0.
  destruct (run_call_fields_of _ _ _ _ _ _ _ _ _ _ Hr Hbody) as (-> & Eb & Et & Ed). subst call.
  cbn [call_body] in Hbody. unfold eqs_block_add_gradient in Hbody. cbn [new_arrays seq check_pointer block_pointer bind] in Hbody.
  rewrite (utf8_str _ _ Hu) in Hbody. cbn [bind] in Hbody.
  assert (Hnul : has_nul (c_str parameter) = false) by apply no_nul_c_str.
  assert (Hfail : o <> Ok tt -> w_blocks w1 = w_blocks s -> w_tensors w1 = w_tensors s -> w_destroyed w1 = w_destroyed s ++ [w_next_array s] ->
    (forall samples components, describes cs samples -> Forall2 describes cc components ->
       ~ acceptable_gradient (ob_block b) (c_str parameter) data samples components) ->
    (r = Returned 0 <-> exists samples components, describes cs samples /\ Forall2 describes cc components
     /\ acceptable_gradient (ob_block b) (c_str parameter) data samples components)
  /\ exists array, unused_arrays s [array] /\ w_tensors s' = w_tensors s
  /\ (r = Returned 0 -> exists samples components, describes cs samples /\ Forall2 describes cc components
        /\ w_destroyed s' = w_destroyed s
        /\ block_at s' h (mk_owned_block (mk_block (tb_values (ob_block b))
             (tb_gradients (ob_block b) ++ [(c_str parameter, mk_basic data samples components (bb_properties (tb_values (ob_block b))))])
             (tb_gradient_parameters (ob_block b) ++ [c_str parameter])) (ob_arrays b ++ [array])))
  /\ (r <> Returned 0 -> w_blocks s' = w_blocks s /\ w_destroyed s' = w_destroyed s ++ [array])).
  { intros Hne E1 E2 E3 Hnot. assert (Hnz : r <> Returned 0) by (eapply failed_not_zero; [exact Hpl|exact Hr|exact Hb0|exact Hne]).
    split; [split; [intros H; contradiction|intros (samples & components & D1 & D2 & D3); destruct (Hnot _ _ D1 D2 D3)]|].
    exists (w_next_array s). split; [exact Hun|]. split; [congruence|]. split; [intros H; contradiction|]. intros _. split; congruence. }
  destruct (labels_from_c cs) as [samples|err|m|x] eqn:E1; cbn [bind] in Hbody.
  2, 3, 4: injection Hbody as <- <- <-; apply Hfail; [discriminate|reflexivity|reflexivity|reflexivity|];
    intros samples components D1 _ _; destruct (describes_from_c _ _ Hs D1) as (l & H & _); congruence.
  destruct (mapM labels_from_c cc) as [components|err|m|x] eqn:E2; cbn [bind] in Hbody.
  2, 3, 4: injection Hbody as <- <- <-; apply Hfail; [discriminate|reflexivity|reflexivity|reflexivity|];
    intros samples' components D1 D2 _; destruct (describes_from_c_all _ _ Hc D2) as (l & H & _); congruence.
  cbn [get_block] in Hget, Hbody. cbn [w_blocks] in Hbody. rewrite Hget in Hbody. cbn [bind] in Hbody.
  pose proof (from_c_describes _ _ Hs E1) as D1. pose proof (from_c_describes_all _ _ Hc E2) as D2.
  destruct (tensor_block_add_gradient (ob_block b) (c_str parameter) data samples components) as [b' res] eqn:Ea.
  destruct (add_gradient_frame _ _ _ _ _ _ _ Hnul Ea) as [Hf1 _].
  assert (Hcase : res = Ok tt \/ res <> Ok tt) by (destruct res as [[]| | |]; [left; reflexivity|right; discriminate..]).
  destruct Hcase as [-> |Hne].
  - pose proof Ea as Eok. apply add_gradient_ok in Eok as [Hacc ->]; [|eauto using describes_wf, describes_wf_all..].
    cbn [tb_gradients] in Hbody. rewrite app_length in Hbody. cbn [length] in Hbody.
    rewrite (proj2 (Nat.ltb_lt (length (tb_gradients (ob_block b))) (length (tb_gradients (ob_block b)) + 1))) in Hbody by lia.
    injection Hbody as <- <- <-.
    assert (H0 : r = Returned 0) by (apply (run_call_zero _ _ _ _ _ _ _ Hpl Hr); eexists; exact Hb0).
    split; [split; [intros _; exists samples, components; auto|intros _; exact H0]|].
    exists (w_next_array s). split; [exact Hun|]. split; [exact Et|]. split; [|intros H; contradiction].
    intros _. exists samples, components. split; [exact D1|]. split; [exact D2|]. split; [exact Ed|].
    unfold block_at. rewrite Eb. eapply In_updated. exact Hb.
  - rewrite (Hf1 Hne) in Hbody. rewrite Nat.ltb_irrefl in Hbody. injection Hbody as <- <- <-.
    apply Hfail; [exact Hne|reflexivity|reflexivity|reflexivity|]. intros samples' components' D1' D2' Hacc. apply Hne.
    assert (Hacc' : acceptable_gradient (ob_block b) (c_str parameter) data samples components).
    { destruct (describes_from_c _ _ Hs D1') as (l1 & F1 & G1). destruct (describes_from_c_all _ _ Hc D2') as (l2 & F2 & G2).
      rewrite E1 in F1. rewrite E2 in F2. injection F1 as <-. injection F2 as <-.
      eapply acceptable_same; [apply same_labels_sym; exact G1|apply same_sym_all; exact G2|exact Hacc]. }
    assert (Eok : tensor_block_add_gradient (ob_block b) (c_str parameter) data samples components =
      (mk_block (tb_values (ob_block b)) (tb_gradients (ob_block b) ++ [(c_str parameter, mk_basic data samples components (bb_properties (tb_values (ob_block b))))])
         (tb_gradient_parameters (ob_block b) ++ [c_str parameter]), Ok tt)).
    { apply add_gradient_ok; [eauto using describes_wf, describes_wf_all..|]. split; [exact Hacc'|reflexivity]. }
    congruence.
Qed.

(** * C62: eqs_block_copy *)

Definition copies (b : TensorBlock) : Prop :=
  answers (bb_data (tb_values b)) OpCopy /\ forall q g, In (q, g) (tb_gradients b) -> answers (bb_data g) OpCopy.

Lemma array_clone_ok a : (exists a', array_clone a = Ok a') <-> answers a OpCopy.
Proof.
  unfold array_clone, answers. destruct (a_kind a) as [| |o] eqn:E.
  - split; [intros _ o' H; discriminate H|eauto].
  - split; [intros _ o' H; discriminate H|eauto].
  - destruct (a_callbacks a OpCopy) as [| |status] eqn:Ec.
    + split; [|eauto]. intros _ o' _. auto.
    + split; [intros [a' H]; discriminate H|]. intros H. destruct (H o eq_refl) as [H'|H']; discriminate H'.
    + destruct (Z.eqb_spec status 0) as [->|Hne].
      * split; [|eauto]. intros _ o' _. auto.
      * split; [intros [a' H]; discriminate H|]. intros H. destruct (H o eq_refl) as [H'|H']; [discriminate H'|congruence].
Qed.

Lemma clone_arrays_ok arrays : (exists n, clone_arrays arrays = (n, Ok tt)) <-> Forall (fun a => answers a OpCopy) arrays.
Proof.
  induction arrays as [|a arrays IH]; cbn [clone_arrays]; [split; [constructor|eauto]|].
  rewrite Forall_cons_iff, <- IH, <- array_clone_ok. destruct (array_clone a) as [a'|e|m|x]; cbn [bind].
  - destruct (clone_arrays arrays) as [n o]. split.
    + intros [k H]. injection H as _ ->. split; eauto.
    + intros [_ [k H]]. injection H as _ ->. eauto.
  - split; [intros [k H]; discriminate H|intros [[k H] _]; discriminate H].
  - split; [intros [k H]; discriminate H|intros [[k H] _]; discriminate H].
  - split; [intros [k H]; discriminate H|intros [[k H] _]; discriminate H].
Qed.

Lemma copies_arrays b : copies b <-> Forall (fun a => answers a OpCopy) (block_arrays b).
Proof.
  unfold copies, block_arrays. rewrite Forall_cons_iff, Forall_map, Forall_forall. split; intros [H1 H2]; (split; [exact H1|]).
  - intros [q g] Hin. apply (H2 q g Hin).
  - intros q g Hin. apply (H2 (q, g) Hin).
Qed.

Lemma block_copy_call p files calls i thread block b s' v r :
  never_crashed p (world_start files) calls ->
  let s := state_at p (world_start files) calls i in
  points_to s block b ->
  run_call p thread s (BlockCopy block) = (s', v, r) ->
  (r = Returned 0 <-> answers (bb_data (tb_values (ob_block b))) OpCopy
     /\ forall q g, In (q, g) (tb_gradients (ob_block b)) -> answers (bb_data g) OpCopy)
  /\ w_tensors s' = w_tensors s
  /\ (r = Returned 0 -> exists handle arrays, v = VBlock (BlockAt handle) /\ unused_arrays s arrays
        /\ w_destroyed s' = w_destroyed s
        /\ w_blocks s' = (handle, mk_owned_block (ob_block b) arrays) :: w_blocks s)
  /\ (r <> Returned 0 -> v = VBlock BlockNull /\ w_blocks s' = w_blocks s).
Proof.
  intros Hn s Hb Hr. pose proof (owners_state p files calls Hn i) as Hown. pose proof (state_plain p files calls i) as Hpl.
  fold s in Hown, Hpl. pose proof (points_to_read _ _ _ Hown Hb) as Hread. pose proof (read_block_pointer _ _ _ Hread) as Hptr.
  pose proof (proj1 (copies_arrays (ob_block b))) as C1. pose proof (proj2 (copies_arrays (ob_block b))) as C2.
  unfold copies in C1, C2.
  destruct (call_body p thread s (BlockCopy block)) as [[w1 v1] o] eqn:Hbody. pose proof Hbody as Hb0.
  destruct (run_call_fields_of _ _ _ _ _ _ _ _ _ _ Hr Hbody) as (-> & Eb & Et & Ed).
  cbn [call_body] in Hbody. unfold eqs_block_copy in Hbody. rewrite Hptr in Hbody. cbn [bind] in Hbody. rewrite Hread in Hbody.
  pose proof (proj1 (clone_arrays_ok (block_arrays (ob_block b)))) as K1. pose proof (proj2 (clone_arrays_ok (block_arrays (ob_block b)))) as K2.
  destruct (clone_arrays (block_arrays (ob_block b))) as [n res]. cbn [new_arrays] in Hbody.
  destruct res as [[]|e|m|x]; injection Hbody as <- <- <-.
  { assert (H0 : r = Returned 0) by (apply (run_call_zero _ _ _ _ _ _ _ Hpl Hr); eexists; exact Hb0).
    split; [split; [intros _; apply C2, K1; exists n; reflexivity|intros _; exact H0]|].
    split; [exact Et|]. split; [|intros H; contradiction]. intros _. exists (w_next_handle s), (seq (w_next_array s) n).
    split; [reflexivity|]. split; [apply unused_next; exact Hown|]. split; [exact Ed|exact Eb]. }
  all: assert (Hnz : r <> Returned 0) by (eapply failed_not_zero; [exact Hpl|exact Hr|exact Hb0|discriminate]).
  all: split; [split; [intros H; contradiction|intros H; apply C1, K2 in H as [k H]; discriminate H]|].
  all: split; [exact Et|]; split; [intros H; contradiction|]; intros _; split; [reflexivity|exact Eb].
Qed.

(** * C63: eqs_block_gradients_list *)

Lemma gradients_list_call p files calls i thread block b s' v r :
  never_crashed p (world_start files) calls -> ordinary p (world_start files) calls ->
  let s := state_at p (world_start files) calls i in
  points_to s block b ->
  run_call p thread s (BlockGradientsList block out out) = (s', v, r) ->
  r = Returned 0 /\ exists names, v = VNames (match names with [] => None | _ => Some names end) (length names)
  /\ NoDup names /\ (forall q, In q names <-> exists g, In (q, g) (tb_gradients (ob_block b))).
Proof.
  intros Hn Ho s Hb Hr. pose proof (owners_state p files calls Hn i) as Hown. pose proof (valid_state p files calls Ho i) as Hval.
  fold s in Hown, Hval. pose proof (points_to_read _ _ _ Hown Hb) as Hread. pose proof (read_block_pointer _ _ _ Hread) as Hptr.
  destruct (valid_read _ _ _ Hval Hread) as [(_ & _ & Hnd & Hperm & _) _].
  assert (Hbody : call_body p thread s (BlockGradientsList block out out) =
    (s, VNames (match tb_gradient_parameters (ob_block b) with [] => None | _ => Some (tb_gradient_parameters (ob_block b)) end)
          (length (tb_gradient_parameters (ob_block b))), Ok tt)).
  { cbn [call_body]. unfold eqs_block_gradients_list. apply reading_ok. rewrite Hptr. cbn [bind check_pointer out]. rewrite Hread. reflexivity. }
  rewrite (run_call_ok _ _ _ _ _ _ Hbody) in Hr. injection Hr as <- <- <-. split; [reflexivity|].
  exists (tb_gradient_parameters (ob_block b)). split; [reflexivity|]. split; [eapply Permutation_NoDup; [apply Permutation_sym; exact Hperm|exact Hnd]|].
  intros q. split.
  - intros H. apply (Permutation_in _ Hperm) in H. apply in_map_iff in H as ([q' g] & <- & H). exists g. exact H.
  - intros [g H]. apply (Permutation_in _ (Permutation_sym Hperm)). apply (in_map fst) in H. exact H.
Qed.

(** * C64: eqs_tensormap_keys and eqs_tensormap_block_by_id *)

Lemma tensor_get w h t : owners w -> tensor_at w h t -> get_tensor w h = Ok t.
Proof.
  intros Hw Ht. pose proof (own_tensors _ _ Hw) as [Hnd _]. apply (BaseFacts.In_hm_get _ Nat.eqb_eq _ _ _ Hnd) in Ht.
  apply get_tensor_ok. exact Ht.
Qed.

Lemma tensor_keys_call p files calls i thread h t s' v r :
  never_crashed p (world_start files) calls -> ordinary p (world_start files) calls ->
  let s := state_at p (world_start files) calls i in
  tensor_at s h t -> run_call p thread s (TensorKeys (Some h) out) = (s', v, r) ->
  r = Returned 0 /\ exists c, v = VLabels c /\ c_names c = labels_names (tm_keys (ot_tensor t)) /\ c_rows c = rows (tm_keys (ot_tensor t)).
Proof.
  intros Hn Ho s Ht Hr. pose proof (owners_state p files calls Hn i) as Hown. pose proof (valid_state p files calls Ho i) as Hval.
  fold s in Hown, Hval. pose proof (tensor_get _ _ _ Hown Ht) as Hget. pose proof (proj1 (get_tensor_ok _ _ _) Hget) as Hg.
  destruct (valid_tensor _ _ _ Hval Hg) as [[Hk _] _]. destruct (labels_round_trip _ Hk) as (c & l' & Hc & _ & _ & _ & Hcn & Hcr & _).
  assert (Hbody : call_body p thread s (TensorKeys (Some h) out) = (s, VLabels c, Ok tt)).
  { cbn [call_body]. unfold eqs_tensormap_keys. apply reading_ok. cbn [bind check_pointer out]. rewrite Hget. cbn [bind]. rewrite Hc. reflexivity. }
  rewrite (run_call_ok _ _ _ _ _ _ Hbody) in Hr. injection Hr as <- <- <-. split; [reflexivity|]. exists c. auto.
Qed.

Lemma block_by_id_call p files calls i thread h t index s' v r :
  never_crashed p (world_start files) calls ->
  let s := state_at p (world_start files) calls i in
  tensor_at s h t -> run_call p thread s (TensorBlockById (Some h) out index) = (s', v, r) ->
  (forall block, nth_error (tm_blocks (ot_tensor t)) index = Some block ->
     r = Returned 0 /\ exists pointer b, v = VBlock pointer /\ points_to s pointer b /\ ob_block b = block)
  /\ (length (tm_blocks (ot_tensor t)) <= index -> r = Returned 255 /\ v = VNone).
Proof.
  intros Hn s Ht Hr. pose proof (owners_state p files calls Hn i) as Hown. pose proof (state_plain p files calls i) as Hpl.
  fold s in Hown, Hpl. pose proof (tensor_get _ _ _ Hown Ht) as Hget. split.
  - intros block Hnth.
    assert (Hbody : call_body p thread s (TensorBlockById (Some h) out index) = (s, VBlock (BlockIn h index), Ok tt)).
    { cbn [call_body]. unfold eqs_tensormap_block_by_id. apply reading_ok. cbn [bind check_pointer out]. rewrite Hget. cbn [bind].
      unfold index_slice. rewrite Hnth. reflexivity. }
    rewrite (run_call_ok _ _ _ _ _ _ Hbody) in Hr. injection Hr as <- <- <-. split; [reflexivity|].
    destruct Hown as [_ _ _ Ht' _]. rewrite Forall_forall in Ht'. specialize (Ht' _ Ht). cbn [snd] in Ht'. unfold tensor_arrays_ok in Ht'.
    assert (Harr : exists arrays, nth_error (ot_arrays t) index = Some arrays).
    { apply (f_equal (fun l => nth_error l index)) in Ht'. rewrite !nth_error_map, Hnth in Ht'. cbn [option_map] in Ht'.
      destruct (nth_error (ot_arrays t) index) as [l|]; [exists l; reflexivity|discriminate Ht']. }
    destruct Harr as [arrays Harr]. exists (BlockIn h index), (mk_owned_block block arrays). split; [reflexivity|]. split; [|reflexivity].
    right. exists h, index, t. auto.
  - intros Hge. apply nth_error_None in Hge.
    assert (Hbody : exists m, call_body p thread s (TensorBlockById (Some h) out index) = (s, VNone, Panic m)).
    { cbn [call_body]. unfold eqs_tensormap_block_by_id. cbn [bind check_pointer out]. rewrite Hget. cbn [bind].
      unfold index_slice. rewrite Hge. eexists. reflexivity. }
    destruct Hbody as [m Hbody].
    destruct (run_call_panic p thread s (TensorBlockById (Some h) out index) _ _ _ Hpl I Hbody) as [w2 E]. rewrite E in Hr. injection Hr as <- <- <-. auto.
Qed.

(** * C65: transformations of tensor maps *)

Lemma new_blocks_unused bs w w' arrays : owners w -> new_blocks_arrays w bs = (w', arrays) -> unused_arrays w (concat arrays).
Proof.
  intros Hw. assert (Hgen : forall bs w w' arrays, new_blocks_arrays w bs = (w', arrays) ->
    concat arrays = seq (w_next_array w) (w_next_array w' - w_next_array w) /\ w_next_array w <= w_next_array w').
  { clear. induction bs as [|b bs IH]; intros w w' arrays H; cbn [new_blocks_arrays] in H.
    - injection H as <- <-. cbn [concat]. rewrite Nat.sub_diag. auto.
    - remember (arrays_count b) as n eqn:En. clear En. unfold new_arrays in H.
      match type of H with context [new_blocks_arrays ?x bs] => destruct (new_blocks_arrays x bs) as [w2 a2] eqn:E2 end.
      injection H as <- <-. apply IH in E2 as [E2 Hle]. cbn [w_next_array] in E2, Hle. cbn [concat]. rewrite E2. split; [|lia].
      rewrite <- seq_app. f_equal. lia. }
  intros H. apply Hgen in H as [-> _]. apply unused_next. exact Hw.
Qed.

Definition moved_in_place (s s' : world) (h : nat) (t : owned_tensor) (moved : TensorMap) : Prop :=
  exists arrays, tensor_at s' h (mk_owned_tensor moved arrays) /\ unused_arrays s (concat arrays)
  /\ (forall a, In a (concat (ot_arrays t)) -> In a (w_destroyed s')).

Lemma move_keys_call w h t c keys temporary move w1 v o : owners w -> tensor_at w h t -> labels_from_c c = Ok keys ->
  move_keys w (Some h) c temporary move = (w1, v, o) ->
  v = VNone /\ o = snd (move (ot_tensor t) keys) /\ w_blocks w1 = w_blocks w
  /\ (o = Ok tt -> moved_in_place w w1 h t (fst (move (ot_tensor t) keys))).
Proof.
  intros Hw Ht Hk H. unfold move_keys in H. cbn [check_pointer bind] in H. rewrite Hk in H. cbn [bind] in H.
  rewrite (tensor_get _ _ _ Hw Ht) in H. cbn [bind] in H. destruct (move (ot_tensor t) keys) as [moved res]. destruct res as [[]|e|m|x].
  - destruct (new_blocks_arrays w (tm_blocks moved)) as [w2 arrays] eqn:En. injection H as <- <- <-. cbn [fst snd].
    pose proof (new_blocks_unused _ _ _ _ Hw En) as Hun. apply new_blocks_arrays_handles in En as (E1 & E2 & _).
    split; [reflexivity|]. split; [reflexivity|]. split; [exact E1|]. intros _. exists arrays.
    split; [|split; [exact Hun|]].
    + unfold tensor_at. cbn [destroy temporary_arrays new_arrays set_tensors w_tensors]. eapply In_updated. rewrite E2. exact Ht.
    + intros a Ha. cbn [destroy temporary_arrays new_arrays set_tensors w_destroyed]. apply in_or_app. right. exact Ha.
  - injection H as <- <- <-. repeat (split; [reflexivity|]). discriminate.
  - injection H as <- <- <-. repeat (split; [reflexivity|]). discriminate.
  - injection H as <- <- <-. repeat (split; [reflexivity|]). discriminate.
Qed.

Lemma keys_to_samples_call p files calls i thread h t c keys sort temporary s' v r :
  never_crashed p (world_start files) calls ->
  let s := state_at p (world_start files) calls i in
  tensor_at s h t -> labels_from_c c = Ok keys ->
  run_call p thread s (TensorKeysToSamples (Some h) c sort temporary) = (s', v, r) ->
  (r = Returned 0 <-> snd (keys_to_samples p (ot_tensor t) keys sort) = Ok tt)
  /\ w_blocks s' = w_blocks s
  /\ (r = Returned 0 -> exists arrays, tensor_at s' h (mk_owned_tensor (fst (keys_to_samples p (ot_tensor t) keys sort)) arrays)
        /\ unused_arrays s (concat arrays) /\ (forall a, In a (concat (ot_arrays t)) -> In a (w_destroyed s'))).
Proof.
  intros Hn s Ht Hk Hr. pose proof (owners_state p files calls Hn i) as Hown. pose proof (state_plain p files calls i) as Hpl. fold s in Hown, Hpl.
  destruct (call_body p thread s (TensorKeysToSamples (Some h) c sort temporary)) as [[w1 v1] o] eqn:Hb. pose proof (run_call_zero _ _ _ _ _ _ _ Hpl Hr) as Hz.
  destruct (run_call_fields_of _ _ _ _ _ _ _ _ _ _ Hr Hb) as (-> & Eb & Et & Ed). pose proof Hb as Hb0. cbn [call_body] in Hb.
  unfold eqs_tensormap_keys_to_samples in Hb.
  destruct (move_keys_call _ _ _ _ _ _ _ _ _ _ Hown Ht Hk Hb) as (-> & Eo & E1 & Hm). cbv beta in Eo, Hm.
  assert (Hiff : r = Returned 0 <-> o = Ok tt).
  { rewrite Hz, Hb0. split; [intros [w2 E]; congruence|intros ->; exists w1; reflexivity]. }
  split; [rewrite Hiff, Eo; reflexivity|]. split; [congruence|]. intros H0. apply Hiff in H0. destruct (Hm H0) as (arrays & H1 & H2 & H3).
  exists arrays. unfold tensor_at in *. rewrite Et, Ed. auto.
Qed.

Lemma keys_to_properties_call p files calls i thread h t c keys sort temporary s' v r :
  never_crashed p (world_start files) calls ->
  let s := state_at p (world_start files) calls i in
  tensor_at s h t -> labels_from_c c = Ok keys ->
  run_call p thread s (TensorKeysToProperties (Some h) c sort temporary) = (s', v, r) ->
  (r = Returned 0 <-> snd (keys_to_properties p (ot_tensor t) keys sort) = Ok tt)
  /\ w_blocks s' = w_blocks s
  /\ (r = Returned 0 -> exists arrays, tensor_at s' h (mk_owned_tensor (fst (keys_to_properties p (ot_tensor t) keys sort)) arrays)
        /\ unused_arrays s (concat arrays) /\ (forall a, In a (concat (ot_arrays t)) -> In a (w_destroyed s'))).
Proof.
  intros Hn s Ht Hk Hr. pose proof (owners_state p files calls Hn i) as Hown. pose proof (state_plain p files calls i) as Hpl. fold s in Hown, Hpl.
  destruct (call_body p thread s (TensorKeysToProperties (Some h) c sort temporary)) as [[w1 v1] o] eqn:Hb. pose proof (run_call_zero _ _ _ _ _ _ _ Hpl Hr) as Hz.
  destruct (run_call_fields_of _ _ _ _ _ _ _ _ _ _ Hr Hb) as (-> & Eb & Et & Ed). pose proof Hb as Hb0. cbn [call_body] in Hb.
  unfold eqs_tensormap_keys_to_properties in Hb.
  destruct (move_keys_call _ _ _ _ _ _ _ _ _ _ Hown Ht Hk Hb) as (-> & Eo & E1 & Hm). cbv beta in Eo, Hm.
  assert (Hiff : r = Returned 0 <-> o = Ok tt).
  { rewrite Hz, Hb0. split; [intros [w2 E]; congruence|intros ->; exists w1; reflexivity]. }
  split; [rewrite Hiff, Eo; reflexivity|]. split; [congruence|]. intros H0. apply Hiff in H0. destruct (Hm H0) as (arrays & H1 & H2 & H3).
  exists arrays. unfold tensor_at in *. rewrite Et, Ed. auto.
Qed.

Lemma components_call p files calls i thread h t memory s' v r :
  never_crashed p (world_start files) calls ->
  let s := state_at p (world_start files) calls i in
  tensor_at s h t -> Forall utf8_text memory ->
  run_call p thread s (TensorComponentsToProperties (Some h) (Some (map Some memory))) = (s', v, r) ->
  (r = Returned 0 <-> snd (components_to_properties (ot_tensor t) (map c_str memory)) = Ok tt)
  /\ w_blocks s' = w_blocks s /\ w_destroyed s' = w_destroyed s
  /\ tensor_at s' h (mk_owned_tensor (fst (components_to_properties (ot_tensor t) (map c_str memory))) (ot_arrays t)).
Proof.
  intros Hn s Ht Hu Hr. pose proof (owners_state p files calls Hn i) as Hown. pose proof (state_plain p files calls i) as Hpl. fold s in Hown, Hpl.
  set (call := TensorComponentsToProperties (Some h) (Some (map Some memory))) in *.
  destruct (call_body p thread s call) as [[w1 v1] o] eqn:Hb. pose proof (run_call_zero _ _ _ _ _ _ _ Hpl Hr) as Hz.
  destruct (run_call_fields_of _ _ _ _ _ _ _ _ _ _ Hr Hb) as (-> & Eb & Et & Ed). pose proof Hb as Hb0. subst call. cbn [call_body] in Hb.
  unfold eqs_tensormap_components_to_properties in Hb. cbn [check_pointer bind] in Hb.
  assert (Hmap : mapM (fun variable => let? variable := check_pointer "variable" variable in c_str_to_str "invalid utf8" variable) (map Some memory)
    = Ok (map c_str memory)).
  { clear -Hu. induction Hu as [|m memory Hm _ IH]; cbn [map mapM]; [reflexivity|]. cbn [check_pointer bind]. rewrite (utf8_str _ _ Hm). cbn [bind].
    rewrite IH. reflexivity. }
  rewrite Hmap in Hb. cbn [bind] in Hb. rewrite (tensor_get _ _ _ Hown Ht) in Hb. cbn [bind] in Hb.
  destruct (components_to_properties (ot_tensor t) (map c_str memory)) as [moved res]. injection Hb as <- <- <-. cbn [fst snd].
  split; [rewrite Hz, Hb0; split; [intros [w2 E]; congruence|intros ->; eexists; reflexivity]|].
  split; [exact Eb|]. split; [exact Ed|]. unfold tensor_at. rewrite Et. cbn [set_tensors w_tensors]. eapply In_updated. exact Ht.
Qed.

(** * C66: eqs_block_free and eqs_tensormap_free *)

Lemma block_free_call p files calls i thread h b s' v r :
  never_crashed p (world_start files) calls ->
  let s := state_at p (world_start files) calls i in
  block_at s h b -> run_call p thread s (BlockFree (BlockAt h)) = (s', v, r) ->
  r = Returned 0 /\ w_tensors s' = w_tensors s /\ (forall h' b', block_at s' h' b' <-> block_at s h' b' /\ h' <> h)
  /\ w_destroyed s' = w_destroyed s ++ ob_arrays b.
Proof.
  intros Hn s Hb Hr. pose proof (owners_state p files calls Hn i) as Hown. fold s in Hown.
  assert (Hbody : call_body p thread s (BlockFree (BlockAt h)) = (destroy (set_blocks s (remove_handle h (w_blocks s))) (ob_arrays b), VNone, Ok tt)).
  { cbn [call_body eqs_block_free get_block]. pose proof (own_blocks _ _ Hown) as [Hnd _].
    apply (BaseFacts.In_hm_get _ Nat.eqb_eq _ _ _ Hnd) in Hb. rewrite Hb. reflexivity. }
  rewrite (run_call_ok _ _ _ _ _ _ Hbody) in Hr. injection Hr as <- <- <-. split; [reflexivity|]. split; [reflexivity|].
  split; [|reflexivity]. intros h' b'. unfold block_at. cbn [set_errors destroy set_blocks w_blocks]. apply remove_In.
Qed.

Lemma tensor_free_call p files calls i thread h t s' v r :
  never_crashed p (world_start files) calls ->
  let s := state_at p (world_start files) calls i in
  tensor_at s h t -> run_call p thread s (TensorFree (Some h)) = (s', v, r) ->
  r = Returned 0 /\ w_blocks s' = w_blocks s /\ (forall h' t', tensor_at s' h' t' <-> tensor_at s h' t' /\ h' <> h)
  /\ w_destroyed s' = w_destroyed s ++ concat (ot_arrays t).
Proof.
  intros Hn s Ht Hr. pose proof (owners_state p files calls Hn i) as Hown. fold s in Hown.
  assert (Hbody : call_body p thread s (TensorFree (Some h)) = (destroy (set_tensors s (remove_handle h (w_tensors s))) (concat (ot_arrays t)), VNone, Ok tt)).
  { cbn [call_body eqs_tensormap_free]. rewrite (tensor_get _ _ _ Hown Ht). reflexivity. }
  rewrite (run_call_ok _ _ _ _ _ _ Hbody) in Hr. injection Hr as <- <- <-. split; [reflexivity|]. split; [reflexivity|].
  split; [|reflexivity]. intros h' t'. unfold tensor_at. cbn [set_errors destroy set_tensors w_tensors]. apply remove_In.
Qed.

Lemma free_null_call p thread s c s' v r : c = BlockFree BlockNull \/ c = TensorFree None ->
  run_call p thread s c = (s', v, r) ->
  r = Returned 0 /\ w_blocks s' = w_blocks s /\ w_tensors s' = w_tensors s /\ w_destroyed s' = w_destroyed s.
Proof. intros [-> | ->] H; injection H as <- <- <-; auto. Qed.

(* the same, from what the keys are *)
Lemma move_keys_refused w h t c temporary move w1 v o : owners w -> tensor_at w h t -> given_labels c -> (forall l, ~ describes c l) ->
  move_keys w (Some h) c temporary move = (w1, v, o) -> w1 = w /\ o <> Ok tt.
Proof.
  intros Hw Ht Hg Hd H. unfold move_keys in H. cbn [check_pointer bind] in H.
  destruct (labels_from_c c) as [l|e|m|x] eqn:E; cbn [bind] in H; [destruct (Hd l (from_c_describes _ _ Hg E))|..];
    injection H as <- <- <-; (split; [reflexivity|discriminate]).
Qed.

Lemma keys_to_samples_described p files calls i thread h t c sort temporary s' v r :
  never_crashed p (world_start files) calls ->
  let s := state_at p (world_start files) calls i in
  tensor_at s h t -> given_labels c ->
  run_call p thread s (TensorKeysToSamples (Some h) c sort temporary) = (s', v, r) ->
  ((forall l, ~ describes c l) -> r <> Returned 0)
  /\ (forall l, describes c l -> exists keys, describes c keys
        /\ (r = Returned 0 <-> snd (keys_to_samples p (ot_tensor t) keys sort) = Ok tt)
        /\ (r = Returned 0 -> exists arrays, tensor_at s' h (mk_owned_tensor (fst (keys_to_samples p (ot_tensor t) keys sort)) arrays)
              /\ unused_arrays s (concat arrays) /\ (forall a, In a (concat (ot_arrays t)) -> In a (w_destroyed s')))).
Proof.
  intros Hn s Ht Hg Hr. pose proof (owners_state p files calls Hn i) as Hown. pose proof (state_plain p files calls i) as Hpl. fold s in Hown, Hpl. split.
  - intros Hd. destruct (call_body p thread s (TensorKeysToSamples (Some h) c sort temporary)) as [[w1 v1] o] eqn:Hb.
    pose proof Hb as Hb0. cbn [call_body] in Hb. unfold eqs_tensormap_keys_to_samples in Hb.
    destruct (move_keys_refused _ _ _ _ _ _ _ _ _ Hown Ht Hg Hd Hb) as [_ Ho].
    eapply failed_not_zero; [exact Hpl|exact Hr|exact Hb0|exact Ho].
  - intros l Hl. destruct (describes_from_c _ _ Hg Hl) as (keys & Hk & _). exists keys. split; [apply from_c_describes; assumption|].
    destruct (keys_to_samples_call _ _ _ _ _ _ _ _ _ _ _ _ _ _ Hn Ht Hk Hr) as (H1 & _ & H2). auto.
Qed.

Lemma keys_to_properties_described p files calls i thread h t c sort temporary s' v r :
  never_crashed p (world_start files) calls ->
  let s := state_at p (world_start files) calls i in
  tensor_at s h t -> given_labels c ->
  run_call p thread s (TensorKeysToProperties (Some h) c sort temporary) = (s', v, r) ->
  ((forall l, ~ describes c l) -> r <> Returned 0)
  /\ (forall l, describes c l -> exists keys, describes c keys
        /\ (r = Returned 0 <-> snd (keys_to_properties p (ot_tensor t) keys sort) = Ok tt)
        /\ (r = Returned 0 -> exists arrays, tensor_at s' h (mk_owned_tensor (fst (keys_to_properties p (ot_tensor t) keys sort)) arrays)
              /\ unused_arrays s (concat arrays) /\ (forall a, In a (concat (ot_arrays t)) -> In a (w_destroyed s')))).
Proof.
  intros Hn s Ht Hg Hr. pose proof (owners_state p files calls Hn i) as Hown. pose proof (state_plain p files calls i) as Hpl. fold s in Hown, Hpl. split.
  - intros Hd. destruct (call_body p thread s (TensorKeysToProperties (Some h) c sort temporary)) as [[w1 v1] o] eqn:Hb.
    pose proof Hb as Hb0. cbn [call_body] in Hb. unfold eqs_tensormap_keys_to_properties in Hb.
    destruct (move_keys_refused _ _ _ _ _ _ _ _ _ Hown Ht Hg Hd Hb) as [_ Ho].
    eapply failed_not_zero; [exact Hpl|exact Hr|exact Hb0|exact Ho].
  - intros l Hl. destruct (describes_from_c _ _ Hg Hl) as (keys & Hk & _). exists keys. split; [apply from_c_describes; assumption|].
    destruct (keys_to_properties_call _ _ _ _ _ _ _ _ _ _ _ _ _ _ Hn Ht Hk Hr) as (H1 & _ & H2). auto.
Qed.
