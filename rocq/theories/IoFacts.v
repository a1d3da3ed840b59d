(* Lemmas about saving and loading tensor maps *)
From Coq Require Import Permutation.
From Verif Require Import Base BaseFacts LayoutFacts Labels Array Block Tensor Npy Io Spec SpecTensor SpecIo
  LabelsFacts ArrayFacts BlockFacts TensorFacts MergeFacts MergePropertiesFacts NpyFacts PathFacts.
Local Open Scope string_scope.
Local Open Scope list_scope.
Local Open Scope nat_scope.

(** * The files of a tensor map *)

Fixpoint components_parts (name : nat -> part) (i : nat) (components : list Labels) : list (part * content) :=
  match components with
  | [] => []
  | c :: rest => (name i, FileLabels c) :: components_parts name (i + 1) rest
  end.

Definition values_parts (i : nat) (b : BasicBlock) : list (part * content) :=
  (ValuesPart i ValuesData, FileData (bb_data b))
  :: (ValuesPart i ValuesSamples, FileLabels (bb_samples b))
  :: components_parts (fun j => ValuesPart i (ValuesComponent j)) 0 (bb_components b)
  ++ [(ValuesPart i ValuesProperties, FileLabels (bb_properties b))].

Definition gradient_parts (i : nat) (q : string) (g : BasicBlock) : list (part * content) :=
  (GradientPart i q GradientData, FileData (bb_data g))
  :: (GradientPart i q GradientSamples, FileLabels (bb_samples g))
  :: components_parts (fun j => GradientPart i q (GradientComponent j)) 0 (bb_components g).

Fixpoint gradients_parts (i : nat) (gradients : list (string * BasicBlock)) : list (part * content) :=
  match gradients with
  | [] => []
  | (q, g) :: rest => gradient_parts i q g ++ gradients_parts i rest
  end.

Definition block_parts (i : nat) (b : TensorBlock) : list (part * content) :=
  values_parts i (tb_values b) ++ gradients_parts i (tb_gradients b).

Fixpoint blocks_parts (i : nat) (blocks : list TensorBlock) : list (part * content) :=
  match blocks with
  | [] => []
  | b :: rest => block_parts i b ++ blocks_parts (i + 1) rest
  end.

Definition parts_of (t : TensorMap) : list (part * content) :=
  (KeysPart, FileLabels (tm_keys t)) :: blocks_parts 0 (tm_blocks t).

Definition write_content (e : endianness) (c : content) : outcome bytes :=
  match c with FileLabels l => write_labels e l | FileData a => write_data e a end.

Definition save_part (e : endianness) (pc : part * content) : outcome (string * bytes) :=
  let? file := write_content e (snd pc) in Ok (path_of (fst pc), file).

Lemma save_part_pair e p c : save_part e (p, c) = let? file := write_content e c in Ok (path_of p, file).
Proof. reflexivity. Qed.

Lemma mapM_app {A B} (f : A -> outcome B) l r :
  mapM f (l ++ r) = let? x := mapM f l in let? y := mapM f r in Ok (x ++ y).
Proof.
  induction l as [|a l IH]; cbn [app mapM bind].
  - destruct (mapM f r); reflexivity.
  - rewrite IH. destruct (f a); cbn [bind]; try reflexivity. destruct (mapM f l); cbn [bind]; try reflexivity.
    destruct (mapM f r); reflexivity.
Qed.

Lemma bind_assoc {A B C} (o : outcome A) (f : A -> outcome B) (g : B -> outcome C) :
  bind (bind o f) g = bind o (fun x => bind (f x) g).
Proof. destruct o; reflexivity. Qed.

Lemma save_components_parts e directory name i components :
  (forall j, path_of (name j) = component_path directory j) ->
  save_components e directory i components = mapM (save_part e) (components_parts name i components).
Proof.
  intros Hn. revert i. induction components as [|c rest IH]; intros i; [reflexivity|].
  cbn [save_components components_parts mapM]. rewrite IH. rewrite save_part_pair. unfold save_labels. cbn [write_content].
  rewrite Hn. destruct (write_labels e c); cbn [bind]; try reflexivity.
Qed.

Lemma save_gradients_parts e i gradients :
  save_gradients e i gradients = mapM (save_part e) (gradients_parts i gradients).
Proof.
  induction gradients as [|[q g] rest IH]; [reflexivity|].
  cbn [save_gradients gradients_parts]. unfold gradient_parts. rewrite mapM_app. cbn [mapM]. rewrite IH.
  rewrite (save_components_parts e _ (fun j => GradientPart i q (GradientComponent j))) by reflexivity.
  rewrite !save_part_pair. unfold save_labels, save_data. cbn [write_content path_of gradient_name].
  destruct (write_data e (bb_data g)); cbn [bind]; try reflexivity.
  destruct (write_labels e (bb_samples g)); cbn [bind]; try reflexivity.
  destruct (mapM (save_part e) (components_parts _ _ _)); cbn [bind]; try reflexivity.
Qed.

Lemma save_blocks_parts e blocks : forall i,
  save_blocks e i blocks = mapM (save_part e) (blocks_parts i blocks).
Proof.
  induction blocks as [|b rest IH]; intros i; [reflexivity|].
  cbn [save_blocks blocks_parts]. unfold block_parts, values_parts. rewrite <- app_assoc. cbn [app mapM].
  rewrite <- app_assoc. rewrite !mapM_app. cbn [mapM]. rewrite IH, save_gradients_parts.
  rewrite (save_components_parts e _ (fun j => ValuesPart i (ValuesComponent j))) by reflexivity.
  rewrite !save_part_pair. unfold save_labels, save_data. cbn [write_content path_of values_name].
  destruct (write_data e _); cbn [bind]; try reflexivity.
  destruct (write_labels e (bb_samples _)); cbn [bind]; try reflexivity.
  destruct (mapM (save_part e) (components_parts _ _ _)); cbn [bind]; try reflexivity.
  destruct (write_labels e (bb_properties _)); cbn [bind]; try reflexivity.
  destruct (mapM (save_part e) (gradients_parts i _)); cbn [bind]; try reflexivity.
  destruct (mapM (save_part e) (blocks_parts _ rest)); cbn [bind]; try reflexivity.
Qed.

Lemma save_parts e t : save e t = mapM (save_part e) (parts_of t).
Proof.
  unfold save, parts_of. cbn [mapM]. rewrite save_blocks_parts. rewrite save_part_pair. unfold save_labels.
  cbn [write_content path_of]. destruct (write_labels e (tm_keys t)); cbn [bind]; reflexivity.
Qed.

Lemma save_ok e t a : save e t = Ok a ->
  Forall2 (fun pc kf => fst kf = path_of (fst pc) /\ write_content e (snd pc) = Ok (snd kf)) (parts_of t) a.
Proof.
  rewrite save_parts. intros H. apply mapM_ok in H. eapply Forall2_impl; [|exact H].
  intros [q c] [k f]. unfold save_part. cbn [fst snd]. intros Hb. apply bind_ok in Hb as (g & Hg & E).
  inversion E; subst. auto.
Qed.

Lemma save_ok_paths e t a : save e t = Ok a -> map fst a = map path_of (map fst (parts_of t)).
Proof.
  intros H. apply save_ok in H. induction H as [|[q c] [k f] l r [E _] _ IH]; [reflexivity|].
  cbn [map fst] in *. rewrite E, IH. reflexivity.
Qed.

(** * All paths are different *)

Lemma components_parts_spec name components : forall i,
  map fst (components_parts name i components) = map name (seq i (length components)).
Proof.
  induction components as [|c rest IH]; intros i; [reflexivity|].
  cbn [components_parts map fst length seq]. rewrite IH, Nat.add_1_r. reflexivity.
Qed.

Lemma In_components_parts name components j c : forall i,
  nth_error components j = Some c -> In (name (i + j), FileLabels c) (components_parts name i components).
Proof.
  revert j. induction components as [|c' rest IH]; intros [|j] i H; try discriminate; cbn [components_parts].
  - inversion H; subst. rewrite Nat.add_0_r. left. reflexivity.
  - right. replace (i + S j) with (i + 1 + j) by lia. apply IH. assumption.
Qed.

Lemma NoDup_map_inj {A B} (f : A -> B) l : (forall x y, f x = f y -> x = y) -> NoDup l -> NoDup (map f l).
Proof.
  intros Hf. induction 1 as [|x l Hx _ IH]; [constructor|]. cbn [map]. constructor; [|assumption].
  intros Hin. apply in_map_iff in Hin as (y & E & Hy). apply Hf in E. congruence.
Qed.

Lemma gradients_parts_in i gradients x :
  In x (map fst (gradients_parts i gradients)) ->
  exists q p, x = GradientPart i q p /\ In q (map fst gradients).
Proof.
  induction gradients as [|[q g] rest IH]; [intros []|]. cbn [gradients_parts]. rewrite map_app, in_app_iff.
  intros [H|H].
  - unfold gradient_parts in H. cbn [map fst] in H. rewrite components_parts_spec in H.
    assert (Hq : In q (map fst ((q, g) :: rest))) by (left; reflexivity).
    destruct H as [<-|[<-|H]]; [eauto|eauto|]. apply in_map_iff in H as (j & <- & _). eauto.
  - destruct (IH H) as (q' & p & E & Hq). exists q', p. split; [assumption|]. right. assumption.
Qed.

Lemma gradients_parts_nodup i gradients :
  NoDup (map fst gradients) -> NoDup (map fst (gradients_parts i gradients)).
Proof.
  induction gradients as [|[q g] rest IH]; intros Hnd; [constructor|].
  cbn [gradients_parts]. rewrite map_app. cbn [map fst] in Hnd. inversion Hnd as [|? ? Hq Hnd']; subst.
  apply NoDup_app_intro.
  - unfold gradient_parts. cbn [map fst]. rewrite components_parts_spec.
    constructor; [|constructor].
    + intros [H|H]; [discriminate H|]. apply in_map_iff in H as (j & H & _). discriminate H.
    + intros H. apply in_map_iff in H as (j & H & _). discriminate H.
    + apply NoDup_map_inj; [|apply seq_NoDup]. intros x y H. inversion H; reflexivity.
  - apply IH. assumption.
  - intros x Hx Hx'. apply gradients_parts_in in Hx' as (q' & p & -> & Hq').
    unfold gradient_parts in Hx. cbn [map fst] in Hx. rewrite components_parts_spec in Hx.
    assert (q = q') as <-.
    { destruct Hx as [Hx|[Hx|Hx]]; [inversion Hx; reflexivity|inversion Hx; reflexivity|].
      apply in_map_iff in Hx as (j & Hx & _). inversion Hx; reflexivity. }
    contradiction.
Qed.

Definition block_of_part (p : part) : option nat :=
  match p with KeysPart => None | ValuesPart i _ => Some i | GradientPart i _ _ => Some i end.

Lemma values_parts_in i b x : In x (map fst (values_parts i b)) -> exists p, x = ValuesPart i p.
Proof.
  unfold values_parts. cbn [map fst]. rewrite map_app, components_parts_spec. cbn [map fst].
  intros [<-|[<-|H]]; eauto. apply in_app_iff in H as [H|[<-|[]]]; [|eauto].
  apply in_map_iff in H as (j & <- & _). eauto.
Qed.

Lemma block_parts_in i b x : In x (map fst (block_parts i b)) -> block_of_part x = Some i.
Proof.
  unfold block_parts. rewrite map_app, in_app_iff. intros [H|H].
  - apply values_parts_in in H as [p ->]. reflexivity.
  - apply gradients_parts_in in H as (q & p & -> & _). reflexivity.
Qed.

Lemma block_parts_nodup i b : NoDup (map fst (tb_gradients b)) -> NoDup (map fst (block_parts i b)).
Proof.
  intros Hnd. unfold block_parts. rewrite map_app. apply NoDup_app_intro.
  - unfold values_parts. cbn [map fst]. rewrite map_app, components_parts_spec. cbn [map fst].
    constructor; [|constructor].
    + intros [H|H]; [discriminate H|]. apply in_app_iff in H as [H|[H|[]]]; [|discriminate H].
      apply in_map_iff in H as (j & H & _). discriminate H.
    + intros H. apply in_app_iff in H as [H|[H|[]]]; [|discriminate H].
      apply in_map_iff in H as (j & H & _). discriminate H.
    + apply NoDup_snoc. split.
      * apply NoDup_map_inj; [|apply seq_NoDup]. intros x y H. inversion H; reflexivity.
      * intros H. apply in_map_iff in H as (j & H & _). discriminate H.
  - apply gradients_parts_nodup. assumption.
  - intros x Hx Hx'. apply values_parts_in in Hx as [p ->]. apply gradients_parts_in in Hx' as (q & p' & H & _). discriminate H.
Qed.

Lemma blocks_parts_in blocks x : forall i,
  In x (map fst (blocks_parts i blocks)) -> exists j, block_of_part x = Some j /\ i <= j.
Proof.
  induction blocks as [|b rest IH]; intros i; [intros []|]. cbn [blocks_parts]. rewrite map_app, in_app_iff.
  intros [H|H].
  - apply block_parts_in in H. eauto.
  - destruct (IH _ H) as (j & E & Hj). exists j. split; [assumption|lia].
Qed.

Lemma blocks_parts_nodup blocks : Forall wf_block blocks -> forall i, NoDup (map fst (blocks_parts i blocks)).
Proof.
  induction 1 as [|b rest Hb _ IH]; intros i; [constructor|]. cbn [blocks_parts]. rewrite map_app.
  apply NoDup_app_intro.
  - apply block_parts_nodup. apply Hb.
  - apply IH.
  - intros x Hx Hx'. apply block_parts_in in Hx. apply blocks_parts_in in Hx' as (j & E & Hj).
    rewrite Hx in E. inversion E; lia.
Qed.

Lemma parts_of_nodup t : wf_tensor t -> NoDup (map fst (parts_of t)).
Proof.
  intros (_ & Hb & _). unfold parts_of. cbn [map fst]. constructor.
  - intros H. apply blocks_parts_in in H as (j & E & _). discriminate E.
  - apply blocks_parts_nodup. assumption.
Qed.

Lemma save_paths_nodup e t a : wf_tensor t -> save e t = Ok a -> NoDup (map fst a).
Proof.
  intros Ht Ha. rewrite (save_ok_paths e t a Ha). apply NoDup_map_inj; [exact path_of_inj|].
  apply parts_of_nodup. assumption.
Qed.

Lemma saved_file e t a p c : wf_tensor t -> save e t = Ok a -> In (p, c) (parts_of t) ->
  exists f, by_name a (path_of p) = Ok f /\ write_content e c = Ok f.
Proof.
  intros Ht Ha Hp. pose proof (save_paths_nodup e t a Ht Ha) as Hnd. apply save_ok in Ha.
  destruct (Forall2_In_l _ _ _ _ Ha Hp) as ([k f] & Hin & E & Hw). cbn [fst snd] in *. subst k.
  exists f. split; [|assumption]. unfold by_name.
  rewrite (In_hm_get _ String.eqb_eq (rev a) (path_of p) f); [reflexivity| |].
  - rewrite map_rev. apply NoDup_rev. assumption.
  - apply in_rev. rewrite rev_involutive. assumption.
Qed.

(** * The gradient parameters *)

Definition first_parameters (t : TensorMap) : list string :=
  match tm_blocks t with [] => [] | b :: _ => map fst (tb_gradients b) end.

Lemma flat_map_none {A B} (f : A -> list B) l : (forall x, In x l -> f x = []) -> flat_map f l = [].
Proof.
  induction l as [|x l IH]; intros H; [reflexivity|]. cbn [flat_map]. rewrite H by (left; reflexivity).
  apply IH. intros y Hy. apply H. right. assumption.
Qed.

Lemma parameters_other_block x i : block_of_part x = Some (S i) -> parameter_of x = [].
Proof. destruct x as [|j p|j q p]; cbn [block_of_part]; intros E; inversion E; reflexivity. Qed.

Lemma gradients_parts_parameters gradients :
  flat_map parameter_of (map fst (gradients_parts 0 gradients)) = map fst gradients.
Proof.
  induction gradients as [|[q g] rest IH]; [reflexivity|]. cbn [gradients_parts]. rewrite map_app, flat_map_app, IH.
  unfold gradient_parts. cbn [map fst flat_map parameter_of app]. rewrite components_parts_spec.
  rewrite (flat_map_none parameter_of (map _ (seq 0 _))); [reflexivity|].
  intros x Hx. apply in_map_iff in Hx as (j & <- & _). reflexivity.
Qed.

Lemma parts_of_parameters t : flat_map parameter_of (map fst (parts_of t)) = first_parameters t.
Proof.
  unfold parts_of, first_parameters. cbn [map fst flat_map parameter_of app].
  destruct (tm_blocks t) as [|b rest]; [reflexivity|]. cbn [blocks_parts]. rewrite map_app, flat_map_app.
  rewrite (flat_map_none parameter_of (map fst (blocks_parts (0 + 1) rest))).
  2:{ intros x Hx. apply blocks_parts_in in Hx as (j & E & Hj). destruct j as [|j]; [lia|].
      apply (parameters_other_block x j). assumption. }
  rewrite app_nil_r. unfold block_parts. rewrite map_app, flat_map_app, gradients_parts_parameters.
  rewrite (flat_map_none parameter_of (map fst (values_parts 0 (tb_values b)))); [reflexivity|].
  intros x Hx. apply values_parts_in in Hx as [p ->]. reflexivity.
Qed.

Lemma parameters_recovered t names :
  Permutation names (map path_of (map fst (parts_of t))) ->
  exists parameters, gradient_parameters names = Ok parameters /\ Permutation parameters (first_parameters t).
Proof.
  intros Hp.
  destruct (Permutation_map_inv _ _ Hp) as (ps & -> & Hps).
  rewrite gradient_parameters_saved. eexists. split; [reflexivity|].
  rewrite <- parts_of_parameters. apply Permutation_flat_map. apply Permutation_sym. assumption.
Qed.

(** * Loading what was saved *)

Definition reread (l l' : Labels) : Prop := same_labels l l' /\ wf_labels l'.

(* the files of the labels and data of [b] are found in the archive, and can be
   read *)
Definition found_labels (a : archive) (path : string) (l : Labels) : Prop :=
  exists f, by_name a path = Ok f /\ forall p, exists l', read_labels p f = Ok l' /\ reread l l'.
Definition found_data (a : archive) (path : string) (d : eqs_array) : Prop :=
  exists f, by_name a path = Ok f /\ length (nd_data (a_nd d)) = elements (nd_shape (a_nd d))
    /\ forall p, read_data p f = Ok (mk_nd (nd_shape (a_nd d)) (nd_data (a_nd d))).

Lemma found_read_labels p a path l :
  found_labels a path l ->
  exists l', (let? f := by_name a path in read_labels p f) = Ok l' /\ reread l l'.
Proof. intros (f & Hf & Hw). rewrite Hf. exact (Hw p). Qed.

Lemma seq_Forall2 {A} (l : list A) : Forall2 (fun i x => nth_error l i = Some x) (seq 0 (length l)) l.
Proof.
  assert (H : forall (l : list A) k r, k = length r -> Forall2 (fun i x => nth_error (r ++ l) i = Some x) (seq k (length l)) l).
  { clear l. induction l as [|x l IH]; intros k r ->; cbn [length seq]; constructor.
    - rewrite nth_error_app2 by lia. rewrite Nat.sub_diag. reflexivity.
    - replace (r ++ x :: l) with ((r ++ [x]) ++ l) by (rewrite <- app_assoc; reflexivity).
      apply IH. rewrite app_length. cbn [length]. lia. }
  apply (H l 0 []). reflexivity.
Qed.

Lemma mapM_exists {A B C} (f : A -> outcome B) (R : C -> B -> Prop) (la : list A) (lc : list C) :
  Forall2 (fun x c => exists y, f x = Ok y /\ R c y) la lc ->
  exists ys, mapM f la = Ok ys /\ Forall2 R lc ys.
Proof.
  induction 1 as [|x c la lc (y & Hy & HR) _ (ys & Hys & IH)]; [exists []; split; [reflexivity|constructor]|].
  exists (y :: ys). cbn [mapM]. rewrite Hy. cbn [bind]. rewrite Hys. cbn [bind]. split; [reflexivity|constructor; assumption].
Qed.

Lemma components_reread p a directory components shape :
  length shape = length components + 2 ->
  (forall j c, nth_error components j = Some c -> found_labels a (component_path directory j) c) ->
  exists components', read_components p a directory shape = Ok components' /\ Forall2 reread components components'.
Proof.
  intros Hl Hf. unfold read_components.
  destruct (Nat.ltb_spec (length shape) 2); [lia|]. cbn [bind]. replace (length shape - 2) with (length components) by lia.
  apply mapM_exists. eapply Forall2_impl; [|apply seq_Forall2]. intros j c Hj. cbn beta. apply (found_read_labels p). apply Hf. assumption.
Qed.

Lemma array_origin_rust nd : answers (rust_ndarray nd) OpOrigin.
Proof. intros o H. discriminate H. Qed.

Lemma array_shape_rust nd : answers (rust_ndarray nd) OpShape.
Proof. intros o H. discriminate H. Qed.

Lemma reread_same l l' : reread l l' -> same_labels l l'. Proof. intros [H _]. exact H. Qed.

Lemma reread_components cs cs' : Forall2 reread cs cs' ->
  Forall2 same_labels cs cs' /\ Forall wf_labels cs'
  /\ map (fun l => length (rows l)) cs' = map (fun l => length (rows l)) cs
  /\ map labels_names cs' = map labels_names cs.
Proof.
  induction 1 as [|c c' cs cs' [[En Er] Hw] _ (H1 & H2 & H3 & H4)]; [repeat constructor|].
  split; [constructor; [split; assumption|assumption]|]. split; [constructor; assumption|].
  split; cbn [map]; [rewrite Er, H3; reflexivity|]. change (labels_names c = labels_names c') in En. rewrite En, H4. reflexivity.
Qed.

(* the labels and array of a reread block agree when the original ones did *)
Lemma reread_shapes b nd s' c' p' :
  wf_basic b ->
  nd_shape nd = nd_shape (a_nd (bb_data b)) ->
  reread (bb_samples b) s' -> Forall2 reread (bb_components b) c' -> reread (bb_properties b) p' ->
  shapes_agree (rust_ndarray nd) s' c' p'.
Proof.
  intros (_ & Hax & Hsh & Hone & Hnd) En [[Sn Sr] _] Hc [[Pn Pr] _].
  destruct (reread_components _ _ Hc) as (_ & _ & Hcounts & Hnames).
  unfold shapes_agree, shape_of in *. cbn [a_nd rust_ndarray].
  unfold axes in Hax, Hsh. inversion Hax as [|? ? [_ Hs] Hax']; subst. apply Forall_app in Hax' as [_ Hp].
  inversion Hp as [|? ? [_ Hp'] _]; subst.
  split.
  { rewrite En, Hsh. cbn [map]. rewrite !map_app. cbn [map]. rewrite Hcounts, Sr, Pr. reflexivity. }
  split.
  { apply Forall_forall. intros c Hin. apply (in_map labels_names) in Hin. rewrite Hnames in Hin.
    apply in_map_iff in Hin as (c0 & E & Hin). rewrite <- E. rewrite Forall_forall in Hone. apply Hone. assumption. }
  split; [rewrite Hnames; assumption|]. split.
  - change (labels_names (bb_samples b) = labels_names s') in Sn. rewrite <- Sn. assumption.
  - change (labels_names (bb_properties b) = labels_names p') in Pn. rewrite <- Pn. assumption.
Qed.

Lemma reread_basic b nd s' c' p' :
  reread (bb_samples b) s' -> Forall2 reread (bb_components b) c' -> reread (bb_properties b) p' ->
  nd = mk_nd (nd_shape (a_nd (bb_data b))) (nd_data (a_nd (bb_data b))) ->
  same_basic b (mk_basic (rust_ndarray nd) s' c' p').
Proof.
  intros [Hs _] Hc [Hp _] ->. destruct (reread_components _ _ Hc) as (Hc' & _).
  unfold same_basic, basic_labels. cbn. split; [|split; reflexivity].
  constructor; [assumption|]. apply Forall2_app; [assumption|]. constructor; [assumption|constructor].
Qed.

Lemma basic_in_memory_labels b : basic_in_memory b ->
  labels_in_memory (bb_samples b) /\ Forall labels_in_memory (bb_components b) /\ labels_in_memory (bb_properties b).
Proof.
  intros [H _]. unfold basic_labels in H. inversion H as [|? ? Hs H']; subst. apply Forall_app in H' as [Hc Hp].
  inversion Hp; subst. auto.
Qed.

Lemma wf_basic_labels b : wf_basic b ->
  wf_labels (bb_samples b) /\ Forall wf_labels (bb_components b) /\ wf_labels (bb_properties b).
Proof.
  intros (_ & H & _). unfold axes in H. inversion H as [|? ? [Hs _] H']; subst. apply Forall_app in H' as [Hc Hp].
  inversion Hp as [|? ? [Hp' _] _]; subst. split; [assumption|]. split; [|assumption].
  eapply Forall_impl; [|exact Hc]. intros c [Hc' _]. assumption.
Qed.

Lemma wf_basic_rank b : wf_basic b -> length (nd_shape (a_nd (bb_data b))) = length (bb_components b) + 2.
Proof.
  intros (_ & _ & H & _). unfold shape_of in H. rewrite H, map_length. unfold axes. cbn [length].
  rewrite app_length. cbn [length]. lia.
Qed.

Lemma written_float_array e b f : wf_basic b -> basic_in_memory b -> write_data e (bb_data b) = Ok f -> float_array (bb_data b).
Proof.
  intros (Hwa & _) (_ & Hb & Hs) Hw. split; [assumption|]. split; [|assumption].
  apply Hwa. intros E. unfold write_data, array_data, array_shape, call in Hw. rewrite E in Hw.
  destruct (parse_literal _); cbn [expect_some bind] in Hw; [|discriminate Hw].
  destruct (header_to_bytes _); cbn [bind] in Hw; discriminate Hw.
Qed.

Lemma found_read_data p a path b :
  found_data a path (bb_data b) ->
  (let? f := by_name a path in read_data p f) = Ok (mk_nd (nd_shape (a_nd (bb_data b))) (nd_data (a_nd (bb_data b)))).
Proof. intros (f & Hf & _ & Hw). rewrite Hf. exact (Hw p). Qed.

Lemma bind_step {A B C} (o : outcome A) (f : A -> outcome B) (k : B -> outcome C) y :
  bind o f = Ok y -> bind o (fun x => bind (f x) k) = k y.
Proof. intros H. rewrite <- bind_assoc, H. reflexivity. Qed.

(** ** Gradients *)

Definition loaded_gradient (values' : BasicBlock) (g g' : BasicBlock) : Prop :=
  same_basic g g' /\ wf_basic g' /\ compatible_gradient values' g'.

Lemma reread_suffix p s q r :
  ends_with p s -> Forall2 reread p q -> Forall2 reread s r -> ends_with q r.
Proof.
  intros (pre & rest & -> & Hr) Hq Hs.
  apply Forall2_app_inv_l in Hq as (q1 & q2 & Hq1 & Hq2 & ->).
  exists q1, q2. split; [reflexivity|].
  apply Forall2_same_trans with rest; [|].
  - apply Forall2_same_sym. eapply Forall2_impl; [|exact Hq2]. exact reread_same.
  - apply Forall2_same_trans with s; [assumption|]. eapply Forall2_impl; [|exact Hs]. exact reread_same.
Qed.

Lemma load_gradient_ok p a i block q g values :
  wf_basic values -> wf_basic g -> compatible_gradient values g ->
  q <> "values" -> ~ In q (map fst (tb_gradients block)) -> has_nul q = false ->
  wf_basic (tb_values block) -> (exists nd, bb_data (tb_values block) = rust_ndarray nd) ->
  reread (bb_properties values) (bb_properties (tb_values block)) ->
  Forall2 reread (bb_components values) (bb_components (tb_values block)) ->
  found_data a (gradient_directory i q +++ "/data.npy") (bb_data g) ->
  found_labels a (gradient_directory i q +++ "/samples.npy") (bb_samples g) ->
  (forall j c, nth_error (bb_components g) j = Some c -> found_labels a (component_path (gradient_directory i q) j) c) ->
  exists g', load_gradient p a i block q
      = Ok (mk_block (tb_values block) (tb_gradients block ++ [(q, g')]) (tb_gradient_parameters block ++ [q]))
    /\ loaded_gradient (tb_values block) g g'.
Proof.
  intros Hv Hg Hcg Hqv Hq Hnul Hbv [vnd Hvnd] Hprops Hcomps Hfd Hfs Hfc.
  unfold load_gradient.
  rewrite (bind_step _ _ _ _ (found_read_data p a _ g Hfd)).
  destruct (found_read_labels p a _ _ Hfs) as (s' & Hs' & Hrs).
  rewrite (bind_step _ _ _ _ Hs'). cbn [nd_shape].
  destruct (components_reread p a (gradient_directory i q) (bb_components g) (nd_shape (a_nd (bb_data g))) (wf_basic_rank g Hg) Hfc)
    as (c' & Hc' & Hrc).
  rewrite Hc'. cbn [bind].
  set (nd := mk_nd (nd_shape (a_nd (bb_data g))) (nd_data (a_nd (bb_data g)))).
  destruct Hcg as ((others & Ho) & Hend & Ep & Ek).
  assert (Hrp : reread (bb_properties g) (bb_properties (tb_values block))) by (rewrite Ep; exact Hprops).
  assert (Hsh : shapes_agree (rust_ndarray nd) s' c' (bb_properties (tb_values block))).
  { apply (reread_shapes g); auto. }
  destruct (reread_components _ _ Hrc) as (_ & Hwc' & _ & _).
  destruct (wf_basic_labels _ Hbv) as (_ & _ & Hwp').
  set (g' := mk_basic (rust_ndarray nd) s' c' (bb_properties (tb_values block))).
  assert (Hcompat : compatible_gradient (tb_values block) g').
  { split; [|split; [|split]].
    - exists others. destruct Hrs as [[En _] _]. change (labels_names (bb_samples g) = labels_names s') in En.
      cbn. rewrite <- En. assumption.
    - apply (reread_suffix (bb_components g) (bb_components values)); auto.
    - reflexivity.
    - cbn. rewrite Hvnd. reflexivity. }
  assert (Hadd : tensor_block_add_gradient block q (rust_ndarray nd) s' c'
                 = (mk_block (tb_values block) (tb_gradients block ++ [(q, g')]) (tb_gradient_parameters block ++ [q]), Ok tt)).
  { apply add_gradient_ok; auto.
    - apply Hrs.
    - apply array_shape_rust.
    - apply array_origin_rust.
    - rewrite Hvnd. apply array_origin_rust.
    - split; [|reflexivity]. split; [assumption|]. split; [assumption|]. split; assumption. }
  exists g'. split.
  - rewrite Hadd. reflexivity.
  - split; [|split; [|assumption]].
    + apply reread_basic; auto.
    + assert (Hwa : wf_array (rust_ndarray nd)).
      { destruct Hfd as (f & _ & Hl & _). split; intros _; [exact Hl|apply default_strides_length]. }
      apply shapes_agree_wf_basic; auto. apply Hrs.
Qed.

(* the files of a block *)
Record found_block (a : archive) (i : nat) (b : TensorBlock) : Prop := {
  fb_data : found_data a (values_directory i +++ "/data.npy") (bb_data (tb_values b));
  fb_samples : found_labels a (values_directory i +++ "/samples.npy") (bb_samples (tb_values b));
  fb_components : forall j c, nth_error (bb_components (tb_values b)) j = Some c ->
    found_labels a (component_path (values_directory i) j) c;
  fb_properties : found_labels a (values_directory i +++ "/properties.npy") (bb_properties (tb_values b));
  fb_gradient_data : forall q g, In (q, g) (tb_gradients b) ->
    found_data a (gradient_directory i q +++ "/data.npy") (bb_data g);
  fb_gradient_samples : forall q g, In (q, g) (tb_gradients b) ->
    found_labels a (gradient_directory i q +++ "/samples.npy") (bb_samples g);
  fb_gradient_components : forall q g, In (q, g) (tb_gradients b) ->
    forall j c, nth_error (bb_components g) j = Some c ->
    found_labels a (component_path (gradient_directory i q) j) c }.

Lemma has_nul_not_in q : ~ In Ascii.zero (list_ascii_of_string q) -> has_nul q = false.
Proof.
  induction q as [|c q IH]; intros H; [reflexivity|]. cbn [has_nul list_ascii_of_string] in *.
  destruct (Ascii.eqb_spec c nul) as [->|Hc].
  - exfalso. apply H. left. reflexivity.
  - cbn [orb]. apply IH. intros Hin. apply H. right. assumption.
Qed.

Definition loaded_from (b : TensorBlock) (values' : BasicBlock) (qg : string * BasicBlock) : Prop :=
  exists g, In (fst qg, g) (tb_gradients b) /\ loaded_gradient values' g (snd qg).

Lemma load_gradients_ok p a i b values' :
  wf_block b ->
  (forall q g, In (q, g) (tb_gradients b) -> has_nul q = false) ->
  found_block a i b ->
  wf_basic values' -> (exists nd, bb_data values' = rust_ndarray nd) ->
  reread (bb_properties (tb_values b)) (bb_properties values') ->
  Forall2 reread (bb_components (tb_values b)) (bb_components values') ->
  forall parameters block,
  tb_values block = values' ->
  (forall q, In q parameters -> In q (map fst (tb_gradients b))) ->
  NoDup (map fst (tb_gradients block) ++ parameters) ->
  Forall (loaded_from b values') (tb_gradients block) ->
  exists block', foldM (load_gradient p a i) parameters block = Ok block'
    /\ tb_values block' = values'
    /\ map fst (tb_gradients block') = map fst (tb_gradients block) ++ parameters
    /\ tb_gradient_parameters block' = tb_gradient_parameters block ++ parameters
    /\ Forall (loaded_from b values') (tb_gradients block').
Proof.
  intros (Hv & Hgs & Hnd & _ & Hval) Hnul Hf Hv' Hnd' Hprops Hcomps.
  induction parameters as [|q parameters IH]; intros block Eb Hin Hdup Hall.
  - exists block. rewrite !app_nil_r. auto.
  - assert (Hq : In q (map fst (tb_gradients b))) by (apply Hin; left; reflexivity).
    apply in_map_iff in Hq as ([q0 g] & E & Hg). cbn [fst] in E. subst q0.
    rewrite Forall_forall in Hgs. destruct (Hgs _ Hg) as [Hwg Hcg]. cbn [snd] in *.
    destruct (load_gradient_ok p a i block q g (tb_values b)) as (g' & Hl & Hg'); auto.
    + intros ->. apply Hval. apply in_map_iff. exists ("values", g). auto.
    + intros Hin'. apply NoDup_app_disjoint with (x := q) in Hdup; [|assumption]. apply Hdup. left. reflexivity.
    + eapply Hnul. eassumption.
    + rewrite Eb. assumption.
    + rewrite Eb. assumption.
    + rewrite Eb. assumption.
    + rewrite Eb. assumption.
    + apply (fb_gradient_data _ _ _ Hf). assumption.
    + apply (fb_gradient_samples _ _ _ Hf). assumption.
    + apply (fb_gradient_components _ _ _ Hf). assumption.
    + rewrite Eb in *. cbn [foldM]. rewrite Hl. cbn [bind].
      destruct (IH (mk_block values' (tb_gradients block ++ [(q, g')]) (tb_gradient_parameters block ++ [q])))
        as (block' & H1 & H2 & H3 & H4 & H5).
      * reflexivity.
      * intros x Hx. apply Hin. right. assumption.
      * cbn. rewrite map_app. cbn [map fst]. rewrite <- app_assoc. exact Hdup.
      * cbn. apply Forall_app. split; [assumption|]. constructor; [|constructor]. exists g. split; assumption.
      * exists block'. split; [assumption|]. split; [assumption|]. cbn in H3, H4.
        rewrite H3, H4, map_app, <- !app_assoc. cbn [map fst app]. auto.
Qed.

Lemma NoDup_fst_functional {A B} (l : list (A * B)) k v1 v2 :
  NoDup (map fst l) -> In (k, v1) l -> In (k, v2) l -> v1 = v2.
Proof.
  induction l as [|[k' v'] l IH]; cbn [map fst]; intros Hnd H1 H2; [destruct H1|].
  inversion Hnd as [|? ? Hk Hnd']; subst.
  destruct H1 as [H1|H1], H2 as [H2|H2].
  - congruence.
  - inversion H1; subst. exfalso. apply Hk. apply in_map_iff. exists (k, v2). auto.
  - inversion H2; subst. exfalso. apply Hk. apply in_map_iff. exists (k, v1). auto.
  - auto.
Qed.

Lemma load_block_ok p a i b parameters :
  wf_block b ->
  (forall q g, In (q, g) (tb_gradients b) -> has_nul q = false) ->
  found_block a i b ->
  Permutation parameters (map fst (tb_gradients b)) ->
  exists b', load_block p a parameters i = Ok b' /\ same_block b b' /\ wf_block b'.
Proof.
  intros Hb Hnul Hf Hperm. destruct (Hb) as (Hv & Hgs & Hnd & Hps & Hval).
  unfold load_block.
  rewrite (bind_step _ _ _ _ (found_read_data p a _ _ (fb_data _ _ _ Hf))).
  destruct (found_read_labels p a _ _ (fb_samples _ _ _ Hf)) as (s' & Hs' & Hrs).
  rewrite (bind_step _ _ _ _ Hs'). cbn [nd_shape].
  destruct (components_reread p a (values_directory i) _ _ (wf_basic_rank _ Hv) (fb_components _ _ _ Hf))
    as (c' & Hc' & Hrc).
  rewrite Hc'. cbn [bind].
  destruct (found_read_labels p a _ _ (fb_properties _ _ _ Hf)) as (p' & Hp' & Hrp).
  rewrite (bind_step _ _ _ _ Hp').
  set (nd := mk_nd (nd_shape (a_nd (bb_data (tb_values b)))) (nd_data (a_nd (bb_data (tb_values b))))).
  destruct (reread_components _ _ Hrc) as (_ & Hwc' & _ & _).
  assert (Hsh : shapes_agree (rust_ndarray nd) s' c' p') by (apply (reread_shapes (tb_values b)); auto).
  rewrite (proj2 (tensor_block_new_ok (rust_ndarray nd) s' c' p' _ (proj2 Hrs) Hwc' (proj2 Hrp) (array_shape_rust nd))
             (conj Hsh eq_refl)).
  cbn [bind].
  assert (Hwa : wf_array (rust_ndarray nd)).
  { destruct (fb_data _ _ _ Hf) as (f & _ & Hl & _). split; intros _; [exact Hl|apply default_strides_length]. }
  set (values' := mk_basic (rust_ndarray nd) s' c' p').
  assert (Hv' : wf_basic values') by (apply shapes_agree_wf_basic; auto; [apply Hrs|apply Hrp]).
  destruct (load_gradients_ok p a i b values' Hb Hnul Hf Hv' (ex_intro _ nd eq_refl) Hrp Hrc parameters (mk_block values' [] []))
    as (b' & H1 & H2 & H3 & H4 & H5).
  - reflexivity.
  - intros q Hq. exact (Permutation_in _ Hperm Hq).
  - cbn. eapply Permutation_NoDup; [apply Permutation_sym; exact Hperm|assumption].
  - constructor.
  - cbn in H3, H4. exists b'. split; [exact H1|].
    assert (Hnd' : NoDup parameters) by (eapply Permutation_NoDup; [apply Permutation_sym; exact Hperm|assumption]).
    rewrite Forall_forall in H5. split.
    + split; [rewrite H2; apply reread_basic; auto|]. split; [|split].
      * rewrite <- (map_length fst (tb_gradients b')), H3, (Permutation_length Hperm), map_length. reflexivity.
      * intros q g Hg. assert (Hq : In q parameters).
        { eapply Permutation_in; [apply Permutation_sym; exact Hperm|]. apply in_map_iff. exists (q, g). auto. }
        rewrite <- H3 in Hq. apply in_map_iff in Hq as ([q0 g'] & E & Hg'). cbn [fst] in E. subst q0.
        exists g'. split; [assumption|]. destruct (H5 _ Hg') as (g0 & Hg0 & Hs & _). cbn [fst snd] in *.
        rewrite (NoDup_fst_functional _ _ _ _ Hnd Hg Hg0). assumption.
      * intros q g' Hg'. destruct (H5 _ Hg') as (g & Hg & (Hs & _)). cbn [fst snd] in *. exists g. split; [assumption|].
        destruct Hs as (Hl & E1 & E2). split; [apply Forall2_same_sym; exact Hl|]. split; congruence.
    + split; [rewrite H2; assumption|]. split; [|split; [|split]].
      * apply Forall_forall. intros [q g'] Hg'. destruct (H5 _ Hg') as (g & _ & _ & Hw & Hc). rewrite H2. split; assumption.
      * rewrite H3. assumption.
      * rewrite H4, H3. apply Permutation_refl.
      * rewrite H3. intros Hin. apply Hval. exact (Permutation_in _ Hperm Hin).
Qed.

(** ** Tensor maps *)

Lemma In_gradients_parts i gradients q g x :
  In (q, g) gradients -> In x (gradient_parts i q g) -> In x (gradients_parts i gradients).
Proof.
  induction gradients as [|[q' g'] rest IH]; [intros []|]. cbn [gradients_parts]. intros [E|H] Hx.
  - inversion E; subst. apply in_or_app. left. assumption.
  - apply in_or_app. right. auto.
Qed.

Lemma In_blocks_parts blocks i b x : forall k,
  nth_error blocks i = Some b -> In x (block_parts (k + i) b) -> In x (blocks_parts k blocks).
Proof.
  revert i. induction blocks as [|b' rest IH]; intros [|i] k H Hx; try discriminate H; cbn [blocks_parts]; apply in_or_app.
  - left. inversion H; subst. rewrite Nat.add_0_r in Hx. assumption.
  - right. apply (IH i); [assumption|]. replace (k + 1 + i) with (k + S i) by lia. assumption.
Qed.

(* reading a file gives back its content *)
Definition reads (c : content) (f : bytes) : Prop :=
  match c with
  | FileLabels l => forall p, exists l', read_labels p f = Ok l' /\ reread l l'
  | FileData d => length (nd_data (a_nd d)) = elements (nd_shape (a_nd d))
      /\ forall p, read_data p f = Ok (mk_nd (nd_shape (a_nd d)) (nd_data (a_nd d)))
  end.

Definition found_parts (t : TensorMap) (a : archive) : Prop :=
  forall q c, In (q, c) (parts_of t) -> exists f, by_name a (path_of q) = Ok f /\ reads c f.

Lemma found_parts_block t a i b :
  found_parts t a -> nth_error (tm_blocks t) i = Some b -> found_block a i b.
Proof.
  intros Ha Hb.
  assert (Hin : forall p c, In (p, c) (block_parts i b) -> exists f, by_name a (path_of p) = Ok f /\ reads c f).
  { intros p c H. apply Ha. right. apply (In_blocks_parts (tm_blocks t) i b); [assumption|]. exact H. }
  assert (Hv : forall p c, In (p, c) (values_parts i (tb_values b)) -> exists f, by_name a (path_of p) = Ok f /\ reads c f).
  { intros p c H. apply Hin. apply in_or_app. left. exact H. }
  assert (Hg : forall q g p c, In (q, g) (tb_gradients b) -> In (p, c) (gradient_parts i q g) ->
               exists f, by_name a (path_of p) = Ok f /\ reads c f).
  { intros q g p c H H'. apply Hin. apply in_or_app. right. eapply In_gradients_parts; eassumption. }
  constructor.
  - apply (Hv (ValuesPart i ValuesData) (FileData (bb_data (tb_values b)))). left. reflexivity.
  - apply (Hv (ValuesPart i ValuesSamples) (FileLabels (bb_samples (tb_values b)))). right. left. reflexivity.
  - intros j c Hj. apply (Hv (ValuesPart i (ValuesComponent j)) (FileLabels c)). right. right. apply in_or_app. left.
    apply (In_components_parts (fun j => ValuesPart i (ValuesComponent j)) _ j c 0 Hj).
  - apply (Hv (ValuesPart i ValuesProperties) (FileLabels (bb_properties (tb_values b)))). right. right. apply in_or_app. right. left. reflexivity.
  - intros q g H. apply (Hg q g (GradientPart i q GradientData) (FileData (bb_data g)) H). left. reflexivity.
  - intros q g H. apply (Hg q g (GradientPart i q GradientSamples) (FileLabels (bb_samples g)) H). right. left. reflexivity.
  - intros q g H j c Hj. apply (Hg q g (GradientPart i q (GradientComponent j)) (FileLabels c) H). right. right.
    apply (In_components_parts (fun j => GradientPart i q (GradientComponent j)) _ j c 0 Hj).
Qed.

Lemma same_basic_names b b' : same_basic b b' ->
  labels_names (bb_samples b) = labels_names (bb_samples b')
  /\ map labels_names (bb_components b) = map labels_names (bb_components b')
  /\ labels_names (bb_properties b) = labels_names (bb_properties b').
Proof.
  intros (H & _). unfold basic_labels in H. inversion H as [|? ? ? ? [Hs _] H']; subst.
  assert (Hl : length (bb_components b) = length (bb_components b')).
  { apply Forall2_len in H'. rewrite !app_length in H'. cbn [length] in H'. lia. }
  apply Forall2_app_inv_l in H' as (l1 & l2 & Hc & Hp & E).
  assert (E' : bb_components b' = l1 /\ [bb_properties b'] = l2).
  { apply Forall2_len in Hc. rewrite Hl in Hc. clear - E Hc. revert l1 Hc E.
    induction (bb_components b') as [|x l IH]; intros [|y l1] Hc E; try discriminate Hc; cbn in *.
    - auto.
    - inversion E as [[E1 E2]]. destruct (IH l1) as [F1 F2]; [lia|assumption|]. split; [congruence|assumption]. }
  destruct E' as [<- <-]. inversion Hp as [|? ? ? ? [Hpn _] _]; subst.
  split; [exact Hs|]. split; [|exact Hpn]. clear - Hc. induction Hc as [|x y l r [E _] _ IH]; [reflexivity|].
  cbn [map]. change (labels_names x = labels_names y) in E. rewrite E, IH. reflexivity.
Qed.

Lemma same_block_names b b' : same_block b b' -> same_names b b'.
Proof.
  intros (Hv & _ & H1 & H2). destruct (same_basic_names _ _ Hv) as (E1 & E2 & E3).
  split; [assumption|]. split; [assumption|]. split; [assumption|]. split.
  - intros q g Hg. destruct (H1 q g Hg) as (g' & Hg' & Hs). exists g'. split; [assumption|].
    destruct (same_basic_names _ _ Hs) as (F1 & F2 & _). auto.
  - intros q g Hg. destruct (H2 q g Hg) as (g' & Hg' & Hs). exists g'. split; [assumption|].
    destruct (same_basic_names _ _ Hs) as (F1 & F2 & _). auto.
Qed.

Lemma same_names_parameters b1 b2 : wf_block b1 -> wf_block b2 -> same_names b1 b2 ->
  Permutation (map fst (tb_gradients b1)) (map fst (tb_gradients b2)).
Proof.
  intros (_ & _ & Hn1 & _) (_ & _ & Hn2 & _) (_ & _ & _ & H1 & H2). apply NoDup_Permutation; [assumption|assumption|].
  intros q. split; intros Hq; apply in_map_iff in Hq as ([q0 g] & E & Hg); cbn [fst] in E; subst q0.
  - destruct (H1 q g Hg) as (g' & Hg' & _). apply in_map_iff. exists (q, g'). auto.
  - destruct (H2 q g Hg) as (g' & Hg' & _). apply in_map_iff. exists (q, g'). auto.
Qed.

Lemma load_found p t a names :
  wf_tensor t -> c_parameters t -> found_parts t a ->
  Permutation names (map path_of (map fst (parts_of t))) ->
  exists t', load p names a = Ok t' /\ same_tensor t t' /\ wf_tensor t'.
Proof.
  intros Ht Hc Ha Hperm. destruct (Ht) as ([Hk Hkn] & Hbs & Hcount & Hhom).
  unfold load.
  destruct (Ha KeysPart (FileLabels (tm_keys t)) (or_introl eq_refl)) as (f & Hf & Hw).
  cbn [path_of reads] in *. rewrite Hf. cbn [bind].
  destruct (Hw p) as (keys' & Hr & [En Er] & Hk').
  rewrite Hr. cbn [bind].
  destruct (parameters_recovered t names Hperm) as (parameters & Hp & Hpp). rewrite Hp. cbn [bind].
  assert (Hkn' : labels_names keys' <> []).
  { change (labels_names (tm_keys t) = labels_names keys') in En. rewrite <- En. assumption. }
  rewrite (proj2 (labels_count_ok keys' _ Hk') (conj Hkn' eq_refl)). cbn [bind]. rewrite <- Er, <- Hcount.
  destruct (mapM_exists (load_block p a parameters) (fun b b' => same_block b b' /\ wf_block b')
              (seq 0 (length (tm_blocks t))) (tm_blocks t)) as (blocks' & Hbl & Hsame).
  { eapply Forall2_impl; [|apply seq_Forall2]. intros i b Hi. cbn beta.
    pose proof (nth_error_In _ _ Hi) as Hin. rewrite Forall_forall in Hbs.
    apply (load_block_ok p a i b parameters).
    - apply Hbs. assumption.
    - intros q g Hg. apply has_nul_not_in. apply (Hc b q g Hin Hg).
    - apply (found_parts_block t a i b Ha Hi).
    - eapply Permutation_trans; [exact Hpp|]. unfold first_parameters.
      destruct (tm_blocks t) as [|b0 rest] eqn:Eb; [destruct Hin|].
      assert (Hin0 : In b0 (b0 :: rest)) by (left; reflexivity).
      apply same_names_parameters; [apply Hbs; assumption|apply Hbs; assumption|]. apply Hhom; assumption. }
  rewrite Hbl. cbn [bind].
  assert (Hwf' : Forall wf_block blocks').
  { apply Forall_forall. intros b' Hb'. destruct (Forall2_In_r _ _ _ _ Hsame Hb') as (b & _ & _ & H). assumption. }
  assert (Hsame' : Forall2 same_block (tm_blocks t) blocks').
  { eapply Forall2_impl; [|exact Hsame]. intros b b' [H _]. assumption. }
  assert (Hhom' : homogeneous keys' blocks').
  { split.
    - rewrite <- (Forall2_len _ _ _ Hsame'), Hcount, Er. reflexivity.
    - intros b1' b2' H1 H2.
      destruct (Forall2_In_r _ _ _ _ Hsame' H1) as (b1 & Hb1 & S1). destruct (Forall2_In_r _ _ _ _ Hsame' H2) as (b2 & Hb2 & S2).
      apply same_names_trans with b1; [apply same_names_sym, same_block_names; assumption|].
      apply same_names_trans with b2; [apply Hhom; assumption|apply same_block_names; assumption]. }
  exists (mk_tensor keys' blocks'). split; [|split].
  - apply tensor_map_new_ok; auto. split; assumption.
  - split; [split; assumption|assumption].
  - split; [split; assumption|]. split; assumption.
Qed.

(* the parts of a tensor map are correct and fit in memory *)
Definition sound_content (c : content) : Prop :=
  match c with
  | FileLabels l => wf_labels l /\ labels_in_memory l
  | FileData d => exists b, d = bb_data b /\ wf_basic b /\ basic_in_memory b
  end.

Lemma components_parts_sound name components : forall i,
  Forall wf_labels components -> Forall labels_in_memory components ->
  Forall (fun pc => sound_content (snd pc)) (components_parts name i components).
Proof.
  induction components as [|c rest IH]; intros i Hw Hm; [constructor|].
  inversion Hw; subst. inversion Hm; subst. cbn [components_parts]. constructor; [split; assumption|]. apply IH; assumption.
Qed.

Lemma values_parts_sound i b : wf_basic b -> basic_in_memory b ->
  Forall (fun pc => sound_content (snd pc)) (values_parts i b).
Proof.
  intros Hb Hm. destruct (wf_basic_labels b Hb) as (Hws & Hwc & Hwp).
  destruct (basic_in_memory_labels b Hm) as (Hms & Hmc & Hmp). unfold values_parts.
  constructor; [exists b; auto|]. constructor; [split; assumption|]. apply Forall_app.
  split; [apply components_parts_sound; assumption|]. constructor; [split; assumption|constructor].
Qed.

Lemma gradients_parts_sound i gradients :
  (forall q g, In (q, g) gradients -> wf_basic g /\ basic_in_memory g) ->
  Forall (fun pc => sound_content (snd pc)) (gradients_parts i gradients).
Proof.
  induction gradients as [|[q g] rest IH]; intros H; [constructor|]. cbn [gradients_parts]. apply Forall_app. split.
  - destruct (H q g (or_introl eq_refl)) as [Hb Hm]. destruct (wf_basic_labels g Hb) as (Hws & Hwc & _).
    destruct (basic_in_memory_labels g Hm) as (Hms & Hmc & _). unfold gradient_parts.
    constructor; [exists g; auto|]. constructor; [split; assumption|]. apply components_parts_sound; assumption.
  - apply IH. intros q' g' H'. apply (H q' g'). right. assumption.
Qed.

Lemma blocks_parts_sound blocks : Forall wf_block blocks ->
  (forall b part, In b blocks -> In part (parts_of_block b) -> basic_in_memory part) ->
  forall i, Forall (fun pc => sound_content (snd pc)) (blocks_parts i blocks).
Proof.
  induction 1 as [|b rest (Hv & Hg & _) _ IH]; intros Hm i; [constructor|]. cbn [blocks_parts]. apply Forall_app. split.
  - unfold block_parts. apply Forall_app. split.
    + apply values_parts_sound; [assumption|]. apply (Hm b); left; reflexivity.
    + apply gradients_parts_sound. intros q g Hin. rewrite Forall_forall in Hg. split; [apply (Hg _ Hin)|].
      apply (Hm b); [left; reflexivity|]. right. apply in_map_iff. exists (q, g). auto.
  - apply IH. intros b' part Hb'. apply Hm. right. assumption.
Qed.

Lemma parts_of_sound t q c : wf_tensor t -> tensor_in_memory t -> In (q, c) (parts_of t) -> sound_content c.
Proof.
  intros ([Hk _] & Hbs & _) [Hmk Hmb] Hin.
  assert (Hall : Forall (fun pc => sound_content (snd pc)) (parts_of t)).
  { unfold parts_of. constructor; [split; assumption|]. apply blocks_parts_sound; assumption. }
  rewrite Forall_forall in Hall. exact (Hall _ Hin).
Qed.

Lemma written_reads e c f : sound_content c -> write_content e c = Ok f -> reads c f.
Proof.
  destruct c as [l|d]; cbn [sound_content write_content reads].
  - intros [Hl Hm] Hw p. destruct (labels_round_trip p e l f Hl Hm Hw) as (l' & H & H1 & H2).
    exists l'. split; [assumption|]. split; assumption.
  - intros (b & -> & Hb & Hm) Hw. pose proof (written_float_array e b f Hb Hm Hw) as Hfa.
    split; [apply Hfa|]. intros p. apply (data_round_trip p e); assumption.
Qed.

Lemma load_save p e t a names :
  wf_tensor t -> tensor_in_memory t -> c_parameters t ->
  save e t = Ok a -> Permutation names (map fst a) ->
  exists t', load p names a = Ok t' /\ same_tensor t t' /\ wf_tensor t'.
Proof.
  intros Ht Hm Hc Ha Hperm. apply load_found; auto.
  - intros q c Hin. destruct (saved_file e t a q c Ht Ha Hin) as (f & Hf & Hw). exists f. split; [assumption|].
    apply (written_reads e); [|assumption]. apply (parts_of_sound t q c Ht Hm Hin).
  - rewrite <- (save_ok_paths e t a Ha). assumption.
Qed.

(** * Saving succeeds *)

Lemma mapM_succeeds {A B} (f : A -> outcome B) l : (forall x, In x l -> exists y, f x = Ok y) -> exists ys, mapM f l = Ok ys.
Proof.
  induction l as [|x l IH]; intros H; [exists []; reflexivity|].
  destruct (H x (or_introl eq_refl)) as [y Hy]. destruct IH as [ys Hys]; [intros z Hz; apply H; right; assumption|].
  exists (y :: ys). cbn [mapM]. rewrite Hy. cbn [bind]. rewrite Hys. reflexivity.
Qed.

Definition good_content (c : content) : Prop :=
  match c with
  | FileLabels l => wf_labels l /\ labels_names l <> [] /\ labels_in_memory l /\ describable_labels l
  | FileData d => float_array d /\ readable d /\ (Z.of_nat (length (nd_shape (a_nd d))) < 2 ^ 20)%Z
  end.

Lemma good_content_writes e c : good_content c -> exists f, write_content e c = Ok f.
Proof.
  destruct c as [l|d]; cbn [good_content write_content].
  - intros (H1 & H2 & H3 & H4). apply labels_write_succeeds; assumption.
  - intros (H1 & H2 & H3). apply data_write_succeeds; assumption.
Qed.

Lemma components_parts_good name components : forall i,
  Forall (fun c => good_content (FileLabels c)) components ->
  Forall (fun pc => good_content (snd pc)) (components_parts name i components).
Proof.
  induction components as [|c rest IH]; intros i H; [constructor|]. inversion H; subst.
  cbn [components_parts]. constructor; [assumption|]. apply IH. assumption.
Qed.

Lemma readable_stored a : readable a -> a_kind a <> RustEmptyArray.
Proof. intros [data H] K. unfold array_data, array_shape, call in H. rewrite K in H. discriminate H. Qed.

Lemma basic_good b : wf_basic b -> basic_in_memory b -> describable_basic b -> readable (bb_data b) ->
  good_content (FileData (bb_data b)) /\ Forall (fun c => good_content (FileLabels c)) (basic_labels b).
Proof.
  intros Hb Hm Hd E. split.
  - destruct Hb as (Hwa & _). destruct Hm as (_ & Hbits & Hs). destruct Hd as (_ & Hr).
    split; [|split; [exact E|exact Hr]]. split; [assumption|]. split; [|assumption].
    apply (proj1 Hwa). apply readable_stored. exact E.
  - destruct Hb as (_ & Hax & _). destruct Hm as (Hml & _). destruct Hd as (Hdl & _).
    rewrite Forall_forall in *. intros c Hc. destruct (Hax c Hc) as [H1 H2]. cbn [good_content]. auto.
Qed.

Lemma gradients_parts_good i gradients :
  (forall q g, In (q, g) gradients -> good_content (FileData (bb_data g)) /\ Forall (fun c => good_content (FileLabels c)) (basic_labels g)) ->
  Forall (fun pc => good_content (snd pc)) (gradients_parts i gradients).
Proof.
  induction gradients as [|[q g] rest IH]; intros H; [constructor|]. cbn [gradients_parts]. apply Forall_app. split.
  - destruct (H q g (or_introl eq_refl)) as [Hd Hl]. unfold basic_labels in Hl. inversion Hl as [|? ? Hs Hl']; subst.
    apply Forall_app in Hl' as [Hc _]. unfold gradient_parts. constructor; [exact Hd|]. constructor; [exact Hs|].
    apply components_parts_good. assumption.
  - apply IH. intros q' g' H'. apply (H q' g'). right. assumption.
Qed.

Lemma blocks_parts_good blocks : 
  (forall b part, In b blocks -> In part (parts_of_block b) ->
     good_content (FileData (bb_data part)) /\ Forall (fun c => good_content (FileLabels c)) (basic_labels part)) ->
  forall i, Forall (fun pc => good_content (snd pc)) (blocks_parts i blocks).
Proof.
  induction blocks as [|b rest IH]; intros H i; [constructor|]. cbn [blocks_parts]. apply Forall_app. split.
  - unfold block_parts. apply Forall_app. split.
    + destruct (H b (tb_values b) (or_introl eq_refl) (or_introl eq_refl)) as [Hd Hl].
      unfold basic_labels in Hl. inversion Hl as [|? ? Hs Hl']; subst. apply Forall_app in Hl' as [Hc Hp]. inversion Hp; subst.
      unfold values_parts. constructor; [exact Hd|]. constructor; [exact Hs|]. apply Forall_app.
      split; [apply components_parts_good; assumption|]. constructor; [assumption|constructor].
    + apply gradients_parts_good. intros q g Hg. apply (H b g (or_introl eq_refl)). right. apply in_map_iff. exists (q, g). auto.
  - apply IH. intros b' part Hb'. apply H. right. assumption.
Qed.

Lemma save_succeeds e t :
  wf_tensor t -> tensor_in_memory t -> describable t -> readable_tensor t -> exists a, save e t = Ok a.
Proof.
  intros ([Hk Hkn] & Hbs & _) [Hmk Hmb] [Hdk Hdb] Hr. rewrite save_parts. apply mapM_succeeds.
  assert (Hall : Forall (fun pc => good_content (snd pc)) (parts_of t)).
  { unfold parts_of. constructor; [cbn; auto|]. apply blocks_parts_good. intros b part Hb Hpart.
    rewrite Forall_forall in Hbs. destruct (Hbs b Hb) as (Hv & Hg & _). apply basic_good.
    - destruct Hpart as [<-|Hpart]; [assumption|]. apply in_map_iff in Hpart as ([q g] & <- & Hin).
      rewrite Forall_forall in Hg. apply (Hg _ Hin).
    - apply (Hmb b part Hb Hpart).
    - apply (Hdb b part Hb Hpart).
    - apply (Hr b part Hb Hpart). }
  rewrite Forall_forall in Hall. intros [q c] Hin. destruct (good_content_writes e c (Hall _ Hin)) as [f Hf].
  exists (path_of q, f). rewrite save_part_pair, Hf. reflexivity.
Qed.

(* all the data of a tensor map is written *)
Lemma gradients_data i gradients : forall q g, In (q, g) gradients -> exists r, In (r, FileData (bb_data g)) (gradients_parts i gradients).
Proof.
  induction gradients as [|[q' g'] rest IH]; intros q g H; [destruct H|]. cbn [gradients_parts].
  destruct H as [H|H]; [inversion H; subst; eexists; apply in_or_app; left; left; reflexivity|].
  destruct (IH q g H) as [r Hr]. exists r. apply in_or_app. right. exact Hr.
Qed.

Lemma blocks_data blocks : forall i b part, In b blocks -> In part (parts_of_block b) ->
  exists r, In (r, FileData (bb_data part)) (blocks_parts i blocks).
Proof.
  induction blocks as [|b' rest IH]; intros i b part Hb Hp; [destruct Hb|]. cbn [blocks_parts].
  destruct Hb as [->|Hb]; [|destruct (IH (i + 1) b part Hb Hp) as [r Hr]; exists r; apply in_or_app; right; exact Hr].
  unfold block_parts. destruct Hp as [<-|Hp].
  - eexists. apply in_or_app. left. apply in_or_app. left. left. reflexivity.
  - apply in_map_iff in Hp as ([q g] & <- & Hg). destruct (gradients_data i _ q g Hg) as [r Hr].
    exists r. apply in_or_app. left. apply in_or_app. right. exact Hr.
Qed.

Lemma saved_readable e t a : save e t = Ok a -> readable_tensor t.
Proof.
  intros H b part Hb Hp. apply save_ok in H. destruct (blocks_data _ 0 b part Hb Hp) as [r Hr].
  assert (Hin : In (r, FileData (bb_data part)) (parts_of t)) by (right; exact Hr).
  destruct (Forall2_In_l _ _ _ _ H Hin) as ([k f] & _ & _ & Hw). cbn [snd write_content] in Hw. unfold write_data in Hw.
  apply bind_ok in Hw as (d & _ & Hw). apply bind_ok in Hw as (s & _ & Hw). apply bind_ok in Hw as (h & _ & Hw).
  apply bind_ok in Hw as (data & Hd & _). exists data. exact Hd.
Qed.

Lemma save_iff_readable e t :
  wf_tensor t -> tensor_in_memory t -> describable t -> ((exists a, save e t = Ok a) <-> readable_tensor t).
Proof.
  intros Ht Hm Hd. split; [intros [a Ha]; exact (saved_readable e t a Ha)|]. intros Hr. apply save_succeeds; assumption.
Qed.

(** * Statements for the properties *)

Lemma data_round_trip_rust p e nd :
  float_array (rust_ndarray nd) -> (Z.of_nat (length (nd_shape nd)) < 2 ^ 20)%Z ->
  exists f, write_data e (rust_ndarray nd) = Ok f /\ read_data p f = Ok nd.
Proof.
  intros Hf Hr. destruct (data_write_succeeds e (rust_ndarray nd) Hf (rust_readable nd) Hr) as [f Hw]. exists f. split; [assumption|].
  rewrite (data_round_trip p e _ f Hf Hw). destruct nd; reflexivity.
Qed.

Lemma labels_round_trip_same p e l :
  wf_labels l -> labels_names l <> [] -> labels_in_memory l -> describable_labels l ->
  exists f l', write_labels e l = Ok f /\ read_labels p f = Ok l' /\ same_labels l l' /\ wf_labels l'.
Proof.
  intros Hw Hne Hm Hd. destruct (labels_write_succeeds e l Hw Hne Hm Hd) as [f Hf].
  destruct (labels_round_trip p e l f Hw Hm Hf) as (l' & H1 & H2 & H3). exists f, l'. auto.
Qed.

Lemma load_save_rust e t :
  wf_tensor t -> tensor_in_memory t -> describable t -> readable_tensor t -> c_parameters t ->
  exists a, save e t = Ok a
    /\ forall p names, Permutation names (map fst a) ->
         exists t', load p names a = Ok t' /\ same_tensor t t' /\ wf_tensor t'.
Proof.
  intros Ht Hm Hd Hr Hc. destruct (save_succeeds e t Ht Hm Hd Hr) as [a Ha]. exists a. split; [assumption|].
  intros p names Hp. apply (load_save p e t a names); assumption.
Qed.

Lemma saved_parameters e t a names b :
  wf_tensor t -> save e t = Ok a -> Permutation names (map fst a) -> In b (tm_blocks t) ->
  exists parameters, gradient_parameters names = Ok parameters /\ Permutation parameters (map fst (tb_gradients b)).
Proof.
  intros Ht Ha Hp Hb. rewrite (save_ok_paths e t a Ha) in Hp. destruct (parameters_recovered t names Hp) as (qs & Hqs & Hperm). exists qs. split; [assumption|].
  eapply Permutation_trans; [exact Hperm|]. unfold first_parameters. destruct Ht as (_ & Hbs & _ & Hh).
  destruct (tm_blocks t) as [|b0 rest]; [destruct Hb|]. rewrite Forall_forall in Hbs.
  assert (H0 : In b0 (b0 :: rest)) by (left; reflexivity).
  apply same_names_parameters; [apply Hbs; assumption|apply Hbs; assumption|apply Hh; assumption].
Qed.
