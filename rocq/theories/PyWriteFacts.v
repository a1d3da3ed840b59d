(* Lemmas about the files written by numpy *)
From Coq Require Import Permutation.
From Verif Require Import Base BaseFacts Layout LayoutFacts Labels Array Block Tensor Npy Io Spec SpecTensor SpecIo
  LabelsFacts ArrayFacts StridedFacts BlockFacts TensorFacts NpyFacts PathFacts IoFacts SpecFormat FormatFacts PyIo SpecPy.
Local Open Scope string_scope.
Local Open Scope list_scope.
Local Open Scope nat_scope.

(** * Layouts *)

Lemma combine_snoc {A B} (l : list A) (r : list B) x y : length l = length r -> combine (l ++ [x]) (r ++ [y]) = combine l r ++ [(x, y)].
Proof.
  revert r. induction l as [|a l IH]; intros [|b r] H; try discriminate H; [reflexivity|].
  cbn [app combine]. rewrite IH; [reflexivity|]. cbn [length] in H. lia.
Qed.

Lemma offset_snoc shape n idx i : length shape = length idx -> offset (shape ++ [n]) (idx ++ [i]) = offset shape idx * n + i.
Proof. intros H. unfold offset. rewrite combine_snoc, fold_left_app by assumption. reflexivity. Qed.

Lemma distance_snoc strides s idx i : length strides = length idx ->
  distance (strides ++ [s]) (idx ++ [i]) = distance strides idx + s * i.
Proof.
  intros H. unfold distance. rewrite combine_snoc, map_app, fold_right_app by assumption. cbn [map fst snd fold_right].
  rewrite Nat.add_0_r. generalize (map (fun si => fst si * snd si) (combine strides idx)), (s * i). clear.
  induction l as [|x l IH]; intros n; cbn [fold_right]; [lia|]. rewrite IH. lia.
Qed.

Lemma in_bounds_snoc shape n idx i : in_bounds (shape ++ [n]) (idx ++ [i]) <-> in_bounds shape idx /\ i < n.
Proof.
  unfold in_bounds. split.
  - intros H. apply Forall2_app_inv_l in H as (l1 & l2 & H1 & H2 & E). inversion H2 as [|? j ? ? Hj H3]; subst. inversion H3; subst.
    apply app_inj_tail in E as [-> ->]. auto.
  - intros [H1 H2]. apply Forall2_app; [assumption|]. constructor; [assumption|constructor].
Qed.

Lemma in_bounds_snoc_inv shape n idx : in_bounds (shape ++ [n]) idx ->
  exists idx' i, idx = idx' ++ [i] /\ in_bounds shape idx' /\ i < n.
Proof.
  intros H. pose proof H as H'. apply Forall2_app_inv_l in H as (l1 & l2 & H1 & H2 & ->). inversion H2 as [|? j ? ? Hj H3]; subst.
  inversion H3; subst. exists l1, j. auto.
Qed.

Lemma in_bounds_zeros shape : ~ In 0 shape -> in_bounds shape (repeat 0 (length shape)).
Proof.
  induction shape as [|n shape IH]; intros H; cbn [length repeat]; constructor.
  - destruct n; [exfalso; apply H; left; reflexivity|lia].
  - apply IH. intros Hin. apply H. right. assumption.
Qed.

Lemma distance_zeros strides : distance strides (repeat 0 (length strides)) = 0.
Proof.
  unfold distance. induction strides as [|s strides IH]; [reflexivity|]. cbn [length repeat combine map fst snd fold_right].
  rewrite IH. lia.
Qed.

Lemma offset_zeros shape : offset shape (repeat 0 (length shape)) = 0.
Proof.
  unfold offset. induction shape as [|n shape IH]; [reflexivity|]. cbn [length repeat combine fold_left fst snd].
  exact IH.
Qed.

Lemma layout_c_spec shape : forall strides c, length strides = length shape -> ~ In 0 shape ->
  (layout_c_loop (rev (combine shape strides)) c = true
   <-> forall idx, in_bounds shape idx -> distance strides idx = c * offset shape idx).
Proof.
  induction shape as [|n shape IH] using rev_ind; intros strides c Hl Hz.
  - destruct strides; [|discriminate Hl]. split; [|reflexivity]. intros _ idx H. inversion H; subst. unfold distance, offset.
    cbn [combine map fold_right fold_left]. lia.
  - destruct strides as [|s strides _] using rev_ind; [rewrite app_length in Hl; cbn [length] in Hl; lia|].
    rewrite !app_length in Hl. cbn [length] in Hl. assert (Hl' : length strides = length shape) by lia.
    rewrite combine_snoc, rev_app_distr by auto. cbn [rev app layout_c_loop].
    assert (Hz' : ~ In 0 shape) by (intros H; apply Hz; apply in_or_app; auto).
    assert (Hn : n <> 0) by (intros ->; apply Hz; apply in_or_app; right; left; reflexivity).
    assert (Hd : (forall idx, in_bounds (shape ++ [n]) idx -> distance (strides ++ [s]) idx = c * offset (shape ++ [n]) idx)
                 <-> (forall idx i, in_bounds shape idx -> i < n -> distance strides idx + s * i = c * (offset shape idx * n + i))).
    { split.
      - intros H idx i Hb Hi. pose proof (in_bounds_length _ _ Hb) as Hlen.
        rewrite <- distance_snoc, <- offset_snoc by lia. apply H. apply in_bounds_snoc. auto.
      - intros H idx Hb. apply in_bounds_snoc_inv in Hb as (idx' & i & -> & Hb & Hi). pose proof (in_bounds_length _ _ Hb) as Hlen.
        rewrite distance_snoc, offset_snoc by lia. auto. }
    rewrite Hd. clear Hd. destruct (Nat.eqb_spec n 1) as [->|Hn1].
    + rewrite IH by assumption. split; intros H.
      * intros idx i Hb Hi. rewrite (H idx Hb). nia.
      * intros idx Hb. specialize (H idx 0 Hb ltac:(lia)). nia.
    + destruct (Nat.eqb_spec s c) as [->|Hs].
      * rewrite IH by assumption. split; intros H.
        -- intros idx i Hb Hi. rewrite (H idx Hb). nia.
        -- intros idx Hb. specialize (H idx 0 Hb ltac:(lia)). nia.
      * split; [discriminate|]. intros H. exfalso. apply Hs.
        specialize (H (repeat 0 (length shape)) 1 (in_bounds_zeros _ Hz') ltac:(lia)).
        rewrite offset_zeros in H. rewrite <- Hl', distance_zeros in H. lia.
Qed.

Lemma standard_row_major shape strides : length strides = length shape ->
  (is_standard_layout shape strides = true <-> row_major shape strides).
Proof.
  intros Hl. unfold is_standard_layout, row_major. rewrite orb_true_iff. destruct (existsb (Nat.eqb 0) shape) eqn:E.
  - split; [|auto]. intros _ idx Hb. exfalso. apply existsb_exists in E as (x & Hin & Ex). apply Nat.eqb_eq in Ex. subst x.
    clear Hl. revert idx Hb. induction shape as [|n shape IH]; [destruct Hin|]. intros idx Hb. inversion Hb as [|? i ? idx' Hi Hr]; subst.
    destruct Hin as [->|Hin]; [lia|]. exact (IH Hin _ Hr).
  - assert (Hz : ~ In 0 shape).
    { intros Hin. assert (existsb (Nat.eqb 0) shape = true) by (apply existsb_exists; exists 0; split; [assumption|reflexivity]). congruence. }
    rewrite (layout_c_spec shape strides 1 Hl Hz). split.
    + intros [H|H] idx Hb; [discriminate|]. rewrite (H idx Hb). lia.
    + intros H. right. intros idx Hb. rewrite (H idx Hb). lia.
Qed.

Lemma in_bounds_rev shape idx : in_bounds shape idx -> in_bounds (rev shape) (rev idx).
Proof.
  unfold in_bounds. induction 1 as [|n i shape idx Hi _ IH]; [constructor|]. cbn [rev]. apply Forall2_app; [assumption|].
  constructor; [assumption|constructor].
Qed.

Lemma distance_rev strides : forall idx, length strides = length idx -> distance (rev strides) (rev idx) = distance strides idx.
Proof.
  induction strides as [|s strides IH]; intros [|i idx] H; try discriminate H; [reflexivity|]. cbn [rev length] in *.
  rewrite distance_snoc by (rewrite !rev_length; lia). rewrite IH by lia. unfold distance. cbn [combine map fst snd fold_right]. lia.
Qed.

Lemma fortran_column_major shape strides : length strides = length shape ->
  (is_standard_layout (rev shape) (rev strides) = true <-> column_major shape strides).
Proof.
  intros Hl. rewrite standard_row_major by (rewrite !rev_length; assumption). unfold row_major, column_major. split; intros H idx Hb.
  - rewrite <- (H (rev idx) (in_bounds_rev _ _ Hb)). symmetry. apply distance_rev. pose proof (in_bounds_length _ _ Hb). lia.
  - specialize (H (rev idx)). rewrite rev_involutive in H. rewrite <- H.
    + rewrite <- (rev_involutive idx) at 1. apply distance_rev. rewrite rev_length. apply in_bounds_length in Hb.
      rewrite rev_length in Hb. lia.
    + rewrite <- (rev_involutive shape). apply in_bounds_rev. assumption.
Qed.

(** * Transposed arrays *)

Lemma nd_ext a b : wf_nd a -> wf_nd b -> nd_shape a = nd_shape b ->
  (forall idx, in_bounds (nd_shape a) idx -> nd_get a idx = nd_get b idx) -> a = b.
Proof.
  intros Ha Hb E H. destruct a as [s da], b as [s' db]. unfold wf_nd in *. cbn [nd_shape nd_data] in *. subst s'. f_equal.
  assert (G : forall d, length d = prod s -> d = map (fun idx => nth (ravel s idx) d 0%Z) (all_indices s)).
  { intros d Hd. apply nth_error_ext. intros k. destruct (Nat.lt_ge_cases k (prod s)) as [Hk|Hk].
    - rewrite nth_error_map. destruct (nth_error (all_indices s) k) as [idx|] eqn:Ek.
      2:{ apply nth_error_None in Ek. rewrite all_indices_length in Ek. lia. }
      cbn [option_map]. assert (Hb' : in_bounds s idx) by (apply all_indices_In; apply nth_error_In in Ek; assumption).
      assert (E : ravel s idx = k).
      { pose proof (nth_error_all_indices s idx Hb') as En. eapply (proj1 (NoDup_nth_error _) (all_indices_NoDup s)).
        - rewrite all_indices_length. apply ravel_lt. assumption.
        - congruence. }
      rewrite E. apply nth_error_nth'. lia.
    - rewrite (proj2 (nth_error_None d k)) by lia. symmetry. apply nth_error_None. rewrite map_length, all_indices_length. assumption. }
  rewrite (G da Ha), (G db Hb). apply map_ext_in. intros idx Hin. apply all_indices_In in Hin. apply (H idx Hin).
Qed.

Lemma transposed_wf nd : wf_nd (transposed nd).
Proof. apply nd_tabulate_wf. Qed.

Lemma prod_rev shape : prod (rev shape) = prod shape.
Proof. induction shape as [|n shape IH]; [reflexivity|]. cbn [rev prod]. rewrite prod_app, IH. cbn [prod]. lia. Qed.

Lemma transposed_transposed nd : wf_nd nd -> transposed (transposed nd) = nd.
Proof.
  intros H. apply nd_ext; [apply transposed_wf|assumption|apply rev_involutive|]. cbn [transposed nd_tabulate nd_shape]. intros idx Hb.
  unfold transposed at 1. rewrite nd_get_tabulate by exact Hb. rewrite rev_involutive in Hb.
  unfold transposed. rewrite nd_get_tabulate by (apply in_bounds_rev; assumption). rewrite rev_involutive. reflexivity.
Qed.

Lemma transposed_bits nd : wf_nd nd -> Forall bits64 (nd_data nd) -> Forall bits64 (nd_data (transposed nd)).
Proof.
  intros Hw Hb. apply Forall_map. apply Forall_forall. intros idx Hin. apply all_indices_In in Hin. apply in_bounds_rev in Hin.
  rewrite rev_involutive in Hin. pose proof (nd_nth_error nd (rev idx) Hw Hin) as E. apply nth_error_In in E.
  rewrite Forall_forall in Hb. apply Hb. assumption.
Qed.

(** * Files *)

(* what is in the files written by numpy *)
Definition py_holds (np : numpy) (c : content) (f : bytes) : Prop :=
  match c with
  | FileLabels l => exists numbers : list bytes,
      npy_file (labels_type (np_native np) (labels_names l)) [Z.of_nat (length (rows l))] (concat numbers) f
      /\ Forall2 (stored (np_native np) 4) numbers (map (fun z => (z mod 2 ^ 32)%Z) (concat (rows l)))
  | FileData d => exists e order (numbers : list bytes),
      npy_format (mk_header (float_type e) order (map Z.of_nat (nd_shape (a_nd d)))) (concat numbers) f
      /\ Forall2 (stored e 8) numbers (nd_data (if order : bool then transposed (a_nd d) else a_nd d))
  end.

Definition py_write_content (np : numpy) (c : content) : outcome bytes :=
  match c with
  | FileLabels l => py_write_labels np l
  | FileData d => let? a := py_array_of np d in py_write_array np a
  end.

Lemma float_common e : common_type (float_type e).
Proof. exact (common_float e). Qed.

Lemma labels_common e l : wf_labels l -> common_type (labels_type e (labels_names l)).
Proof. intros H. apply common_labels. apply (wf_names_good l H). Qed.

Lemma encoded_i32 e values :
  Forall2 (stored e 4) (map (encode e 4) values) (map (fun z => (z mod 2 ^ 32)%Z) values).
Proof.
  induction values as [|z r IH]; [constructor|]. cbn [map]. constructor; [|exact IH].
  assert (E : encode e 4 z = encode e 4 (z mod 2 ^ 32)).
  { destruct e; cbn [encode]; rewrite (low_bytes_mod 4 z) at 1; reflexivity. }
  rewrite E. apply stored_encode. apply Z.mod_pos_bound. reflexivity.
Qed.

Lemma encoded_f64 e data : Forall bits64 data -> Forall2 (stored e 8) (map (encode e 8) data) data.
Proof. induction 1 as [|z l Hz _ IH]; constructor; [|exact IH]. apply stored_encode. exact Hz. Qed.

Lemma py_array_of_nd np d a : py_array_of np d = Ok a -> py_nd a = a_nd d.
Proof.
  unfold py_array_of. destruct (a_kind d) as [| |o]; [|discriminate|].
  - destruct (is_standard_layout _ _); [|discriminate]. intros E. inversion E; reflexivity.
  - destruct (_ || _); [|discriminate]. intros E. inversion E; reflexivity.
Qed.

Lemma in_fortran_order_spec np d a : length (a_strides d) = length (shape_of d) ->
  py_array_of np d = Ok a -> (in_fortran_order a = true <-> fortran_array d).
Proof.
  intros Hl Ha. unfold in_fortran_order, c_contiguous, f_contiguous, py_array_of in *. unfold fortran_array.
  destruct (a_kind d) as [| |o]; [|discriminate Ha|].
  - destruct (is_standard_layout _ _); [|discriminate Ha]. inversion Ha; subst. cbn [py_nd py_strides].
    rewrite default_standard. cbn [negb andb]. split; [discriminate|]. intros [(o & Ho) _]. discriminate Ho.
  - destruct (_ || _); [|discriminate Ha]. inversion Ha; subst. cbn [py_nd py_strides].
    change (nd_shape (a_nd d)) with (shape_of d). rewrite andb_true_iff, negb_true_iff, fortran_column_major by assumption.
    rewrite <- not_true_iff_false, standard_row_major by assumption.
    split; [intros [H1 H2]|intros (_ & H1 & H2)]; [|tauto]. split; [eauto|]. tauto.
Qed.

Lemma py_written np limit c f : follows_format np limit -> sound_content c ->
  py_write_content np c = Ok f -> py_holds np c f.
Proof.
  intros Hnp Hc Hw. destruct c as [l|d]; cbn [sound_content py_write_content py_holds] in *.
  - destruct Hc as [Hl Hm]. unfold py_write_labels in Hw. apply bind_ok in Hw as (entries & He & Hw).
    apply (labels_iter_ok l _ Hl) in He as [Hne ->].
    destruct (np_write np _ _) as [f'|] eqn:E; [|discriminate Hw]. inversion Hw; subst f'. apply (ff_written np limit Hnp) in E.
    + exists (map (encode (np_native np) 4) (concat (rows l))). split; [|apply encoded_i32].
      rewrite <- flat_map_concat_map. exact E.
    + apply labels_common. assumption.
    + apply labels_shape; assumption.
  - destruct Hc as (b & -> & Hb & _ & Hbits & Hs). apply bind_ok in Hw as (a & Ha & Hw). unfold py_write_array in Hw.
    rewrite (py_array_of_nd _ _ _ Ha) in Hw.
    assert (Hwf : wf_nd (a_nd (bb_data b))).
    { apply (proj1 (proj1 Hb)). unfold py_array_of in Ha. intros E. rewrite E in Ha. discriminate Ha. }
    destruct (np_write np _ _) as [f'|] eqn:E; [|discriminate Hw]. inversion Hw; subst f'. apply (ff_written np limit Hnp) in E.
    + exists (np_native np), (in_fortran_order a). eexists. rewrite flat_map_concat_map in E. split; [exact E|]. apply encoded_f64.
      destruct (in_fortran_order a); [apply transposed_bits; assumption|assumption].
    + apply float_common.
    + apply storable_usize. assumption.
Qed.

(* files in C order have the documented content *)
Lemma py_written_holds np limit c f : follows_format np limit -> sound_content c ->
  (forall d, c = FileData d -> length (a_strides d) = length (shape_of d) /\ ~ fortran_array d) ->
  py_write_content np c = Ok f -> holds c f.
Proof.
  intros Hnp Hc Hd Hw. destruct c as [l|d].
  - destruct (py_written np limit _ f Hnp Hc Hw) as (numbers & H1 & H2). exists (np_native np), numbers. split; assumption.
  - destruct (Hd d eq_refl) as [Hl Hf]. cbn [sound_content py_write_content holds] in *.
    destruct Hc as (b & -> & Hb & _ & Hbits & Hs). apply bind_ok in Hw as (a & Ha & Hw). unfold py_write_array in Hw.
    assert (Eo : in_fortran_order a = false).
    { apply not_true_iff_false. rewrite (in_fortran_order_spec np _ a Hl Ha). assumption. }
    rewrite (py_array_of_nd _ _ _ Ha), Eo in Hw.
    destruct (np_write np _ _) as [f'|] eqn:E; [|discriminate Hw]. inversion Hw; subst f'. apply (ff_written np limit Hnp) in E.
    + exists (np_native np). eexists. rewrite flat_map_concat_map in E. split; [exact E|]. apply encoded_f64. assumption.
    + apply float_common.
    + apply storable_usize. assumption.
Qed.

(** * Archives *)

Definition py_save_part (np : numpy) (pc : part * content) : outcome (string * bytes) :=
  let? file := py_write_content np (snd pc) in Ok (path_of (fst pc), file).

Lemma py_save_part_pair np p c : py_save_part np (p, c) = let? file := py_write_content np c in Ok (path_of p, file).
Proof. reflexivity. Qed.

Lemma npz_components_parts np prefix name i components :
  (forall j, path_of (name j) = prefix +++ "/components/" +++ string_of_nat j +++ ".npy") ->
  npz_components np prefix i components = mapM (py_save_part np) (components_parts name i components).
Proof.
  intros Hn. revert i. induction components as [|c rest IH]; intros i; [reflexivity|].
  cbn [npz_components components_parts mapM]. rewrite IH. rewrite py_save_part_pair. unfold npz_labels. cbn [py_write_content].
  rewrite Hn, !append_assoc. destruct (py_write_labels np c); cbn [bind]; try reflexivity.
Qed.

Lemma npz_array_part np key d p : path_of p = key +++ ".npy" ->
  npz_array np key d = let? x := py_save_part np (p, FileData d) in Ok [x].
Proof.
  intros E. rewrite py_save_part_pair, E. unfold npz_array. cbn [py_write_content].
  destruct (py_array_of np d); cbn [bind]; try reflexivity. destruct (py_write_array np _); reflexivity.
Qed.

Lemma npz_labels_part np key l p : path_of p = key +++ ".npy" ->
  npz_labels np key l = let? x := py_save_part np (p, FileLabels l) in Ok [x].
Proof.
  intros E. rewrite py_save_part_pair, E. unfold npz_labels. cbn [py_write_content]. destruct (py_write_labels np l); reflexivity.
Qed.

Lemma npz_gradients_parts np i gradients :
  npz_gradients np i gradients = mapM (py_save_part np) (gradients_parts i gradients).
Proof.
  induction gradients as [|[q g] rest IH]; [reflexivity|].
  cbn [npz_gradients gradients_parts]. unfold gradient_parts. rewrite mapM_app. cbn [mapM]. rewrite IH.
  rewrite (npz_components_parts np _ (fun j => GradientPart i q (GradientComponent j))) by (intros j; reflexivity).
  rewrite (npz_array_part np _ _ (GradientPart i q GradientData)) by (cbn [path_of gradient_name]; unfold gradient_directory; rewrite !append_assoc; reflexivity).
  rewrite (npz_labels_part np _ _ (GradientPart i q GradientSamples)) by (cbn [path_of gradient_name]; unfold gradient_directory; rewrite !append_assoc; reflexivity).
  destruct (py_save_part np (GradientPart i q GradientData, _)); cbn [bind]; try reflexivity.
  destruct (py_save_part np (GradientPart i q GradientSamples, _)); cbn [bind]; try reflexivity.
  destruct (mapM (py_save_part np) (components_parts _ _ _)); cbn [bind]; try reflexivity.
Qed.

Lemma npz_blocks_parts np blocks : forall i,
  npz_blocks np i blocks = mapM (py_save_part np) (blocks_parts i blocks).
Proof.
  induction blocks as [|b rest IH]; intros i; [reflexivity|].
  cbn [npz_blocks blocks_parts]. unfold block_parts, values_parts. rewrite <- app_assoc. cbn [app mapM].
  rewrite <- app_assoc. rewrite !mapM_app. cbn [mapM]. rewrite IH, npz_gradients_parts.
  rewrite (npz_components_parts np _ (fun j => ValuesPart i (ValuesComponent j))) by (intros j; reflexivity).
  rewrite (npz_array_part np _ _ (ValuesPart i ValuesData)) by (cbn [path_of values_name]; unfold values_directory; rewrite !append_assoc; reflexivity).
  rewrite (npz_labels_part np _ (bb_samples _) (ValuesPart i ValuesSamples)) by (cbn [path_of values_name]; unfold values_directory; rewrite !append_assoc; reflexivity).
  rewrite (npz_labels_part np _ (bb_properties _) (ValuesPart i ValuesProperties)) by (cbn [path_of values_name]; unfold values_directory; rewrite !append_assoc; reflexivity).
  destruct (py_save_part np (ValuesPart i ValuesData, _)); cbn [bind]; try reflexivity.
  destruct (py_save_part np (ValuesPart i ValuesSamples, _)); cbn [bind]; try reflexivity.
  destruct (mapM (py_save_part np) (components_parts _ _ _)); cbn [bind]; try reflexivity.
  destruct (py_save_part np (ValuesPart i ValuesProperties, _)); cbn [bind]; try reflexivity.
  destruct (mapM (py_save_part np) (gradients_parts i _)); cbn [bind]; try reflexivity.
  destruct (mapM (py_save_part np) (blocks_parts _ rest)); cbn [bind]; try reflexivity.
Qed.

Lemma py_save_parts np t : py_save np t = mapM (py_save_part np) (parts_of t).
Proof.
  unfold py_save, parts_of. cbn [mapM]. rewrite npz_blocks_parts, (npz_labels_part np _ _ KeysPart) by reflexivity.
  destruct (py_save_part np (KeysPart, _)); cbn [bind]; try reflexivity.
Qed.

Lemma py_save_ok np t a : py_save np t = Ok a ->
  Forall2 (fun pc kf => fst kf = path_of (fst pc) /\ py_write_content np (snd pc) = Ok (snd kf)) (parts_of t) a.
Proof.
  rewrite py_save_parts. intros H. apply mapM_ok in H. eapply Forall2_impl; [|exact H].
  intros [q c] [k f]. unfold py_save_part. cbn [fst snd]. intros Hb. apply bind_ok in Hb as (g & Hg & E).
  inversion E; subst. auto.
Qed.

Lemma py_save_paths np t a : py_save np t = Ok a -> map fst a = map path_of (map fst (parts_of t)).
Proof.
  intros H. apply py_save_ok in H. induction H as [|[q c] [k f] l r [E _] _ IH]; [reflexivity|].
  cbn [map fst] in *. rewrite E, IH. reflexivity.
Qed.

Lemma py_save_nodup np t a : wf_tensor t -> py_save np t = Ok a -> NoDup (map fst a).
Proof.
  intros Ht Ha. rewrite (py_save_paths np t a Ha). apply NoDup_map_inj; [exact path_of_inj|].
  apply parts_of_nodup. assumption.
Qed.

Lemma py_save_conforming np limit t a :
  follows_format np limit -> wf_tensor t -> tensor_in_memory t -> strided_tensor t -> ~ has_fortran_array t ->
  py_save np t = Ok a -> conforming t a.
Proof.
  intros Hnp Ht Hm Hst Hnf Ha. split; [apply (py_save_nodup np t a Ht Ha)|]. pose proof (py_save_ok np t a Ha) as Hf. split.
  - intros path f Hin. destruct (Forall2_In_r _ _ _ _ Hf Hin) as ([q c] & Hq & E & _). cbn [fst] in E. subst path.
    exists (holds c). apply parts_documented. assumption.
  - intros path P HP. apply documented_parts in HP as (q & c & Hq & -> & ->).
    destruct (Forall2_In_l _ _ _ _ Hf Hq) as ([k f] & Hin & E & Hw). cbn [fst snd] in *. subst k.
    exists f. split; [assumption|]. apply (py_written_holds np limit); try assumption; [apply (parts_of_sound t q c Ht Hm Hq)|].
    intros d ->. apply parts_origin in Hq as (b & part & Hb & Hp & ->). split; [apply (Hst b part Hb Hp)|].
    intros Hd. apply Hnf. exists b, part. auto.
Qed.

(** * When tensor maps are saved *)

Lemma parts_data t b part : In b (tm_blocks t) -> In part (parts_of_block b) ->
  exists q, In (q, FileData (bb_data part)) (parts_of t).
Proof.
  intros Hb Hp. apply In_nth_error in Hb as (i & Hi).
  assert (Hin : forall x, In x (block_parts i b) -> In x (parts_of t)).
  { intros x Hx. right. apply (In_blocks_parts (tm_blocks t) i b x 0 Hi). exact Hx. }
  destruct Hp as [<-|Hp].
  - exists (ValuesPart i ValuesData). apply Hin. apply in_or_app. left. left. reflexivity.
  - apply in_map_iff in Hp as ([q g] & <- & Hg). exists (GradientPart i q GradientData). apply Hin. apply in_or_app. right.
    apply (In_gradients_parts i _ q g); [assumption|]. left. reflexivity.
Qed.

Lemma python_array_of np d : length (a_strides d) = length (shape_of d) ->
  ((exists a, py_array_of np d = Ok a) <-> python_array np d).
Proof.
  intros Hl. unfold py_array_of, python_array. destruct (a_kind d) as [| |o].
  - change (nd_shape (a_nd d)) with (shape_of d). rewrite <- standard_row_major by assumption.
    destruct (is_standard_layout _ _); split; [reflexivity|eauto|intros [a H]; discriminate H|discriminate].
  - split; [intros [a H]; discriminate H|intros []].
  - rewrite <- !Nat.eqb_eq. rewrite <- orb_true_iff.
    destruct (_ || _); split; [reflexivity|eauto|intros [a H]; discriminate H|discriminate].
Qed.

Lemma py_save_python np t a : strided_tensor t -> py_save np t = Ok a -> python_tensor np t.
Proof.
  intros Hst Ha b part Hb Hp. pose proof (py_save_ok np t a Ha) as Hf.
  destruct (parts_data t b part Hb Hp) as (q & Hq). destruct (Forall2_In_l _ _ _ _ Hf Hq) as (kf & _ & _ & Hw).
  cbn [snd py_write_content] in Hw. apply bind_ok in Hw as (x & Hx & _).
  apply (python_array_of np _ (Hst b part Hb Hp)). eauto.
Qed.

Lemma python_has_elements np t : python_tensor np t -> has_elements t.
Proof. intros H b part Hb Hp E. specialize (H b part Hb Hp). unfold python_array in H. rewrite E in H. exact H. Qed.

Lemma labels_field_names e names : field_names (map (fun name =>
    PyTuple [PyString name; PyString match e with LittleEndian => "<i4" | BigEndian => ">i4" end]) names) = names.
Proof. induction names as [|n names IH]; [reflexivity|]. cbn [map field_names flat_map app]. f_equal. exact IH. Qed.

Lemma py_labels_written np limit l : follows_format np limit -> wf_labels l -> labels_in_memory l -> labels_names l <> [] ->
  describable_labels l -> exists f, py_write_labels np l = Ok f.
Proof.
  intros Hnp Hw Hm Hne Hd. unfold py_write_labels. rewrite (proj2 (labels_iter_ok l (rows l) Hw) (conj Hne eq_refl)). cbn [bind].
  destruct (ff_writes np limit Hnp (mk_header (labels_type (np_native np) (labels_names l)) false [Z.of_nat (length (rows l))])
              (flat_map (encode (np_native np) 4) (concat (rows l)))) as (f & ->).
  - apply labels_common. assumption.
  - apply labels_shape; assumption.
  - split; [reflexivity|]. cbn [h_descriptor]. unfold labels_type. intros fields E. inversion E; subst.
    rewrite map_length, labels_field_names. exact Hd.
  - eauto.
Qed.

Lemma py_array_written np limit b : follows_format np limit -> basic_in_memory b -> describable_basic b ->
  python_array np (bb_data b) -> length (a_strides (bb_data b)) = length (shape_of (bb_data b)) ->
  exists f, py_write_content np (FileData (bb_data b)) = Ok f.
Proof.
  intros Hnp (_ & _ & Hs) [_ Hd] Hp Hl. apply (python_array_of np _ Hl) in Hp as (a & Ha). cbn [py_write_content]. rewrite Ha. cbn [bind].
  unfold py_write_array. rewrite (py_array_of_nd _ _ _ Ha).
  destruct (ff_writes np limit Hnp (mk_header (float_type (np_native np)) (in_fortran_order a) (map Z.of_nat (nd_shape (a_nd (bb_data b)))))
              (flat_map (encode (np_native np) 8) (nd_data (if in_fortran_order a then transposed (a_nd (bb_data b)) else a_nd (bb_data b)))))
    as (f & ->).
  - apply float_common.
  - apply storable_usize. assumption.
  - split; [cbn [h_shape]; rewrite map_length; exact Hd|]. intros fields E. discriminate E.
  - eauto.
Qed.

Lemma describable_parts t q l : describable t -> In (q, FileLabels l) (parts_of t) -> describable_labels l.
Proof.
  intros [Hk Hb] Hin. apply parts_origin in Hin as [->|(b & part & Hb' & Hp & Hl)]; [assumption|].
  destruct (Hb b part Hb' Hp) as [H _]. rewrite Forall_forall in H. apply H. assumption.
Qed.

Lemma py_save_total np limit t :
  follows_format np limit -> wf_tensor t -> tensor_in_memory t -> strided_tensor t -> describable t ->
  ((exists a, py_save np t = Ok a) <-> python_tensor np t).
Proof.
  intros Hnp Ht Hm Hst Hd. split; [intros (a & Ha); exact (py_save_python np t a Hst Ha)|]. intros Hp.
  assert (Hall : forall q c, In (q, c) (parts_of t) -> exists f, py_write_content np c = Ok f).
  { intros q c Hin. pose proof (parts_of_sound t q c Ht Hm Hin) as Hs.
    pose proof (parts_of_filled t q c Ht (python_has_elements np t Hp) Hin) as Hfill.
    destruct c as [l|d].
    - destruct Hs as [Hw Hl]. apply (py_labels_written np limit); try assumption. apply (describable_parts t q); assumption.
    - apply parts_origin in Hin as (b & part & Hb & Hpart & ->). 
      exact (py_array_written np limit part Hnp (proj2 Hm b part Hb Hpart) (proj2 Hd b part Hb Hpart) (Hp b part Hb Hpart)
               (Hst b part Hb Hpart)). }
  rewrite py_save_parts. revert Hall. generalize (parts_of t). intros parts Hall.
  induction parts as [|[q c] parts IH]; [exists []; reflexivity|].
  destruct IH as (rest & Hrest); [intros q' c' Hin; apply (Hall q'); right; assumption|].
  destruct (Hall q c (or_introl eq_refl)) as (f & Hf). exists ((path_of q, f) :: rest). cbn [mapM]. rewrite Hrest.
  rewrite py_save_part_pair, Hf. reflexivity.
Qed.
