(* Lemmas about tensor maps saved and loaded by numpy *)
From Coq Require Import Permutation.
From Verif Require Import Base BaseFacts Layout LayoutFacts Labels Array Block Tensor Npy Io Spec SpecTensor SpecIo
  LabelsFacts ArrayFacts BlockFacts TensorFacts NpyFacts PathFacts IoFacts SpecFormat FormatFacts
  PyIo SpecPy PyWriteFacts PyReadFacts.
Local Open Scope string_scope.
Local Open Scope list_scope.
Local Open Scope nat_scope.

(** * Saved by numpy, loaded by Rust *)

Lemma py_save_loads np limit p t a names :
  follows_format np limit -> wf_tensor t -> tensor_in_memory t -> c_parameters t -> strided_tensor t ->
  py_save np t = Ok a -> Permutation names (map fst a) -> ~ has_fortran_array t ->
  exists t', load p names a = Ok t' /\ same_tensor t t' /\ wf_tensor t'.
Proof.
  intros Hnp Ht Hm Hc Hst Ha Hperm Hnf. apply load_conforming; try assumption.
  - apply (python_has_elements np). apply (py_save_python np t a Hst Ha).
  - apply (py_save_conforming np limit); assumption.
Qed.

Lemma fortran_unread np limit b f : follows_format np limit -> wf_basic b -> basic_in_memory b ->
  length (a_strides (bb_data b)) = length (shape_of (bb_data b)) -> fortran_array (bb_data b) ->
  py_write_content np (FileData (bb_data b)) = Ok f -> forall p nd, read_data p f <> Ok nd.
Proof.
  intros Hnp Hb (_ & _ & Hs) Hl Hd Hw p nd. cbn [py_write_content] in Hw. apply bind_ok in Hw as (a & Ha & Hw). unfold py_write_array in Hw.
  rewrite (proj2 (in_fortran_order_spec np _ a Hl Ha) Hd), (py_array_of_nd _ _ _ Ha) in Hw.
  destruct (np_write np _ _) as [f'|] eqn:E; [|discriminate Hw]. inversion Hw; subst f'. apply (ff_written np limit Hnp) in E.
  - apply npy_format_header in E; [|apply storable_usize; assumption]. unfold read_data. rewrite E. cbn [bind h_fortran_order]. discriminate.
  - apply float_common.
  - apply storable_usize. assumption.
Qed.

Lemma foldM_step {A B} (f : B -> A -> outcome B) l : forall x y, foldM f l x = Ok y ->
  forall q, In q l -> exists x' y', f x' q = Ok y'.
Proof.
  induction l as [|q l IH]; intros x y H r Hr; [destruct Hr|]. cbn [foldM] in H. apply bind_ok in H as (z & Hz & H).
  destruct Hr as [<-|Hr]; [eauto|]. exact (IH z y H r Hr).
Qed.

Lemma load_block_inv p a qs i b : load_block p a qs i = Ok b ->
  (exists f nd, by_name a (path_of (ValuesPart i ValuesData)) = Ok f /\ read_data p f = Ok nd)
  /\ forall q, In q qs -> exists f nd, by_name a (path_of (GradientPart i q GradientData)) = Ok f /\ read_data p f = Ok nd.
Proof.
  intros H. unfold load_block in H. apply bind_ok in H as (f & Hf & H). apply bind_ok in H as (nd & Hnd & H).
  split; [exists f, nd; split; assumption|]. intros q Hq.
  apply bind_ok in H as (f1 & _ & H). apply bind_ok in H as (s & _ & H). apply bind_ok in H as (cs & _ & H).
  apply bind_ok in H as (f2 & _ & H). apply bind_ok in H as (props & _ & H). apply bind_ok in H as (block & _ & H).
  destruct (foldM_step _ _ _ _ H q Hq) as (x & y & Hg). unfold load_gradient in Hg.
  apply bind_ok in Hg as (f3 & Hf3 & Hg). apply bind_ok in Hg as (nd3 & Hnd3 & _). exists f3, nd3. split; assumption.
Qed.

Lemma mapM_step {A B} (f : A -> outcome B) l ys x : mapM f l = Ok ys -> In x l -> exists y, f x = Ok y.
Proof. intros H Hx. apply mapM_ok in H. destruct (Forall2_In_l _ _ _ _ H Hx) as (y & _ & Hy). eauto. Qed.

Lemma py_saved_file np t a p c : wf_tensor t -> py_save np t = Ok a -> In (p, c) (parts_of t) ->
  exists f, by_name a (path_of p) = Ok f /\ py_write_content np c = Ok f.
Proof.
  intros Ht Ha Hp. pose proof (py_save_nodup np t a Ht Ha) as Hnd. apply py_save_ok in Ha.
  destruct (Forall2_In_l _ _ _ _ Ha Hp) as ([k f] & Hin & E & Hw). cbn [fst snd] in *. subst k.
  exists f. split; [|assumption]. apply conforming_by_name; assumption.
Qed.

Lemma py_save_fortran np limit p t a names :
  follows_format np limit -> wf_tensor t -> tensor_in_memory t -> strided_tensor t ->
  py_save np t = Ok a -> Permutation names (map fst a) -> has_fortran_array t ->
  forall t', load p names a <> Ok t'.
Proof.
  intros Hnp Ht Hm Hst Ha Hperm (b & part & Hb & Hp & Hd) t' Hload.
  unfold load in Hload. apply bind_ok in Hload as (fk & Hfk & Hload). apply bind_ok in Hload as (keys' & Hk & Hload).
  apply bind_ok in Hload as (parameters & Hpar & Hload). apply bind_ok in Hload as (count & Hcount & Hload).
  apply bind_ok in Hload as (blocks' & Hblocks & _).
  (* all the blocks are loaded *)
  destruct (py_saved_file np t a KeysPart (FileLabels (tm_keys t)) Ht Ha (or_introl eq_refl)) as (fk' & Hfk' & Hwk).
  cbn [path_of] in Hfk'. rewrite Hfk in Hfk'. inversion Hfk'; subst fk'. clear Hfk'.
  assert (Hkeys : holds (FileLabels (tm_keys t)) fk).
  { apply (py_written_holds np limit); try assumption; [split; [apply Ht|apply Hm]|]. intros d E. discriminate E. }
  destruct (labels_file_reads (tm_keys t) fk (proj1 (proj1 Ht)) (proj2 (proj1 Ht)) (proj1 Hm) Hkeys p) as (k2 & Hk2 & [En Er] & Hw2).
  rewrite Hk in Hk2. inversion Hk2; subst k2. clear Hk2.
  apply (labels_count_ok keys' _ Hw2) in Hcount as [_ ->]. rewrite <- Er in Hblocks.
  destruct (Ht) as (_ & Hbs & Hn & Hhom). rewrite <- Hn in Hblocks. rewrite Forall_forall in Hbs.
  destruct (In_nth_error _ _ Hb) as (i & Hi).
  assert (Hseq : In i (seq 0 (length (tm_blocks t)))).
  { apply in_seq. split; [lia|]. apply nth_error_Some. congruence. }
  destruct (mapM_step _ _ _ _ Hblocks Hseq) as (b' & Hb'). apply load_block_inv in Hb' as [Hvalues Hgradients].
  assert (Hwp : wf_basic part) by (apply (wf_tensor_part t b); assumption).
  pose proof (proj2 Hm b part Hb Hp) as Hmp. pose proof (Hst b part Hb Hp) as Hlp.
  assert (Hin : forall x, In x (block_parts i b) -> In x (parts_of t)).
  { intros x Hx. right. apply (In_blocks_parts (tm_blocks t) i b x 0 Hi). exact Hx. }
  assert (Hno : forall q, In (q, FileData (bb_data part)) (block_parts i b) ->
    forall f nd, by_name a (path_of q) = Ok f -> read_data p f = Ok nd -> False).
  { intros q Hq f nd Hf Hread. destruct (py_saved_file np t a q _ Ht Ha (Hin _ Hq)) as (f' & Hf' & Hw).
    rewrite Hf in Hf'. inversion Hf'; subst f'.
    exact (fortran_unread np limit part f Hnp Hwp Hmp Hlp Hd Hw p nd Hread). }
  destruct Hp as [<-|Hp].
  - destruct Hvalues as (f & nd & Hf & Hread). refine (Hno (ValuesPart i ValuesData) _ f nd Hf Hread).
    apply in_or_app. left. left. reflexivity.
  - apply in_map_iff in Hp as ([q g] & Eg & Hg). cbn [snd] in Eg. subst g.
    assert (Hq : In q parameters).
    { assert (Hnames : Permutation names (map path_of (map fst (parts_of t)))) by (rewrite <- (py_save_paths np t a Ha); exact Hperm).
      destruct (parameters_recovered t names Hnames) as (ps & Hps & Hpp). rewrite Hpar in Hps. inversion Hps; subst ps.
      eapply Permutation_in; [apply Permutation_sym; exact Hpp|]. unfold first_parameters.
      destruct (tm_blocks t) as [|b0 rest] eqn:Eb; [destruct Hb|].
      assert (Hb0 : In b0 (b0 :: rest)) by (left; reflexivity).
      eapply Permutation_in; [apply same_names_parameters; [apply Hbs; exact Hb|apply Hbs; exact Hb0|apply Hhom; assumption]|].
      apply in_map_iff. exists (q, part). auto. }
    destruct (Hgradients q Hq) as (f & nd & Hf & Hread). refine (Hno (GradientPart i q GradientData) _ f nd Hf Hread).
    apply in_or_app. right. apply (In_gradients_parts i _ q part); [assumption|]. left. reflexivity.
Qed.

Lemma py_save_loads_iff np limit p t a names :
  follows_format np limit -> wf_tensor t -> tensor_in_memory t -> c_parameters t -> strided_tensor t ->
  py_save np t = Ok a -> Permutation names (map fst a) ->
  ((exists t', load p names a = Ok t') <-> ~ has_fortran_array t).
Proof.
  intros Hnp Ht Hm Hc Hst Ha Hperm. split.
  - intros (t' & Hl) Hf. exact (py_save_fortran np limit p t a names Hnp Ht Hm Hst Ha Hperm Hf t' Hl).
  - intros Hnf. destruct (py_save_loads np limit p t a names Hnp Ht Hm Hc Hst Ha Hperm Hnf) as (t' & Hl & _). eauto.
Qed.

(** * Loaded by numpy *)

Lemma py_holds_reads np limit c f : follows_format np limit -> sound_content c -> filled_content c ->
  (forall h content, npy_format h content f -> length f <= length content + limit) ->
  py_holds np c f -> py_reads np c f.
Proof.
  intros Hnp Hc Hfill Hshort Hf. destruct c as [l|d].
  - destruct Hc as [Hw Hm]. apply (py_labels_read np limit); assumption.
  - destruct Hc as (b & -> & Hb & _ & _ & Hs). apply (py_array_read np limit); assumption.
Qed.

Lemma conforming_names t a : wf_tensor t -> conforming t a -> Permutation (map fst a) (map path_of (map fst (parts_of t))).
Proof.
  intros Ht (Hnd & H1 & H2). apply NoDup_Permutation; [assumption| |].
  - apply NoDup_map_inj; [exact path_of_inj|]. apply parts_of_nodup. assumption.
  - intros path. rewrite map_map. split; intros Hin.
    + apply in_map_iff in Hin as ([k f] & <- & Hin). destruct (H1 k f Hin) as (P & HP).
      apply documented_parts in HP as (q & c & Hq & E & _). apply in_map_iff. exists (q, c). auto.
    + apply in_map_iff in Hin as ([q c] & <- & Hq). destruct (H2 _ _ (parts_documented t q c Hq)) as (f & Hf & _).
      apply in_map_iff. exists (path_of q, f). auto.
Qed.

Lemma names_npy t a : Permutation (map fst a) (map path_of (map fst (parts_of t))) -> named_npy a.
Proof.
  intros H name Hin. apply (Permutation_in _ H) in Hin. apply in_map_iff in Hin as (q & <- & _). apply path_of_npy.
Qed.

Lemma py_load_conforming np limit t a :
  follows_format np limit -> wf_tensor t -> tensor_in_memory t -> c_parameters t -> has_elements t ->
  conforming t a -> short_headers limit a -> labels_stored (np_native np) a ->
  exists t', py_load np a = Ok t' /\ same_tensor t t' /\ wf_tensor t'.
Proof.
  intros Hnp Ht Hm Hc He Ha Hshort Hstored. pose proof (conforming_names t a Ht Ha) as Hnames. apply py_load_found; try assumption.
  split; [apply (names_npy t); assumption|]. intros q c Hin. destruct Ha as (Hnd & _ & H2).
  destruct (H2 _ _ (parts_documented t q c Hin)) as (f & Hf & Hh). exists f. split; [apply conforming_by_name; assumption|].
  pose proof (parts_of_filled t q c Ht He Hin) as Hfill.
  apply (py_holds_reads np limit); try assumption.
  - apply (parts_of_sound t q c Ht Hm Hin).
  - intros h content. exact (Hshort (path_of q) f h content Hf).
  - destruct c as [l|d]; cbn [holds py_holds] in *.
    + destruct Hh as (e & numbers & Hnpy & Hn). exists numbers. 
      destruct (parts_of_sound t q _ Ht Hm Hin) as [Hw Hml].
      rewrite <- (Hstored _ f _ _ e _ Hf Hfill (labels_shape l Hw Hfill Hml) Hnpy). split; assumption.
    + destruct Hh as (e & numbers & Hnpy & Hn). exists e, false, numbers. split; assumption.
Qed.

(* the files written by the library *)
Lemma labels_types_differ e e' names names' : names <> [] ->
  labels_type e names = labels_type e' names' -> e = e'.
Proof.
  unfold labels_type. destruct names as [|n names]; [contradiction|]. destruct names' as [|n' names']; intros _ E; [discriminate E|].
  cbn [map] in E. destruct e, e'; try reflexivity; discriminate E.
Qed.

Lemma saved_labels_stored e t a : wf_tensor t -> tensor_in_memory t -> has_elements t -> save e t = Ok a -> labels_stored e a.
Proof.
  intros Ht Hm He Ha path f shape names e' content Hin Hne Hsh Hf.
  pose proof (save_ok e t a Ha) as Hok. destruct (Forall2_In_r _ _ _ _ Hok Hin) as ([q c] & Hq & _ & Hw). cbn [snd] in Hw.
  pose proof (parts_of_sound t q c Ht Hm Hq) as Hs. pose proof (parts_of_filled t q c Ht He Hq) as Hfill.
  apply npy_format_header in Hf; [|assumption]. symmetry.
  destruct c as [l|d]; cbn [write_content sound_content filled_content] in *.
  - destruct Hs as [Hwl Hml]. apply write_labels_ok in Hw as (_ & head & Hh & ->); [|assumption].
    assert (Hn : npy_format (labels_header e l) (flat_map (encode e 4) (l_values l)) (head ++ flat_map (encode e 4) (l_values l))).
    { apply header_npy_format; [| |assumption].
      - cbn [labels_header h_descriptor]. constructor. apply Forall_map. eapply Forall_impl; [|apply (wf_names_good l Hwl)].
        intros name Hi. constructor. constructor; [apply simple_identifier; assumption|].
        constructor; [|constructor]. apply simple_plain_ascii. destruct e; reflexivity.
      - cbn [labels_header h_shape]. constructor; [lia|constructor]. }
    apply npy_format_header in Hn; [|apply (labels_shape l Hwl Hfill Hml)]. rewrite Hf in Hn.
    assert (E : labels_type e (labels_names l) = labels_type e' names).
    { clear - Hn. unfold labels_type. unfold labels_header in Hn. injection Hn as E _ _. symmetry. f_equal. exact E. }
    apply (labels_types_differ _ _ _ _ Hfill E).
  - exfalso. destruct Hs as (b & -> & Hb & _ & _ & Hst). apply write_data_ok in Hw as (head & Hh & ->).
    assert (Hn : npy_format (data_header e (nd_shape (a_nd (bb_data b)))) (flat_map (encode e 8) (nd_data (a_nd (bb_data b))))
                   (head ++ flat_map (encode e 8) (nd_data (a_nd (bb_data b))))).
    { apply header_npy_format; [| |assumption].
      - apply simple_plain_ascii. destruct e; reflexivity.
      - cbn [data_header h_shape]. apply Forall_map. apply Forall_forall. intros n _. lia. }
    apply npy_format_header in Hn; [|apply storable_usize; assumption]. rewrite Hf in Hn. unfold data_header in Hn. discriminate Hn.
Qed.

Lemma save_has_elements e t a : save e t = Ok a -> has_elements t.
Proof.
  intros Ha b part Hb Hp E. destruct (parts_data t b part Hb Hp) as (q & Hq).
  destruct (Forall2_In_l _ _ _ _ (save_ok e t a Ha) Hq) as (kf & _ & _ & Hw). cbn [snd write_content] in Hw.
  unfold write_data in Hw. destruct (parse_literal _); cbn [expect_some bind] in Hw; [|discriminate Hw].
  apply bind_ok in Hw as (shape & _ & Hw). apply bind_ok in Hw as (head & _ & Hw). apply bind_ok in Hw as (data & Hd & _).
  unfold array_data, call in Hd. rewrite E in Hd. destruct (array_shape _); discriminate Hd.
Qed.

Lemma py_load_saved np limit t a :
  follows_format np limit -> wf_tensor t -> tensor_in_memory t -> c_parameters t ->
  save (np_native np) t = Ok a -> short_headers limit a ->
  exists t', py_load np a = Ok t' /\ same_tensor t t' /\ wf_tensor t'.
Proof.
  intros Hnp Ht Hm Hc Ha Hs. pose proof (save_has_elements _ _ _ Ha) as He.
  apply (py_load_conforming np limit); try assumption.
  - apply (save_conforming (np_native np)); assumption.
  - apply (saved_labels_stored _ t); assumption.
Qed.

(* saved and loaded by numpy *)
Lemma py_load_py_saved np limit t a :
  follows_format np limit -> wf_tensor t -> tensor_in_memory t -> c_parameters t -> strided_tensor t ->
  py_save np t = Ok a -> short_headers limit a ->
  exists t', py_load np a = Ok t' /\ same_tensor t t' /\ wf_tensor t'.
Proof.
  intros Hnp Ht Hm Hc Hst Ha Hs.
  assert (Hnames : Permutation (map fst a) (map path_of (map fst (parts_of t)))).
  { rewrite (py_save_paths np t a Ha). apply Permutation_refl. }
  apply py_load_found; try assumption. split; [apply (names_npy t); assumption|]. intros q c Hin.
  destruct (py_saved_file np t a q c Ht Ha Hin) as (f & Hf & Hw). exists f. split; [assumption|].
  assert (Hfile : In (path_of q, f) a).
  { destruct (Forall2_In_l _ _ _ _ (py_save_ok np t a Ha) Hin) as ([k f'] & Hin' & E & Hw'). cbn [fst snd] in *. subst k.
    rewrite Hw in Hw'. inversion Hw'; subst. assumption. }
  pose proof (parts_of_sound t q c Ht Hm Hin) as Hsound.
  apply (py_holds_reads np limit); try assumption.
  - apply (parts_of_filled t q c Ht); [|assumption]. apply (python_has_elements np). apply (py_save_python np t a Hst Ha).
  - intros h content. exact (Hs (path_of q) f h content Hfile).
  - apply (py_written np limit); assumption.
Qed.
