(* Lemmas about the files read by numpy *)
From Coq Require Import Permutation.
From Verif Require Import Base BaseFacts Layout LayoutFacts Labels Array Block Tensor Npy Io Spec SpecTensor SpecIo
  LabelsFacts ArrayFacts BlockFacts TensorFacts MergeFacts MergePropertiesFacts NpyFacts PathFacts IoFacts SpecFormat FormatFacts
  PyIo SpecPy PyWriteFacts.
Local Open Scope string_scope.
Local Open Scope list_scope.
Local Open Scope nat_scope.

(** * Files *)

(* arrays created when loading *)
Definition py_loaded (np : numpy) (d : eqs_array) : Prop :=
  a_kind d = ForeignArray (np_origin np) /\ answers d OpShape /\ answers d OpOrigin /\ wf_array d.

Definition py_reads (np : numpy) (c : content) (f : bytes) : Prop :=
  match c with
  | FileLabels l => exists l', py_read_labels np f = Ok l' /\ reread l l'
  | FileData d => exists d', py_read_array np f = Ok d' /\ a_nd d' = a_nd d /\ py_loaded np d'
  end.

Lemma int_fields_names e names : int_fields (map (fun name =>
    PyTuple [PyString name; PyString match e with LittleEndian => "<i4" | BigEndian => ">i4" end]) names) = Some names.
Proof.
  induction names as [|n names IH]; [reflexivity|]. cbn [map int_fields]. rewrite IH. destruct e; reflexivity.
Qed.

Lemma take_concat n (numbers : list bytes) : Forall (fun b => length b = n) numbers -> forall m, m = length numbers * n ->
  take_bytes m (concat numbers) = Ok (concat numbers).
Proof.
  intros H m ->. assert (E : length (concat numbers) = length numbers * n).
  { induction H as [|b l Hb _ IH]; [reflexivity|]. cbn [concat length]. rewrite app_length, Hb, IH. lia. }
  unfold take_bytes. rewrite <- E, Nat.leb_refl, firstn_all. reflexivity.
Qed.

Lemma stored_lengths e n numbers zs : Forall2 (stored e n) numbers zs -> Forall (fun b => length b = n) numbers.
Proof. induction 1 as [|b z l r [H _] _ IH]; constructor; assumption. Qed.

Lemma stored_decoded e n numbers zs : Forall2 (stored e n) numbers zs -> map (decode e) numbers = zs.
Proof. induction 1 as [|b z l r H _ IH]; [reflexivity|]. cbn [map]. rewrite IH, (stored_decode _ _ _ _ H). reflexivity. Qed.

Lemma py_labels_read np limit l f : follows_format np limit ->
  wf_labels l -> labels_names l <> [] -> labels_in_memory l ->
  (forall h content, npy_format h content f -> length f <= length content + limit) ->
  py_holds np (FileLabels l) f -> py_reads np (FileLabels l) f.
Proof.
  intros Hnp Hw Hne Hm Hshort (numbers & Hf & Hn). cbn [py_reads]. unfold py_read_labels.
  pose proof (proj1 (wf_labels_is_labels l) Hw) as Hl. destruct Hl as (_ & _ & _ & _ & Ev & _).
  pose proof (ff_read np limit Hnp (mk_header (labels_type (np_native np) (labels_names l)) false [Z.of_nat (length (rows l))])
                _ _ (labels_common (np_native np) l Hw) (labels_shape l Hw Hne Hm) Hf (Hshort _ _ Hf)) as Hread.
  rewrite Hread.
  cbn [h_descriptor h_shape]. unfold labels_type. rewrite int_fields_names.
  pose proof (stored_lengths _ _ _ _ Hn) as H4.
  assert (Hcount : length numbers = length (rows l) * length (labels_names l)).
  { etransitivity; [exact (Forall2_len _ _ _ Hn)|]. rewrite map_length, <- Ev. apply (labels_values_length l Hw). }
  rewrite (take_concat 4); [|assumption|].
  - cbn [bind]. rewrite chunks_exact_concat by (try discriminate; assumption).
    assert (Ed : map (decode_i32 (np_native np)) numbers = l_values l).
    { rewrite <- Ev in Hn. destruct Hm as [Hi _]. clear - Hn Hi. revert numbers Hn. induction (l_values l) as [|z r IH]; intros numbers Hn.
      - inversion Hn; subst. reflexivity.
      - inversion Hn as [|b ? bs ? H Hr]; subst. inversion Hi; subst. cbn [map]. rewrite (IH H3 bs Hr).
        unfold decode_i32. rewrite (stored_decode _ _ _ _ H), to_signed_mod by assumption. reflexivity. }
    rewrite Ed. destruct (labels_rebuilt l Hw Hne) as (l' & Hb & Hr). rewrite Hb. exists l'. split; [reflexivity|exact Hr].
  - unfold array_size. unfold z_prod. cbn [fold_right]. rewrite Hcount. rewrite Z.mul_1_r, Nat2Z.id. lia.
Qed.

Lemma float_type_cases e A (little big other : A) :
  match float_type e with
  | PyString s => if String.eqb s "<f8" then little else if String.eqb s ">f8" then big else other
  | _ => other
  end = match e with LittleEndian => little | BigEndian => big end.
Proof. destruct e; reflexivity. Qed.

Lemma z_prod_shape shape : z_prod (map Z.of_nat shape) = Z.of_nat (prod shape).
Proof. unfold z_prod. induction shape as [|n shape IH]; [reflexivity|]. cbn [map fold_right prod]. rewrite IH. lia. Qed.

Lemma mk_nd_eta nd : mk_nd (nd_shape nd) (nd_data nd) = nd.
Proof. destruct nd; reflexivity. Qed.

Lemma py_answers np nd strides available op : op <> OpData ->
  answers (mk_array (ForeignArray (np_origin np)) nd strides (py_callbacks available)) op.
Proof. intros H o _. left. cbn [a_callbacks]. destruct op; try reflexivity. contradiction. Qed.

Lemma py_array_read np limit b f : follows_format np limit ->
  storable (nd_shape (a_nd (bb_data b))) -> wf_nd (a_nd (bb_data b)) ->
  (forall h content, npy_format h content f -> length f <= length content + limit) ->
  py_holds np (FileData (bb_data b)) f -> py_reads np (FileData (bb_data b)) f.
Proof.
  intros Hnp Hs Hwf Hshort (e & order & numbers & Hf & Hn). cbn [py_reads]. unfold py_read_array.
  set (nd := a_nd (bb_data b)) in *.
  pose proof (ff_read np limit Hnp (mk_header (float_type e) order (map Z.of_nat (nd_shape nd)))
                _ _ (float_common e) (storable_usize _ Hs) Hf (Hshort _ _ Hf)) as Hread.
  rewrite Hread.
  cbn [h_descriptor h_shape h_fortran_order]. rewrite float_type_cases.
  pose proof (stored_lengths _ _ _ _ Hn) as H8.
  assert (Hcount : length numbers = prod (nd_shape nd)).
  { etransitivity; [exact (Forall2_len _ _ _ Hn)|]. destruct order; [|exact Hwf]. rewrite (transposed_wf nd). cbn [transposed nd_tabulate nd_shape].
    apply prod_rev. }
  set (k := fun e' : endianness => _).
  assert (Hk : k e = Ok (mk_array (ForeignArray (np_origin np)) nd
                 (if order then rev (default_strides (rev (nd_shape nd))) else default_strides (nd_shape nd))
                 (py_callbacks (c_contiguous (mk_py_array nd (if order then rev (default_strides (rev (nd_shape nd))) else default_strides (nd_shape nd)))
                                && endianness_eqb e (np_native np))))).
  { unfold k. rewrite (take_concat 8) by (assumption || (unfold array_size; rewrite z_prod_shape, Nat2Z.id, Hcount; reflexivity)).
    cbn [bind]. rewrite chunks_exact_concat by (try discriminate; assumption). rewrite (stored_decoded _ _ _ _ Hn).
    rewrite map_map, (map_ext (fun x => Z.to_nat (Z.of_nat x)) (fun x => x)), map_id by (intros; apply Nat2Z.id).
    destruct order.
    - change (mk_nd (rev (nd_shape nd)) (nd_data (transposed nd))) with (transposed nd). rewrite (transposed_transposed nd Hwf). reflexivity.
    - rewrite mk_nd_eta. reflexivity. }
  replace (bind _ k) with (k e) by (destruct e; reflexivity). rewrite Hk. eexists. split; [reflexivity|]. split; [reflexivity|].
  split; [reflexivity|]. split; [apply py_answers; discriminate|]. split; [apply py_answers; discriminate|].
  split; [|intros E; discriminate E]. intros _. exact Hwf.
Qed.

(** * Archives *)

Definition py_found_labels (np : numpy) (a : archive) (key : string) (l : Labels) : Prop :=
  exists l', (let? f := npz_get a key in py_read_labels np f) = Ok l' /\ reread l l'.
Definition py_found_data (np : numpy) (a : archive) (key : string) (d : eqs_array) : Prop :=
  exists d', (let? f := npz_get a key in py_read_array np f) = Ok d' /\ a_nd d' = a_nd d /\ py_loaded np d'.

Definition named_npy (a : archive) : Prop := forall name, In name (map fst a) -> exists r, name = r +++ ".npy".

Lemma npz_get_file a key : named_npy a -> (forall r, key <> r +++ ".npy") -> npz_get a key = by_name a (key +++ ".npy").
Proof.
  intros Hn Hk. unfold npz_get. destruct (existsb (String.eqb key) (map fst a)) eqn:E; [|reflexivity]. exfalso.
  apply existsb_exists in E as (name & Hin & E). apply String.eqb_eq in E. subst name. destruct (Hn key Hin) as (r & Er).
  exact (Hk r Er).
Qed.

Lemma other_end s m c : bytes_of s = m ++ [c] -> c <> "y"%char -> forall r, s <> r +++ ".npy".
Proof.
  intros Hs Hc r E. apply (f_equal bytes_of) in E. rewrite bytes_of_app, Hs in E.
  change (bytes_of ".npy") with (bytes_of ".np" ++ ["y"%char]) in E. rewrite app_assoc in E. apply app_inj_tail in E as [_ E]. contradiction.
Qed.

Lemma component_key_end prefix j r : prefix +++ "/components/" +++ string_of_nat j <> r +++ ".npy".
Proof.
  destruct (string_of_nat_last j) as (m & c & E & Hc).
  apply (other_end _ (bytes_of prefix ++ bytes_of "/components/" ++ m) c).
  - rewrite !bytes_of_app, E, <- !app_assoc. reflexivity.
  - intros ->. discriminate Hc.
Qed.

Lemma path_of_npy p : exists r, path_of p = r +++ ".npy".
Proof.
  destruct p as [|i p|i q p]; cbn [path_of].
  - exists "keys". reflexivity.
  - destruct p; cbn [values_name].
    + exists (values_directory i +++ "/data"). rewrite append_assoc. reflexivity.
    + exists (values_directory i +++ "/samples"). rewrite append_assoc. reflexivity.
    + exists (values_directory i +++ "/components/" +++ string_of_nat i0). rewrite !append_assoc. reflexivity.
    + exists (values_directory i +++ "/properties"). rewrite append_assoc. reflexivity.
  - destruct p; cbn [gradient_name].
    + exists (gradient_directory i q +++ "/data"). rewrite append_assoc. reflexivity.
    + exists (gradient_directory i q +++ "/samples"). rewrite append_assoc. reflexivity.
    + exists (gradient_directory i q +++ "/components/" +++ string_of_nat i0). rewrite !append_assoc. reflexivity.
Qed.

(* the parts of a tensor map are found in the archive, and can be read *)
Definition py_found (np : numpy) (t : TensorMap) (a : archive) : Prop :=
  named_npy a /\ forall q c, In (q, c) (parts_of t) -> exists f, by_name a (path_of q) = Ok f /\ py_reads np c f.

Record py_found_block (np : numpy) (a : archive) (i : nat) (b : TensorBlock) : Prop := {
  pf_data : py_found_data np a (values_directory i +++ "/data") (bb_data (tb_values b));
  pf_samples : py_found_labels np a (values_directory i +++ "/samples") (bb_samples (tb_values b));
  pf_components : forall j c, nth_error (bb_components (tb_values b)) j = Some c ->
    py_found_labels np a (values_directory i +++ "/components/" +++ string_of_nat j) c;
  pf_properties : py_found_labels np a (values_directory i +++ "/properties") (bb_properties (tb_values b));
  pf_gradient_data : forall q g, In (q, g) (tb_gradients b) ->
    py_found_data np a (gradient_directory i q +++ "/data") (bb_data g);
  pf_gradient_samples : forall q g, In (q, g) (tb_gradients b) ->
    py_found_labels np a (gradient_directory i q +++ "/samples") (bb_samples g);
  pf_gradient_components : forall q g, In (q, g) (tb_gradients b) ->
    forall j c, nth_error (bb_components g) j = Some c ->
    py_found_labels np a (gradient_directory i q +++ "/components/" +++ string_of_nat j) c }.

Lemma py_found_parts_block np t a i b :
  py_found np t a -> nth_error (tm_blocks t) i = Some b -> py_found_block np a i b.
Proof.
  intros [Hn Ha] Hb.
  assert (Hl : forall p l key, In (p, FileLabels l) (block_parts i b) -> path_of p = key +++ ".npy" -> (forall r, key <> r +++ ".npy") ->
               py_found_labels np a key l).
  { intros p l key H E Hk. destruct (Ha p (FileLabels l)) as (f & Hf & l' & Hr & Hl').
    - right. apply (In_blocks_parts (tm_blocks t) i b); [assumption|]. exact H.
    - exists l'. rewrite (npz_get_file a key Hn Hk), <- E, Hf. auto. }
  assert (Hd : forall p d key, In (p, FileData d) (block_parts i b) -> path_of p = key +++ ".npy" -> (forall r, key <> r +++ ".npy") ->
               py_found_data np a key d).
  { intros p d key H E Hk. destruct (Ha p (FileData d)) as (f & Hf & d' & Hr & Hd').
    - right. apply (In_blocks_parts (tm_blocks t) i b); [assumption|]. exact H.
    - exists d'. rewrite (npz_get_file a key Hn Hk), <- E, Hf. auto. }
  assert (Hv : forall x, In x (values_parts i (tb_values b)) -> In x (block_parts i b)) by (intros x H; apply in_or_app; auto).
  assert (Hg : forall q g x, In (q, g) (tb_gradients b) -> In x (gradient_parts i q g) -> In x (block_parts i b)).
  { intros q g x H H'. apply in_or_app. right. eapply In_gradients_parts; eassumption. }
  assert (Ed : forall s r, s +++ "/data" <> r +++ ".npy").
  { intros s. apply (other_end _ (bytes_of s ++ bytes_of "/dat") "a"%char); [|discriminate]. rewrite bytes_of_app, <- app_assoc. reflexivity. }
  assert (Es : forall s r, s +++ "/samples" <> r +++ ".npy").
  { intros s. apply (other_end _ (bytes_of s ++ bytes_of "/sample") "s"%char); [|discriminate]. rewrite bytes_of_app, <- app_assoc. reflexivity. }
  assert (Ep : forall s r, s +++ "/properties" <> r +++ ".npy").
  { intros s. apply (other_end _ (bytes_of s ++ bytes_of "/propertie") "s"%char); [|discriminate]. rewrite bytes_of_app, <- app_assoc. reflexivity. }
  constructor.
  - apply (Hd (ValuesPart i ValuesData)); [apply Hv; left; reflexivity|cbn [path_of values_name]; rewrite append_assoc; reflexivity|apply Ed].
  - apply (Hl (ValuesPart i ValuesSamples)); [apply Hv; right; left; reflexivity|cbn [path_of values_name]; rewrite append_assoc; reflexivity|apply Es].
  - intros j c Hj. apply (Hl (ValuesPart i (ValuesComponent j))).
    + apply Hv. right. right. apply in_or_app. left.
      apply (In_components_parts (fun j => ValuesPart i (ValuesComponent j)) _ j c 0 Hj).
    + cbn [path_of values_name]. rewrite !append_assoc. reflexivity.
    + intros r. apply component_key_end.
  - apply (Hl (ValuesPart i ValuesProperties)).
    + apply Hv. right. right. apply in_or_app. right. left. reflexivity.
    + cbn [path_of values_name]. rewrite append_assoc. reflexivity.
    + apply Ep.
  - intros q g H. apply (Hd (GradientPart i q GradientData)).
    + apply (Hg q g _ H). left. reflexivity.
    + cbn [path_of gradient_name]. rewrite append_assoc. reflexivity.
    + apply Ed.
  - intros q g H. apply (Hl (GradientPart i q GradientSamples)).
    + apply (Hg q g _ H). right. left. reflexivity.
    + cbn [path_of gradient_name]. rewrite append_assoc. reflexivity.
    + apply Es.
  - intros q g H j c Hj. apply (Hl (GradientPart i q (GradientComponent j))).
    + apply (Hg q g _ H). right. right. apply (In_components_parts (fun j => GradientPart i q (GradientComponent j)) _ j c 0 Hj).
    + cbn [path_of gradient_name]. rewrite !append_assoc. reflexivity.
    + intros r. apply component_key_end.
Qed.

Lemma py_components_reread np a directory components shape :
  length shape = length components + 2 ->
  (forall j c, nth_error components j = Some c -> py_found_labels np a (directory +++ "/components/" +++ string_of_nat j) c) ->
  exists components', py_read_components np a directory shape = Ok components' /\ Forall2 reread components components'.
Proof.
  intros Hl Hf. unfold py_read_components. replace (length shape - 2) with (length components) by lia.
  apply mapM_exists. eapply Forall2_impl; [|apply seq_Forall2]. intros j c Hj. cbn beta. apply Hf. assumption.
Qed.

(** ** Gradients *)

Lemma py_load_gradient_ok np a i block q g values :
  wf_basic values -> wf_basic g -> compatible_gradient values g ->
  q <> "values" -> ~ In q (map fst (tb_gradients block)) -> has_nul q = false ->
  wf_basic (tb_values block) -> py_loaded np (bb_data (tb_values block)) ->
  reread (bb_properties values) (bb_properties (tb_values block)) ->
  Forall2 reread (bb_components values) (bb_components (tb_values block)) ->
  py_found_data np a (gradient_directory i q +++ "/data") (bb_data g) ->
  py_found_labels np a (gradient_directory i q +++ "/samples") (bb_samples g) ->
  (forall j c, nth_error (bb_components g) j = Some c ->
     py_found_labels np a (gradient_directory i q +++ "/components/" +++ string_of_nat j) c) ->
  exists g', py_load_gradient np a i block q
      = Ok (mk_block (tb_values block) (tb_gradients block ++ [(q, g')]) (tb_gradient_parameters block ++ [q]))
    /\ loaded_gradient (tb_values block) g g'.
Proof.
  intros Hv Hg Hcg Hqv Hq Hnul Hbv (Hvk & _ & Hvo & _) Hprops Hcomps (d' & Hd & End & Hkd & Hds & Hdo & Hwa) (s' & Hs' & Hrs) Hfc.
  unfold py_load_gradient. fold (gradient_directory i q).
  rewrite (bind_step _ _ _ _ Hd). rewrite (bind_step _ _ _ _ Hs').
  destruct (py_components_reread np a (gradient_directory i q) (bb_components g) (nd_shape (a_nd (bb_data g))) (wf_basic_rank g Hg) Hfc)
    as (c' & Hc' & Hrc).
  rewrite End, Hc'. cbn [bind].
  destruct Hcg as ((others & Ho) & Hend & Ep & Ek).
  assert (Hrp : reread (bb_properties g) (bb_properties (tb_values block))) by (rewrite Ep; exact Hprops).
  assert (Hsh : shapes_agree d' s' c' (bb_properties (tb_values block))).
  { apply (reread_shapes g (a_nd d')); auto. rewrite End. reflexivity. }
  destruct (reread_components _ _ Hrc) as (_ & Hwc' & _ & _).
  destruct (wf_basic_labels _ Hbv) as (_ & _ & Hwp').
  set (g' := mk_basic d' s' c' (bb_properties (tb_values block))).
  assert (Hcompat : compatible_gradient (tb_values block) g').
  { split; [|split; [|split]].
    - exists others. destruct Hrs as [[En _] _]. change (labels_names (bb_samples g) = labels_names s') in En.
      cbn. rewrite <- En. assumption.
    - apply (reread_suffix (bb_components g) (bb_components values)); auto.
    - reflexivity.
    - cbn. rewrite Hkd, Hvk. reflexivity. }
  assert (Hadd : tensor_block_add_gradient block q d' s' c'
                 = (mk_block (tb_values block) (tb_gradients block ++ [(q, g')]) (tb_gradient_parameters block ++ [q]), Ok tt)).
  { apply add_gradient_ok; auto.
    - apply Hrs.
    - split; [|reflexivity]. split; [assumption|]. split; [assumption|]. split; assumption. }
  exists g'. split.
  - rewrite Hadd. reflexivity.
  - split; [|split; [|assumption]].
    + apply (reread_basic g (a_nd d') s' c' (bb_properties (tb_values block))); auto. rewrite End. symmetry. apply mk_nd_eta.
    + apply shapes_agree_wf_basic; auto. apply Hrs.
Qed.

Lemma py_load_gradients_ok np a i b values' :
  wf_block b ->
  (forall q g, In (q, g) (tb_gradients b) -> has_nul q = false) ->
  py_found_block np a i b ->
  wf_basic values' -> py_loaded np (bb_data values') ->
  reread (bb_properties (tb_values b)) (bb_properties values') ->
  Forall2 reread (bb_components (tb_values b)) (bb_components values') ->
  forall parameters block,
  tb_values block = values' ->
  (forall q, In q parameters -> In q (map fst (tb_gradients b))) ->
  NoDup (map fst (tb_gradients block) ++ parameters) ->
  Forall (loaded_from b values') (tb_gradients block) ->
  exists block', foldM (py_load_gradient np a i) parameters block = Ok block'
    /\ tb_values block' = values'
    /\ map fst (tb_gradients block') = map fst (tb_gradients block) ++ parameters
    /\ tb_gradient_parameters block' = tb_gradient_parameters block ++ parameters
    /\ Forall (loaded_from b values') (tb_gradients block').
Proof.
  intros (Hv & Hgs & Hnd & _ & Hval) Hnul Hf Hv' Hnd' Hprops Hcomps.
  induction parameters as [|q parameters IH]; intros block Eb Hin Hdup Hall.
  - exists block. rewrite !app_nil_r. auto.
  - assert (Hq : In q (map fst (tb_gradients b))) by (apply Hin; left; reflexivity).
    apply in_map_iff in Hq as ([q0 g] & E & Hg). cbn [fst] in E. subst q0.
    rewrite Forall_forall in Hgs. destruct (Hgs _ Hg) as [Hwg Hcg]. cbn [snd] in *.
    destruct (py_load_gradient_ok np a i block q g (tb_values b)) as (g' & Hl & Hg'); auto.
    + intros ->. apply Hval. apply in_map_iff. exists ("values", g). auto.
    + intros Hin'. apply NoDup_app_disjoint with (x := q) in Hdup; [|assumption]. apply Hdup. left. reflexivity.
    + eapply Hnul. eassumption.
    + rewrite Eb. assumption.
    + rewrite Eb. assumption.
    + rewrite Eb. assumption.
    + rewrite Eb. assumption.
    + apply (pf_gradient_data _ _ _ _ Hf). assumption.
    + apply (pf_gradient_samples _ _ _ _ Hf). assumption.
    + apply (pf_gradient_components _ _ _ _ Hf). assumption.
    + rewrite Eb in *. cbn [foldM]. rewrite Hl. cbn [bind].
      destruct (IH (mk_block values' (tb_gradients block ++ [(q, g')]) (tb_gradient_parameters block ++ [q])))
        as (block' & H1 & H2 & H3 & H4 & H5).
      * reflexivity.
      * intros x Hx. apply Hin. right. assumption.
      * cbn. rewrite map_app. cbn [map fst]. rewrite <- app_assoc. exact Hdup.
      * cbn. apply Forall_app. split; [assumption|]. constructor; [|constructor]. exists g. split; assumption.
      * exists block'. split; [assumption|]. split; [assumption|]. cbn in H3, H4.
        rewrite H3, H4, map_app, <- !app_assoc. cbn [map fst app]. auto.
Qed.

Lemma py_load_block_ok np a i b parameters :
  wf_block b ->
  (forall q g, In (q, g) (tb_gradients b) -> has_nul q = false) ->
  py_found_block np a i b ->
  Permutation parameters (map fst (tb_gradients b)) ->
  exists b', py_load_block np a parameters i = Ok b' /\ same_block b b' /\ wf_block b'.
Proof.
  intros Hb Hnul Hf Hperm. destruct (Hb) as (Hv & Hgs & Hnd & Hps & Hval).
  unfold py_load_block. fold (values_directory i).
  destruct (pf_data _ _ _ _ Hf) as (d' & Hd & End & Hloaded). rewrite (bind_step _ _ _ _ Hd).
  destruct (pf_samples _ _ _ _ Hf) as (s' & Hs' & Hrs). rewrite (bind_step _ _ _ _ Hs').
  destruct (py_components_reread np a (values_directory i) _ _ (wf_basic_rank _ Hv) (pf_components _ _ _ _ Hf))
    as (c' & Hc' & Hrc).
  rewrite End, Hc'. cbn [bind].
  destruct (pf_properties _ _ _ _ Hf) as (p' & Hp' & Hrp). rewrite (bind_step _ _ _ _ Hp').
  destruct (reread_components _ _ Hrc) as (_ & Hwc' & _ & _).
  assert (Hsh : shapes_agree d' s' c' p').
  { apply (reread_shapes (tb_values b) (a_nd d')); auto. rewrite End. reflexivity. }
  destruct (Hloaded) as (Hkd & Hds & Hdo & Hwa).
  rewrite (proj2 (tensor_block_new_ok d' s' c' p' _ (proj2 Hrs) Hwc' (proj2 Hrp) Hds) (conj Hsh eq_refl)).
  cbn [bind caught].
  set (values' := mk_basic d' s' c' p').
  assert (Hv' : wf_basic values') by (apply shapes_agree_wf_basic; auto; [apply Hrs|apply Hrp]).
  destruct (py_load_gradients_ok np a i b values' Hb Hnul Hf Hv' Hloaded Hrp Hrc parameters (mk_block values' [] []))
    as (b' & H1 & H2 & H3 & H4 & H5).
  - reflexivity.
  - intros q Hq. exact (Permutation_in _ Hperm Hq).
  - cbn. eapply Permutation_NoDup; [apply Permutation_sym; exact Hperm|assumption].
  - constructor.
  - cbn in H3, H4. exists b'. split; [exact H1|].
    assert (Hnd' : NoDup parameters) by (eapply Permutation_NoDup; [apply Permutation_sym; exact Hperm|assumption]).
    rewrite Forall_forall in H5. split.
    + split.
      { rewrite H2. apply (reread_basic (tb_values b) (a_nd d') s' c' p'); auto. rewrite End. symmetry. apply mk_nd_eta. }
      split; [|split].
      * rewrite <- (map_length fst (tb_gradients b')), H3, (Permutation_length Hperm), map_length. reflexivity.
      * intros q g Hg. assert (Hq : In q parameters).
        { eapply Permutation_in; [apply Permutation_sym; exact Hperm|]. apply in_map_iff. exists (q, g). auto. }
        rewrite <- H3 in Hq. apply in_map_iff in Hq as ([q0 g'] & E & Hg'). cbn [fst] in E. subst q0.
        exists g'. split; [assumption|]. destruct (H5 _ Hg') as (g0 & Hg0 & Hs & _). cbn [fst snd] in *.
        rewrite (NoDup_fst_functional _ _ _ _ Hnd Hg Hg0). assumption.
      * intros q g' Hg'. destruct (H5 _ Hg') as (g & Hg & (Hs & _)). cbn [fst snd] in *. exists g. split; [assumption|].
        destruct Hs as (Hl & E1 & E2). split; [apply Forall2_same_sym; exact Hl|]. split; congruence.
    + split; [rewrite H2; assumption|]. split; [|split; [|split]].
      * apply Forall_forall. intros [q g'] Hg'. destruct (H5 _ Hg') as (g & _ & _ & Hw & Hc). rewrite H2. split; assumption.
      * rewrite H3. assumption.
      * rewrite H4, H3. apply Permutation_refl.
      * rewrite H3. intros Hin. apply Hval. exact (Permutation_in _ Hperm Hin).
Qed.

(** ** Tensor maps *)

Lemma npz_key_npy r : npz_key (r +++ ".npy") = r.
Proof.
  unfold npz_key. rewrite (proj2 (has_suffix_spec ".npy" (r +++ ".npy"))) by eauto. rewrite append_length.
  change (String.length ".npy") with 4. replace (String.length r + 4 - 4) with (String.length r) by lia. apply substring_prefix.
Qed.

Lemma py_parameters_saved ps :
  flat_map (fun name =>
    if has_prefix "blocks/0/gradients/" name && has_suffix "/data" name
    then [substring 19 (String.length name - 5 - 19) name] else []) (map npz_key (map path_of ps))
  = flat_map parameter_of ps.
Proof.
  induction ps as [|p ps IH]; [reflexivity|]. cbn [map flat_map]. rewrite IH. f_equal. clear IH.
  destruct (path_of_npy p) as (r & Er). rewrite Er, npz_key_npy.
  destruct (has_prefix "blocks/0/gradients/" r && has_suffix "/data" r) eqn:E.
  - apply andb_true_iff in E as [E1 E2]. pose proof (recognized p) as Hrec. rewrite Er in Hrec.
    destruct Hrec as (q & ->).
    { apply andb_true_iff. split.
      - apply has_prefix_spec in E1 as (s & ->). apply has_prefix_spec. exists (s +++ ".npy"). apply append_assoc.
      - apply has_suffix_spec in E2 as (s & ->). apply has_suffix_spec. exists s. rewrite append_assoc. reflexivity. }
    cbn [parameter_of]. f_equal.
    assert (E : r = "blocks/0/gradients/" +++ (q +++ "/data")).
    { apply (append_inv_tail ".npy"). rewrite <- Er. cbn [path_of gradient_name]. unfold gradient_directory. rewrite !append_assoc. reflexivity. }
    rewrite E. rewrite append_length, append_length. change (String.length "blocks/0/gradients/") with 19.
    change (String.length "/data") with 5. replace (19 + (String.length q + 5) - 5 - 19) with (String.length q) by lia.
    change 19 with (String.length "blocks/0/gradients/"). clear. generalize "blocks/0/gradients/". intros s.
    induction s as [|c s IH]; [exact (substring_prefix q "/data")|]. exact IH.
  - destruct p as [|i p|[|i] q [| |j]]; try reflexivity. exfalso.
    assert (E' : r = "blocks/0/gradients/" +++ (q +++ "/data")).
    { apply (append_inv_tail ".npy"). rewrite <- Er. cbn [path_of gradient_name]. unfold gradient_directory. rewrite !append_assoc. reflexivity. }
    apply not_true_iff_false in E. apply E. apply andb_true_iff. split.
    + apply has_prefix_spec. exists (q +++ "/data"). assumption.
    + apply has_suffix_spec. exists ("blocks/0/gradients/" +++ q). rewrite E', append_assoc. reflexivity.
Qed.

Lemma py_parameters_recovered t a :
  Permutation (map fst a) (map path_of (map fst (parts_of t))) ->
  Permutation (py_gradient_parameters a) (first_parameters t).
Proof.
  intros H. unfold py_gradient_parameters. rewrite <- (parts_of_parameters t), <- py_parameters_saved.
  rewrite <- (map_map fst npz_key). apply Permutation_flat_map, Permutation_map. assumption.
Qed.

Lemma py_load_found np t a :
  wf_tensor t -> c_parameters t -> py_found np t a ->
  Permutation (map fst a) (map path_of (map fst (parts_of t))) ->
  exists t', py_load np a = Ok t' /\ same_tensor t t' /\ wf_tensor t'.
Proof.
  intros Ht Hc Ha Hperm. destruct (Ht) as ([Hk Hkn] & Hbs & Hcount & Hhom).
  unfold py_load.
  destruct (proj2 Ha KeysPart (FileLabels (tm_keys t)) (or_introl eq_refl)) as (f & Hf & keys' & Hr & [En Er] & Hk').
  rewrite (npz_get_file a "keys" (proj1 Ha)).
  2:{ apply (other_end _ (bytes_of "key") "s"%char); [reflexivity|discriminate]. }
  change ("keys" +++ ".npy") with (path_of KeysPart). rewrite Hf. cbn [bind]. rewrite Hr. cbn [bind].
  pose proof (py_parameters_recovered t a Hperm) as Hpp. set (parameters := py_gradient_parameters a) in *.
  assert (Hkn' : labels_names keys' <> []).
  { change (labels_names (tm_keys t) = labels_names keys') in En. rewrite <- En. assumption. }
  rewrite (proj2 (labels_iter_ok keys' _ Hk') (conj Hkn' eq_refl)). cbn [bind]. rewrite <- Er, <- Hcount.
  destruct (mapM_exists (py_load_block np a parameters) (fun b b' => same_block b b' /\ wf_block b')
              (seq 0 (length (tm_blocks t))) (tm_blocks t)) as (blocks' & Hbl & Hsame).
  { eapply Forall2_impl; [|apply seq_Forall2]. intros i b Hi. cbn beta.
    pose proof (nth_error_In _ _ Hi) as Hin. rewrite Forall_forall in Hbs.
    apply (py_load_block_ok np a i b parameters).
    - apply Hbs. assumption.
    - intros q g Hg. apply has_nul_not_in. apply (Hc b q g Hin Hg).
    - apply (py_found_parts_block np t a i b Ha Hi).
    - eapply Permutation_trans; [exact Hpp|]. unfold first_parameters.
      destruct (tm_blocks t) as [|b0 rest] eqn:Eb; [destruct Hin|].
      assert (Hin0 : In b0 (b0 :: rest)) by (left; reflexivity).
      apply same_names_parameters; [apply Hbs; assumption|apply Hbs; assumption|]. apply Hhom; assumption. }
  rewrite Hbl. cbn [bind].
  assert (Hwf' : Forall wf_block blocks').
  { apply Forall_forall. intros b' Hb'. destruct (Forall2_In_r _ _ _ _ Hsame Hb') as (b & _ & _ & H). assumption. }
  assert (Hsame' : Forall2 same_block (tm_blocks t) blocks').
  { eapply Forall2_impl; [|exact Hsame]. intros b b' [H _]. assumption. }
  assert (Hhom' : homogeneous keys' blocks').
  { split.
    - rewrite <- (Forall2_len _ _ _ Hsame'), Hcount, Er. reflexivity.
    - intros b1' b2' H1 H2.
      destruct (Forall2_In_r _ _ _ _ Hsame' H1) as (b1 & Hb1 & S1). destruct (Forall2_In_r _ _ _ _ Hsame' H2) as (b2 & Hb2 & S2).
      apply same_names_trans with b1; [apply same_names_sym, same_block_names; assumption|].
      apply same_names_trans with b2; [apply Hhom; assumption|apply same_block_names; assumption]. }
  exists (mk_tensor keys' blocks'). split; [|split].
  - rewrite (proj2 (tensor_map_new_ok keys' blocks' _ (conj Hk' Hkn') Hwf') (conj Hhom' eq_refl)). reflexivity.
  - split; [split; assumption|assumption].
  - split; [split; assumption|]. split; assumption.
Qed.
