(* How the C functions report errors *)
From Verif Require Import Base BaseFacts Labels Array Block Tensor Npy Io Origin CApi Spec SpecTensor SpecIo SpecApi
  LabelsFacts ArrayFacts BlockFacts TensorFacts KeysFacts MergeFacts GroupFacts NpyFacts IoFacts LoadFacts QuietFacts ApiFacts.
Local Open Scope string_scope.
Local Open Scope list_scope.
Local Open Scope nat_scope.

(** * No error has the code of a success *)

Definition coded {A} (o : outcome A) : Prop := forall e, o = Err e -> error_code e <> 0%Z.

Lemma coded_bind {A B} (o : outcome A) (f : A -> outcome B) :
  coded o -> (forall a, o = Ok a -> coded (f a)) -> coded (bind o f).
Proof.
  intros Ho Hf. destruct o as [a|e|m|r]; cbn [bind]; auto; intros e' E; try discriminate E.
  injection E as <-. apply Ho. reflexivity.
Qed.

Lemma coded_quiet {A} (o : outcome A) : quiet o -> coded o.
Proof. intros H e ->. apply H. Qed.

Lemma coded_mapM {A B} (f : A -> outcome B) l : (forall x, In x l -> coded (f x)) -> coded (mapM f l).
Proof.
  induction l as [|x l IH]; intros H; cbn [mapM]; [intros e E; discriminate E|].
  apply coded_bind; [apply H; left; reflexivity|]. intros y _.
  apply coded_bind; [apply IH; intros; apply H; right; assumption|]. intros ys _ e E. discriminate E.
Qed.

Lemma coded_foldM {A S} (f : S -> A -> outcome S) l : (forall s x, coded (f s x)) -> forall s, coded (foldM f l s).
Proof.
  intros H. induction l as [|x l IH]; intros s; cbn [foldM]; [intros e E; discriminate E|].
  apply coded_bind; [apply H|]. intros. apply IH.
Qed.

Ltac coded_step :=
  match goal with
  | |- coded (Ok _) => intros ? ?; discriminate
  | |- coded (Panic _) => intros ? ?; discriminate
  | |- coded (Undefined _) => intros ? ?; discriminate
  | |- coded (Err (External _ _)) => fail
  | |- coded (Err _) => let E := fresh in intros ? E; injection E as <-; discriminate
  | |- coded (bind _ _) => apply coded_bind; [|intros]
  | |- coded (mapM _ _) => apply coded_mapM; intros
  | |- coded (labels_count _) => apply coded_quiet; quiet_tac
  | |- coded (expect_some _ _) => apply coded_quiet; quiet_tac
  | |- coded (read_exact _ _) => unfold read_exact, end_of_file
  | |- coded (mul_usize _ _ _) => unfold mul_usize
  | |- coded (vec_zeros _ _) => unfold vec_zeros
  | H : coded ?o |- coded ?o => exact H
  | |- coded (if ?c then _ else _) => destruct c
  | |- coded (match ?c with _ => _ end) => destruct c
  end.
Ltac coded_tac := repeat coded_step.

Lemma coded_labels_build names rs : coded (labels_build names rs).
Proof.
  destruct (labels_build_cases names rs) as [[l H]|[m H]]; rewrite H; coded_tac.
Qed.

Lemma coded_header_fields entries : forall d f s, coded (header_fields entries d f s).
Proof.
  induction entries as [|[k v] entries IH]; intros d f s; cbn [header_fields]; [coded_tac|].
  unfold illegal_value. coded_tac; apply IH.
Qed.

Lemma coded_header reader : coded (header_from_reader reader).
Proof.
  unfold header_from_reader, version_of_bytes, read_header_len, parse_header, header_of_py_value.
  coded_step; [coded_tac|]. destruct a as [magic r1]. destruct (negb _); [coded_tac|].
  coded_step; [coded_tac|]. destruct a as [number r2].
  coded_step; [coded_tac|]. coded_step; [coded_tac|]. destruct a0 as [len r3]. coded_step; [coded_tac|]. destruct a0 as [buffer r4].
  coded_step; [|coded_tac].
  coded_tac. apply coded_header_fields.
Qed.

Lemma coded_read_data p reader : coded (read_data p reader).
Proof.
  unfold read_data, shape_size, read_elements, check_for_extra_bytes, from_shape_vec. cbv zeta.
  coded_step; [apply coded_header|]. destruct a as [h r]. destruct (h_fortran_order h); [coded_tac|].
  coded_step; [apply coded_foldM; intros; coded_tac|]. coded_tac.
Qed.

Lemma coded_check_fields fields : forall names e, coded (check_fields fields names e).
Proof.
  induction fields as [|f fields IH]; intros names e; cbn [check_fields]; [coded_tac|].
  unfold invalid_dtype. cbv zeta. coded_tac; apply IH.
Qed.

Lemma coded_read_labels p reader : coded (read_labels p reader).
Proof.
  unfold read_labels, check_type_descriptor, read_elements, check_for_extra_bytes, invalid_dtype.
  coded_step; [apply coded_header|]. destruct a as [h r]. destruct (h_fortran_order h); [coded_tac|].
  destruct (h_shape h) as [|n [|? ?]]; [coded_tac| |coded_tac]. coded_step.
  - destruct (h_descriptor h); coded_tac. apply coded_check_fields.
  - destruct a as [names e]. coded_tac. apply coded_labels_build.
Qed.

Lemma coded_by_name a path : coded (by_name a path).
Proof. unfold by_name. coded_tac. Qed.

Lemma coded_gradient_parameters names : coded (gradient_parameters names).
Proof. induction names as [|n names IH]; cbn [gradient_parameters]; coded_tac. Qed.

Lemma coded_read_components p a d shape : coded (read_components p a d shape).
Proof.
  unfold read_components. coded_step; [coded_tac|]. apply coded_mapM. intros i _.
  coded_step; [apply coded_by_name|]. apply coded_read_labels.
Qed.

(* the checks on blocks only fail with InvalidParameter, or as the arrays do *)
Lemma coded_block_new d s cs p : coded (tensor_block_new d s cs p).
Proof.
  unfold tensor_block_new, basic_block_new, check_data_and_labels. cbv zeta.
  assert (H1 : forall c shape cs d, coded (check_component_shapes c shape d cs)).
  { clear. intros c shape cs. induction cs as [|x cs IH]; intros d; cbn [check_component_shapes]; [coded_tac|].
    coded_step; [apply coded_quiet; quiet_tac|]. coded_step; [coded_tac|]. destruct (negb _); [coded_tac|]. apply IH. }
  assert (H2 : forall cs i, coded (check_component_labels_from i cs)).
  { clear. induction cs as [|x cs IH]; intros i; cbn [check_component_labels_from]; coded_tac. apply IH. }
  coded_step; [|coded_tac]. coded_step; [|coded_step; [apply H2|coded_tac]].
  coded_step; [apply coded_quiet; quiet_tac|]. destruct (negb _); [coded_tac|].
  coded_step; [apply coded_quiet; quiet_tac|]. coded_step; [coded_tac|]. destruct (negb _); [coded_tac|].
  destruct (negb _); [coded_tac|]. coded_step; [apply H1|]. coded_step; [apply coded_quiet; quiet_tac|]. coded_tac.
Qed.

Lemma coded_check_gradient b q d s cs : coded (check_gradient b q d s cs).
Proof.
  unfold check_gradient, check_component_labels, check_data_and_labels. cbv zeta.
  assert (H1 : forall c shape cs d, coded (check_component_shapes c shape d cs)).
  { clear. intros c shape cs. induction cs as [|x cs IH]; intros d; cbn [check_component_shapes]; [coded_tac|].
    coded_step; [apply coded_quiet; quiet_tac|]. coded_step; [coded_tac|]. destruct (negb _); [coded_tac|]. apply IH. }
  assert (H2 : forall cs i, coded (check_component_labels_from i cs)).
  { clear. induction cs as [|x cs IH]; intros i; cbn [check_component_labels_from]; coded_tac. apply IH. }
  assert (H3 : forall gs vs i, coded (check_gradient_components i gs vs)).
  { clear. induction gs as [|x gs IH]; intros [|v vs] i; cbn [check_gradient_components]; coded_tac. apply IH. }
  destruct (hm_contains _ _ _); [coded_tac|]. coded_step; [apply coded_quiet; quiet_tac|].
  coded_step; [apply coded_quiet; quiet_tac|]. destruct (negb _); [coded_tac|]. destruct (String.eqb q _); [coded_tac|].
  destruct (_ || _)%bool; [coded_tac|]. coded_step; [apply H2|]. destruct (_ <? _); [coded_tac|]. coded_step; [apply H3|].
  coded_step; [apply coded_quiet; quiet_tac|]. destruct (negb _); [coded_tac|].
  coded_step; [apply coded_quiet; quiet_tac|]. coded_step; [coded_tac|]. destruct (negb _); [coded_tac|].
  destruct (negb _); [coded_tac|]. coded_step; [apply H1|]. coded_step; [apply coded_quiet; quiet_tac|]. coded_tac.
Qed.

Lemma coded_load_gradient p a i b q : coded (load_gradient p a i b q).
Proof.
  unfold load_gradient. cbv zeta. coded_step; [apply coded_by_name|]. coded_step; [apply coded_read_data|].
  coded_step; [apply coded_by_name|]. coded_step; [apply coded_read_labels|]. coded_step; [apply coded_read_components|].
  unfold tensor_block_add_gradient. pose proof (coded_check_gradient b q (rust_ndarray a1) a3 a4) as H4.
  destruct (check_gradient b q (rust_ndarray a1) a3 a4) as [u|e|m|u]; cbn [bind]; try (coded_tac; fail).
  - destruct (cstring_new q); cbn [bind]; coded_tac.
  - intros e' E. injection E as <-. apply H4. reflexivity.
Qed.

Lemma coded_load_block p a qs i : coded (load_block p a qs i).
Proof.
  unfold load_block. cbv zeta. coded_step; [apply coded_by_name|]. coded_step; [apply coded_read_data|].
  coded_step; [apply coded_by_name|]. coded_step; [apply coded_read_labels|]. coded_step; [apply coded_read_components|].
  coded_step; [apply coded_by_name|]. coded_step; [apply coded_read_labels|]. coded_step; [apply coded_block_new|].
  apply coded_foldM. intros. apply coded_load_gradient.
Qed.

Lemma coded_tensor_new keys bs : coded (tensor_map_new keys bs).
Proof.
  unfold tensor_map_new. coded_step; [coded_tac|]. destruct (negb _); [coded_tac|]. coded_step; [|coded_tac].
  assert (H1 : forall cs ns c, coded (check_components_names cs ns c)).
  { clear. induction cs as [|x cs IH]; intros [|n ns] c; cbn [check_components_names]; coded_tac. apply IH. }
  assert (H2 : forall b sn cn c, coded (check_labels_names b sn cn c)).
  { intros. unfold check_labels_names. coded_tac. apply H1. }
  assert (H3 : forall gs d, coded (check_gradients_names gs d)).
  { induction gs as [|[q g] gs IH]; intros d; cbn [check_gradients_names]; [coded_tac|].
    destruct (hm_get _ _ _) as [[sn cn]|]; [|coded_tac]. coded_step; [apply H2|]. apply IH. }
  destruct bs as [|b0 bs]; [coded_tac|]. generalize (b0 :: bs). intros l. induction l as [|b l IH]; cbn [check_all_blocks]; [coded_tac|].
  coded_step; [|exact IH]. unfold check_block_names. cbv zeta. coded_step; [apply H2|]. coded_tac. apply H3.
Qed.

Lemma coded_load p names a : coded (load p names a).
Proof.
  unfold load. coded_step; [apply coded_by_name|]. coded_step; [apply coded_read_labels|].
  coded_step; [apply coded_gradient_parameters|]. coded_step; [coded_tac|].
  coded_step; [apply coded_mapM; intros; apply coded_load_block|]. apply coded_tensor_new.
Qed.

(** * What is loaded *)

Lemma axis_plain l : axis_labels l -> plain_labels l.
Proof.
  intros [(names & rs & Hl) _]. unfold plain_labels. destruct Hl as ([Hn _] & _ & _ & -> & _). 
  eapply Forall_impl; [|exact Hn]. apply identifier_no_nul.
Qed.

Lemma wf_basic_plain b : wf_basic b -> plain_basic b.
Proof.
  intros (_ & Hax & _). rewrite Forall_forall in Hax. split; [|split].
  - apply axis_plain, Hax. left. reflexivity.
  - apply Forall_forall. intros c Hc. apply axis_plain, Hax. right. apply in_or_app. left. assumption.
  - apply axis_plain, Hax. right. apply in_or_app. right. left. reflexivity.
Qed.

Lemma load_block_names p a qs i b : load_block p a qs i = Ok b -> Forall (fun qg => no_nul (fst qg)) (tb_gradients b).
Proof.
  intros H. unfold load_block in H. cbv zeta in H. do 7 apply bind_ok in H as (? & _ & H). apply bind_ok in H as (b0 & Hb0 & H).
  assert (H0 : Forall (fun qg => no_nul (fst qg)) (tb_gradients b0)).
  { unfold tensor_block_new in Hb0. apply bind_ok in Hb0 as (v & _ & Hb0). injection Hb0 as <-. constructor. }
  eapply foldM_inv with (P := fun b => Forall (fun qg => no_nul (fst qg)) (tb_gradients b)); [|exact H0|exact H].
  intros b1 q b2 _ Hb1 H12. unfold load_gradient in H12. cbv zeta in H12. do 5 apply bind_ok in H12 as (? & _ & H12).
  unfold tensor_block_add_gradient in H12. destruct (check_gradient _ _ _ _ _) as [[]|?|?|?]; try discriminate H12.
  destruct (cstring_new q) eqn:Eq; [|discriminate H12]. cbn [bind] in H12. injection H12 as <-. cbn [tb_gradients].
  apply cstring_new_no_nul in Eq as [Eq _]. unfold hm_insert_new. apply Forall_app. split; [assumption|]. repeat constructor. exact Eq.
Qed.

Lemma load_plain p names a t : load p names a = Ok t -> plain_tensor t.
Proof.
  intros H. pose proof (load_wf _ _ _ _ H) as (Hk & Hb & _). split; [apply axis_plain; assumption|].
  unfold load in H. do 4 apply bind_ok in H as (? & _ & H). apply bind_ok in H as (blocks & Hbs & H).
  unfold tensor_map_new in H. apply bind_ok in H as (? & _ & H). destruct (negb _); [discriminate H|].
  apply bind_ok in H as (? & _ & H). injection H as <-. cbn [tm_blocks] in *.
  rewrite Forall_forall in Hb |- *. intros b Hin. destruct (mapM_In _ _ _ _ Hbs Hin) as (i & _ & Hi).
  apply load_block_names in Hi. destruct (Hb b Hin) as (Hv & Hg & _). split; [apply wf_basic_plain; assumption|].
  rewrite Forall_forall in *. intros [q g] Hqg. split; [apply (Hi _ Hqg)|]. apply wf_basic_plain. apply (Hg _ Hqg).
Qed.

(** * What is saved *)

Lemma quiet_header_to_bytes h : quiet (header_to_bytes h).
Proof. unfold header_to_bytes. cbv zeta. quiet_tac. Qed.

Lemma quiet_save_labels e path l : quiet (save_labels e path l).
Proof.
  unfold save_labels, write_labels. apply quiet_bind; [|intros; exact I]. apply quiet_bind; [quiet_tac|]. intros.
  apply quiet_bind; [quiet_tac|]. intros. apply quiet_bind; [apply quiet_header_to_bytes|]. intros. quiet_tac.
Qed.

Lemma quiet_save_data e path a : quiet (save_data e path a).
Proof.
  unfold save_data, write_data. apply quiet_bind; [|intros; exact I]. apply quiet_bind; [quiet_tac|]. intros.
  apply quiet_bind; [quiet_tac|]. intros. apply quiet_bind; [apply quiet_header_to_bytes|]. intros.
  unfold array_data. apply quiet_bind; [|intros; exact I]. apply quiet_bind; [quiet_tac|]. intros. apply quiet_call.
  destruct (a_kind a); [destruct (is_standard_layout _ _)| |]; try exact I; apply quiet_callback; discriminate.
Qed.

Lemma quiet_save_components e d cs : forall i, quiet (save_components e d i cs).
Proof.
  induction cs as [|c cs IH]; intros i; cbn [save_components]; [exact I|].
  apply quiet_bind; [apply quiet_save_labels|]. intros. apply quiet_bind; [apply IH|]. intros. exact I.
Qed.

Lemma quiet_save_gradients e i gs : quiet (save_gradients e i gs).
Proof.
  induction gs as [|[q g] gs IH]; cbn [save_gradients]; [exact I|]. cbv zeta.
  apply quiet_bind; [apply quiet_save_data|]. intros. apply quiet_bind; [apply quiet_save_labels|]. intros.
  apply quiet_bind; [apply quiet_save_components|]. intros. apply quiet_bind; [apply IH|]. intros. exact I.
Qed.

Lemma quiet_save e t : quiet (save e t).
Proof.
  unfold save. apply quiet_bind; [apply quiet_save_labels|]. intros. apply quiet_bind; [|intros; exact I].
  generalize 0. induction (tm_blocks t) as [|b bs IH]; intros i; cbn [save_blocks]; [exact I|]. cbv zeta.
  apply quiet_bind; [apply quiet_save_data|]. intros. apply quiet_bind; [apply quiet_save_labels|]. intros.
  apply quiet_bind; [apply quiet_save_components|]. intros. apply quiet_bind; [apply quiet_save_labels|]. intros.
  apply quiet_bind; [apply quiet_save_gradients|]. intros. apply quiet_bind; [apply IH|]. intros. exact I.
Qed.

(** * The C functions *)

Lemma quiet_c_str message memory : no_nul message -> yields no_nul (c_str_to_str message memory).
Proof. intros H. unfold c_str_to_str. destruct (is_utf8 _ _); [apply no_nul_c_str|exact H]. Qed.

Lemma quiet_check_pointer {A} name (o : option A) : no_nul name -> quiet (check_pointer name o).
Proof. intros H. unfold check_pointer. quiet_tac. Qed.

Lemma quiet_from_raw {A} (o : option (list A)) n : quiet (from_raw_parts o n).
Proof. unfold from_raw_parts. quiet_tac. Qed.

Lemma yields_labels_from_c c : yields plain_labels (labels_from_c c).
Proof.
  unfold labels_from_c. destruct (cl_names c) as [memory|]; [|quiet_tac]. destruct (_ && _)%bool; [quiet_tac|].
  apply yields_bind_quiet; [apply quiet_from_raw|]. intros names _.
  eapply yields_bind; [apply yields_mapM; intros; apply quiet_c_str; reflexivity|]. intros ns _ Hns.
  apply yields_bind_quiet; [apply quiet_builder_new; exact Hns|]. intros b _.
  apply yields_bind_quiet; [apply quiet_from_raw|]. intros slice _.
  apply yields_bind_quiet; [destruct slice; [exact I|apply quiet_builder_add_all]|]. intros b' _.
  eapply yields_mono; [apply quiet_builder_finish|]. intros l Hl _. eapply builder_finish_plain. eassumption.
Qed.

Lemma quiet_labels_to_c l : quiet (labels_to_c l).
Proof. unfold labels_to_c. cbv zeta. quiet_tac. Qed.

Definition plain_world (w : world) : Prop :=
  Forall (fun hb => plain_block (ob_block (snd hb))) (w_blocks w)
  /\ Forall (fun ht => plain_tensor (ot_tensor (snd ht))) (w_tensors w).

Lemma hm_get_In {V} (l : list (nat * V)) k v : hm_get Nat.eqb l k = Some v -> In (k, v) l.
Proof.
  induction l as [|[k' v'] l IH]; intros H; [discriminate H|]. cbn [hm_get] in H.
  destruct (Nat.eqb_spec k k') as [->|_]; [injection H as ->; left; reflexivity|right; auto].
Qed.

Lemma get_block_plain w block : plain_world w -> yields (fun x => plain_block (ob_block (snd x))) (get_block w block).
Proof.
  intros [Hw _]. unfold get_block. destruct block as [|h|t i]; try exact I.
  destruct (hm_get Nat.eqb (w_blocks w) h) eqn:E; [|exact I]. apply hm_get_In in E. rewrite Forall_forall in Hw. exact (Hw _ E).
Qed.

Lemma get_tensor_plain w h : plain_world w -> yields (fun t => plain_tensor (ot_tensor t)) (get_tensor w h).
Proof.
  intros [_ Hw]. unfold get_tensor. destruct (hm_get Nat.eqb (w_tensors w) h) eqn:E; [|exact I].
  apply hm_get_In in E. rewrite Forall_forall in Hw. exact (Hw _ E).
Qed.

Lemma read_block_plain w block : plain_world w -> yields (fun b => plain_block (ob_block b)) (read_block w block).
Proof.
  intros Hw. unfold read_block. destruct block as [|h|t i].
  - exact I.
  - eapply yields_bind; [apply get_block_plain; exact Hw|]. intros [h' b] _ Hb. exact Hb.
  - destruct Hw as [_ Hw]. destruct (hm_get Nat.eqb (w_tensors w) t) as [tm|] eqn:E; [|exact I].
    apply hm_get_In in E. rewrite Forall_forall in Hw. specialize (Hw _ E). cbn [snd] in Hw.
    destruct (nth_error (tm_blocks (ot_tensor tm)) i) as [b|] eqn:Eb; [|exact I].
    destruct (nth_error (ot_arrays tm) i); [|exact I]. destruct Hw as [_ Hw]. rewrite Forall_forall in Hw.
    apply Hw. eapply nth_error_In. eassumption.
Qed.

Lemma remove_handle_plain {A} (P : nat * A -> Prop) h l : Forall P l -> Forall P (remove_handle h l).
Proof.
  rewrite !Forall_forall. intros H x Hx. apply filter_In in Hx as [Hx _]. auto.
Qed.

Lemma update_handle_plain {A} (P : A -> Prop) h a (l : list (nat * A)) :
  Forall (fun x => P (snd x)) l -> P a -> Forall (fun x => P (snd x)) (update_handle h a l).
Proof.
  rewrite !Forall_forall. intros H Ha x Hx. apply in_map_iff in Hx as ([h' a'] & E & Hin). cbn [fst] in E.
  destruct (h' =? h); rewrite <- E; [exact Ha|]. apply (H _ Hin).
Qed.

(* a body which keeps the labels plain, and fails with something which can be reported *)
Definition good_body (r : world * c_value * outcome unit) : Prop := plain_world (fst (fst r)) /\ quiet (snd r).

Lemma good_reading w o : plain_world w -> quiet o -> good_body (reading w o).
Proof. intros Hw Ho. unfold reading. destruct o; (split; [exact Hw|exact Ho]). Qed.

Lemma take_blocks_plain blocks : forall w, plain_world w ->
  plain_world (fst (take_blocks w blocks))
  /\ yields (Forall (fun b => plain_block (ob_block b))) (snd (take_blocks w blocks)).
Proof.
  induction blocks as [|b blocks IH]; intros w Hw; cbn [take_blocks]; [split; [exact Hw|constructor]|].
  pose proof (get_block_plain w b Hw) as Hb. destruct (get_block w b) as [[h ob]|e|m|r]; [|split; [exact Hw|exact Hb]..].
  cbn [yields snd] in Hb. destruct (IH (set_blocks w (remove_handle h (w_blocks w)))) as [H1 H2].
  { split; [apply remove_handle_plain, Hw|apply Hw]. }
  destruct (take_blocks _ blocks) as [w' others]. split; [exact H1|]. cbn [snd] in *.
  eapply yields_bind; [exact H2|]. intros os _ Hos. constructor; assumption.
Qed.

Lemma new_blocks_arrays_plain blocks : forall w, plain_world w -> plain_world (fst (new_blocks_arrays w blocks)).
Proof.
  induction blocks as [|b blocks IH]; intros w Hw; cbn [new_blocks_arrays]; [exact Hw|].
  destruct (new_arrays w (arrays_count b)) as [w1 arrays] eqn:E. unfold new_arrays in E. injection E as <- <-.
  match goal with |- context [new_blocks_arrays ?w1 blocks] => specialize (IH w1 Hw); destruct (new_blocks_arrays w1 blocks) end.
  exact IH.
Qed.

Lemma quiet_clone_arrays arrays : quiet (snd (clone_arrays arrays)).
Proof.
  induction arrays as [|a arrays IH]; cbn [clone_arrays]; [exact I|].
  assert (H : quiet (array_clone a)) by (unfold array_clone; quiet_tac).
  destruct (array_clone a); [destruct (clone_arrays arrays); exact IH|exact H..].
Qed.

Lemma move_keys_good w tensor keys n move : plain_world w ->
  (forall t k t' r, plain_tensor t -> plain_labels k -> move t k = (t', r) -> plain_tensor t' /\ quiet r) ->
  good_body (move_keys w tensor keys n move).
Proof.
  intros Hw Hmove. unfold move_keys.
  match goal with |- good_body (match ?o with _ => _ end) =>
    assert (Hy : yields (fun x => plain_labels (snd (fst x)) /\ plain_tensor (ot_tensor (snd x))) o) end.
  { apply yields_bind_quiet; [apply quiet_check_pointer; reflexivity|]. intros h _.
    eapply yields_bind; [apply yields_labels_from_c|]. intros k _ Hk.
    eapply yields_bind; [apply get_tensor_plain; exact Hw|]. intros t _ Ht. split; assumption. }
  match goal with |- good_body (match ?o with _ => _ end) => destruct o as [[[h k] t]|e|m|r] end;
    [|split; [exact Hw|exact Hy]..].
  cbn [yields fst snd] in Hy. destruct Hy as [Hk Ht]. destruct (move (ot_tensor t) k) as [moved result] eqn:Em.
  apply Hmove in Em as [Hm Hr]; try assumption. destruct result as [u|e|m|r].
  - pose proof (new_blocks_arrays_plain (tm_blocks moved) w Hw) as Hn. destruct (new_blocks_arrays w (tm_blocks moved)) as [w1 arrays].
    split; [|exact I]. destruct Hn as [H1 H2]. split; [exact H1|].
    apply (update_handle_plain (fun t => plain_tensor (ot_tensor t))); assumption.
  - split; [|exact Hr]. destruct Hw as [H1 H2]. split; [exact H1|].
    apply (update_handle_plain (fun t => plain_tensor (ot_tensor t))); assumption.
  - split; [|exact Hr]. destruct Hw as [H1 H2]. split; [exact H1|].
    apply (update_handle_plain (fun t => plain_tensor (ot_tensor t))); assumption.
  - split; [|exact Hr]. destruct Hw as [H1 H2]. split; [exact H1|].
    apply (update_handle_plain (fun t => plain_tensor (ot_tensor t))); assumption.
Qed.

Lemma good_kept w v o : plain_world w -> quiet o -> good_body (w, v, o).
Proof. intros. split; assumption. Qed.

Lemma call_body_good p thread w c : plain_world w -> reportable c -> good_body (call_body p thread w c).
Proof.
  intros Hw Hc. destruct c; cbn [call_body].
  - (* RegisterDataOrigin *)
    unfold eqs_register_data_origin. cbv zeta.
    match goal with |- good_body (match ?o with _ => _ end) => assert (Hy : quiet o) end.
    { apply quiet_bind; [apply quiet_check_pointer; reflexivity|]. intros.
      apply quiet_bind; [apply quiet_check_pointer; reflexivity|]. intros. eapply yields_quiet. apply quiet_c_str. reflexivity. }
    match goal with |- good_body (match ?o with _ => _ end) => destruct o end; [|apply good_kept; [assumption|exact Hy]..].
    destruct (register_data_origin _ _). apply good_kept; [exact Hw|exact I].
  - (* GetDataOrigin *)
    unfold eqs_get_data_origin. destruct buffer as [buffer|]; [|apply good_kept; [assumption|]].
    + assert (Hy : quiet (get_data_origin (w_origins w) origin)) by (unfold get_data_origin; quiet_tac).
      destruct (get_data_origin (w_origins w) origin); [|apply good_kept; [assumption|exact Hy]..].
      assert (Hs : quiet (snd (copy_str_to_c p a buffer))).
      { unfold copy_str_to_c. destruct (length buffer); [destruct p; cbn [snd]; quiet_tac|]. cbv zeta.
        destruct (_ <? _); cbn [snd]; quiet_tac. }
      destruct (copy_str_to_c p a buffer). apply good_kept; assumption.
    + apply quiet_bind; [apply quiet_check_pointer; reflexivity|]. intros. exact I.
  - (* LabelsPosition *)
    apply good_reading; [assumption|]. apply quiet_bind; [|intros; exact I]. unfold c_labels_position.
    destruct (cl_labels_ptr labels); [|quiet_tac]. apply quiet_bind; [apply quiet_from_raw|]. intros. quiet_tac.
  - (* BlockCreate *)
    unfold eqs_block. destruct (new_arrays w 1) as [w1 arrays] eqn:E. unfold new_arrays in E. injection E as <- <-. cbv zeta.
    match goal with |- good_body (match ?o with _ => _ end) => assert (Hy : yields plain_block o) end.
    { eapply yields_bind; [apply yields_labels_from_c|]. intros s _ Hs.
      eapply yields_bind; [apply yields_mapM; intros; apply yields_labels_from_c|]. intros cs _ Hcs.
      eapply yields_bind; [apply yields_labels_from_c|]. intros ps _ Hps. apply yields_block_new; assumption. }
    match goal with |- good_body (match ?o with _ => _ end) => destruct o end; [|apply good_kept; [exact Hw|exact Hy]..].
    apply good_kept; [|exact I]. destruct Hw as [H1 H2]. split; [constructor; assumption|assumption].
  - (* BlockFree *)
    unfold eqs_block_free. destruct block as [|h|t i]; [apply good_kept; [assumption|exact I]| |].
    + pose proof (get_block_plain w (BlockAt h) Hw) as Hb. destruct (get_block w (BlockAt h)) as [[h' b]|e|m|r];
        [|apply good_kept; [assumption|exact Hb]..]. apply good_kept; [|exact I]. destruct Hw as [H1 H2].
      split; [apply remove_handle_plain; assumption|assumption].
    + apply good_kept; [assumption|exact I].
  - (* BlockCopy *)
    unfold eqs_block_copy.
    match goal with |- good_body (match ?o with _ => _ end) => assert (Hy : yields (fun b => plain_block (ob_block b)) o) end.
    { apply yields_bind_quiet; [apply quiet_check_pointer; reflexivity|]. intros. apply read_block_plain. assumption. }
    match goal with |- good_body (match ?o with _ => _ end) => destruct o as [b|e|m|r] end; [|apply good_kept; [exact Hw|exact Hy]..].
    pose proof (quiet_clone_arrays (block_arrays (ob_block b))) as Hq. destruct (clone_arrays _) as [n result]. cbn [snd] in Hq.
    destruct (new_arrays w n) as [w1 arrays] eqn:E. unfold new_arrays in E. injection E as <- <-.
    destruct result; [|apply good_kept; [exact Hw|exact Hq]..]. apply good_kept; [|exact I].
    destruct Hw as [H1 H2]. split; [constructor; assumption|assumption].
  - (* BlockLabels *)
    apply good_reading; [assumption|]. apply quiet_bind; [apply quiet_check_pointer; reflexivity|]. intros b _.
    apply quiet_bind; [apply quiet_check_pointer; reflexivity|]. intros name _.
    apply quiet_bind; [apply quiet_check_pointer; reflexivity|]. intros _ _.
    eapply yields_bind; [apply quiet_c_str; reflexivity|]. intros q _ Hq.
    eapply yields_bind; [apply read_block_plain; exact Hw|]. intros ob _ Hb.
    apply yields_bind_quiet; [unfold select_basic_block; quiet_tac|]. intros bb _.
    apply yields_bind_quiet; [unfold axis_of_block; cbv zeta; quiet_tac|]. intros l _.
    apply yields_bind_quiet; [apply quiet_labels_to_c|]. intros. exact I.
  - (* BlockData *)
    apply good_reading; [assumption|]. apply quiet_bind; [apply quiet_check_pointer; reflexivity|]. intros b _.
    apply quiet_bind; [apply quiet_check_pointer; reflexivity|]. intros name _.
    apply quiet_bind; [apply quiet_check_pointer; reflexivity|]. intros _ _.
    eapply yields_bind; [apply quiet_c_str; reflexivity|]. intros q _ Hq.
    eapply yields_bind; [apply read_block_plain; exact Hw|]. intros ob _ Hb.
    apply yields_bind_quiet; [unfold select_basic_block; quiet_tac|]. intros bb _.
    apply yields_bind_quiet; [unfold select_array; quiet_tac|]. intros. exact I.
  - (* BlockAddGradient *)
    unfold eqs_block_add_gradient. destruct (new_arrays w 1) as [w1 arrays] eqn:E. unfold new_arrays in E. injection E as <- <-. cbv zeta.
    match goal with |- good_body (match ?o with _ => _ end) =>
      assert (Hy : yields (fun x => plain_block (ob_block (snd (fst (fst (fst x))))) /\ no_nul (snd (fst (fst x)))
        /\ plain_labels (snd (fst x)) /\ Forall plain_labels (snd x)) o) end.
    { apply yields_bind_quiet; [apply quiet_check_pointer; reflexivity|]. intros b _.
      apply yields_bind_quiet; [apply quiet_check_pointer; reflexivity|]. intros q _.
      eapply yields_bind; [apply quiet_c_str; reflexivity|]. intros q' _ Hq.
      eapply yields_bind; [apply yields_labels_from_c|]. intros s _ Hs.
      eapply yields_bind; [apply yields_mapM; intros; apply yields_labels_from_c|]. intros cs _ Hcs.
      eapply yields_bind; [apply get_block_plain; exact Hw|]. intros [h ob] _ Hb. cbn [yields fst snd] in *. auto. }
    match goal with |- good_body (match ?o with _ => _ end) => destruct o as [[[[[h b] q] s] cs]|e|m|r] end;
      [|apply good_kept; [exact Hw|exact Hy]..]. cbn [yields fst snd] in Hy. destruct Hy as (Hb & Hq & Hs & Hcs).
    destruct (tensor_block_add_gradient (ob_block b) q data s cs) as [b' result] eqn:Ea.
    apply add_gradient_plain in Ea as [Hb' Hr]; try assumption. destruct (_ <? _); apply good_kept; try assumption.
    destruct Hw as [H1 H2]. split; [|exact H2]. apply (update_handle_plain (fun b => plain_block (ob_block b))); assumption.
  - (* BlockGradientsList *)
    apply good_reading; [assumption|]. apply quiet_bind; [apply quiet_check_pointer; reflexivity|]. intros b _.
    apply quiet_bind; [apply quiet_check_pointer; reflexivity|]. intros _ _.
    apply quiet_bind; [apply quiet_check_pointer; reflexivity|]. intros _ _.
    apply quiet_bind; [eapply yields_quiet; apply read_block_plain; exact Hw|]. intros. exact I.
  - (* TensorCreate *)
    unfold eqs_tensormap. pose proof (yields_labels_from_c keys) as Hk.
    destruct (labels_from_c keys) as [k|e|m|r]; [|apply good_kept; [exact Hw|exact Hk]..]. cbn [yields] in Hk.
    destruct (negb _); [apply good_kept; [assumption|quiet_tac]|].
    destruct (take_blocks_plain blocks w Hw) as [H1 H2]. destruct (take_blocks w blocks) as [w1 o]. cbn [fst snd] in *.
    destruct o as [owned|e|m|r]; [|apply good_kept; [exact H1|exact H2]..]. cbn [yields] in H2. cbv zeta.
    assert (Hy : yields plain_tensor (tensor_map_new k (map ob_block owned))).
    { apply yields_tensor_new; [assumption|]. apply Forall_map. exact H2. }
    destruct (tensor_map_new k (map ob_block owned)) as [t|e|m|r]; [|apply good_kept; [exact H1|exact Hy]..].
    apply good_kept; [|exact I]. destruct H1 as [H3 H4]. split; [assumption|]. constructor; assumption.
  - (* TensorFree *)
    unfold eqs_tensormap_free. destruct tensor as [h|]; [|apply good_kept; [assumption|exact I]].
    pose proof (get_tensor_plain w h Hw) as Ht. destruct (get_tensor w h); [|apply good_kept; [exact Hw|exact Ht]..].
    apply good_kept; [|exact I]. destruct Hw as [H1 H2]. split; [assumption|]. apply remove_handle_plain. assumption.
  - (* TensorKeys *)
    apply good_reading; [assumption|]. apply quiet_bind; [apply quiet_check_pointer; reflexivity|]. intros h _.
    apply quiet_bind; [apply quiet_check_pointer; reflexivity|]. intros _ _.
    apply quiet_bind; [eapply yields_quiet; apply get_tensor_plain; exact Hw|]. intros t _.
    apply quiet_bind; [apply quiet_labels_to_c|]. intros. exact I.
  - (* TensorBlockById *)
    apply good_reading; [assumption|]. apply quiet_bind; [apply quiet_check_pointer; reflexivity|]. intros h _.
    apply quiet_bind; [apply quiet_check_pointer; reflexivity|]. intros _ _.
    apply quiet_bind; [eapply yields_quiet; apply get_tensor_plain; exact Hw|]. intros t _. quiet_tac.
  - (* TensorBlocksMatching *)
    unfold eqs_tensormap_blocks_matching. cbv zeta.
    match goal with |- good_body (match ?o with _ => _ end) => assert (Hy : quiet o) end.
    { apply quiet_bind; [apply quiet_check_pointer; reflexivity|]. intros h _.
      apply quiet_bind; [apply quiet_check_pointer; reflexivity|]. intros buf _.
      apply quiet_bind; [apply quiet_check_pointer; reflexivity|]. intros cnt _.
      eapply yields_bind; [apply yields_labels_from_c|]. intros s _ Hs.
      apply yields_bind_quiet; [eapply yields_quiet; apply get_tensor_plain; exact Hw|]. intros t _.
      apply yields_bind_quiet; [apply quiet_blocks_matching; assumption|]. intros. exact I. }
    match goal with |- good_body (match ?o with _ => _ end) => destruct o as [[b idx]|e|m|r] end;
      [|apply good_kept; [exact Hw|exact Hy]..].
    assert (Hs : forall idx i b, quiet (snd (write_indexes i b idx))).
    { clear. induction idx as [|x idx IH]; intros i b; cbn [write_indexes]; [exact I|]. unfold set_slice.
      destruct (i <? length b); [apply IH|reflexivity]. }
    specialize (Hs idx 0 b). destruct (write_indexes 0 b idx). apply good_kept; assumption.
  - (* TensorKeysToProperties *)
    apply move_keys_good; [assumption|]. intros. eapply keys_to_properties_plain; eassumption.
  - (* TensorComponentsToProperties *)
    unfold eqs_tensormap_components_to_properties. cbv zeta.
    match goal with |- good_body (match ?o with _ => _ end) =>
      assert (Hy : yields (fun x => Forall no_nul (snd (fst x)) /\ plain_tensor (ot_tensor (snd x))) o) end.
    { apply yields_bind_quiet; [apply quiet_check_pointer; reflexivity|]. intros h _.
      apply yields_bind_quiet; [apply quiet_check_pointer; reflexivity|]. intros vs _.
      apply (yields_bind (Forall no_nul)).
      { apply yields_mapM. intros v _. apply yields_bind_quiet; [apply quiet_check_pointer; reflexivity|]. intros.
        apply quiet_c_str. reflexivity. }
      intros names _ Hn. eapply yields_bind; [apply get_tensor_plain; exact Hw|]. intros t _ Ht. split; assumption. }
    match goal with |- good_body (match ?o with _ => _ end) => destruct o as [[[h vs] t]|e|m|r] end;
      [|apply good_kept; [exact Hw|exact Hy]..]. cbn [yields fst snd] in Hy. destruct Hy as [Hv Ht].
    destruct (components_to_properties (ot_tensor t) vs) as [moved result] eqn:E. apply components_plain in E as [H1 H2]; try assumption.
    apply good_kept; [|assumption]. destruct Hw as [H3 H4]. split; [assumption|].
    apply (update_handle_plain (fun t => plain_tensor (ot_tensor t))); assumption.
  - (* TensorKeysToSamples *)
    apply move_keys_good; [assumption|]. intros. eapply keys_to_samples_plain; eassumption.
  - (* TensorLoad *) destruct Hc.
  - (* TensorSave *)
    unfold eqs_tensormap_save. cbv zeta.
    match goal with |- good_body (match ?o with _ => _ end) => assert (Hy : quiet o) end.
    { apply quiet_bind; [apply quiet_check_pointer; reflexivity|]. intros h _.
      apply quiet_bind; [apply quiet_check_pointer; reflexivity|]. intros t _.
      apply quiet_bind; [eapply yields_quiet; apply quiet_c_str; reflexivity|]. intros path' _.
      apply quiet_bind; [destruct system; [|exact I]; cbn [reportable] in Hc; quiet_tac|]. intros _ _.
      apply quiet_bind; [eapply yields_quiet; apply get_tensor_plain; exact Hw|]. intros. exact I. }
    match goal with |- good_body (match ?o with _ => _ end) => destruct o as [[b idx]|e|m|r] end;
      [|apply good_kept; [exact Hw|exact Hy]..].
    pose proof (quiet_save LittleEndian (ot_tensor idx)) as Hs. destruct (save LittleEndian (ot_tensor idx));
      (apply good_kept; [exact Hw|exact Hs || exact I]).
  - (* LastError *) apply good_kept; [assumption|exact I].
Qed.

(* loading also keeps the labels plain, and reports errors as such *)
Lemma load_body_plain p w path names temporary : plain_world w ->
  plain_world (fst (fst (eqs_tensormap_load p w path names temporary)))
  /\ coded (snd (eqs_tensormap_load p w path names temporary)).
Proof.
  intros Hw. unfold eqs_tensormap_load. cbv zeta.
  match goal with |- context [match ?o with Ok _ => _ | _ => _ end] => 
    assert (H1 : forall t, o = Ok t -> plain_tensor t); [|assert (H2 : coded o)] end.
  { intros t H. apply bind_ok in H as (p1 & _ & H). apply bind_ok in H as (p2 & _ & H). apply bind_ok in H as (a & _ & H).
    eapply load_plain. exact H. }
  { coded_step; [apply coded_quiet, quiet_check_pointer; reflexivity|].
    coded_step; [apply coded_quiet; eapply yields_quiet; apply quiet_c_str; reflexivity|].
    coded_step; [unfold open_file; coded_tac|]. apply coded_load. }
  match goal with |- context [match ?o with Ok _ => _ | _ => _ end] => destruct o as [t|e|m|r] end.
  - pose proof (new_blocks_arrays_plain (tm_blocks t) w Hw) as Hn. destruct (new_blocks_arrays w (tm_blocks t)) as [w1 arrays].
    split; [|cbn; coded_tac]. destruct Hn as [H3 H4]. split; [exact H3|]. constructor; [|exact H4]. apply H1. reflexivity.
  - split; [exact Hw|]. cbn. intros e' E. injection E as <-. apply H2. reflexivity.
  - split; [exact Hw|]. cbn. coded_tac.
  - split; [exact Hw|]. cbn. coded_tac.
Qed.

Lemma save_body_plain w path tensor system remains : plain_world w ->
  plain_world (fst (fst (eqs_tensormap_save w path tensor system remains)))
  /\ coded (snd (eqs_tensormap_save w path tensor system remains)).
Proof.
  intros Hw. unfold eqs_tensormap_save. cbv zeta.
  match goal with |- context [match ?o with Ok _ => _ | _ => _ end] => assert (H2 : coded o) end.
  { coded_step; [apply coded_quiet, quiet_check_pointer; reflexivity|].
    coded_step; [apply coded_quiet, quiet_check_pointer; reflexivity|].
    coded_step; [apply coded_quiet; eapply yields_quiet; apply quiet_c_str; reflexivity|].
    coded_step; [coded_tac|].
    coded_step; [apply coded_quiet; eapply yields_quiet; apply get_tensor_plain; exact Hw|]. coded_tac. }
  match goal with |- context [match ?o with Ok _ => _ | _ => _ end] => destruct o as [[b t]|e|m|r] end.
  - pose proof (coded_quiet _ (quiet_save LittleEndian (ot_tensor t))) as Hs.
    destruct (save LittleEndian (ot_tensor t)); (split; [exact Hw|]); cbn [snd bind]; coded_tac.
    intros e0 E. injection E as <-. apply Hs. reflexivity.
  - split; [exact Hw|]. cbn. intros e' E. injection E as <-. apply H2. reflexivity.
  - split; [exact Hw|]. cbn. coded_tac.
  - split; [exact Hw|]. cbn. coded_tac.
Qed.

Lemma call_body_plain p thread w c : plain_world w ->
  plain_world (fst (fst (call_body p thread w c))) /\ coded (snd (call_body p thread w c)).
Proof.
  intros Hw.
  assert (Hcase : reportable c \/ (exists path names temporary, c = TensorLoad path names temporary)
                  \/ (exists path tensor system remains, c = TensorSave path tensor system remains)).
  { destruct c; cbn [reportable]; eauto 10. }
  destruct Hcase as [H|[(path & names & tmp & ->)|(path & tensor & system & remains & ->)]].
  - destruct (call_body_good p thread w c Hw H) as [H1 H2]. split; [assumption|]. apply coded_quiet. assumption.
  - apply load_body_plain. assumption.
  - apply save_body_plain. assumption.
Qed.

Lemma run_call_plain p w thread c w' v result :
  plain_world w -> run_call p thread w c = (w', v, result) -> plain_world w'.
Proof.
  intros Hw H. apply run_call_body in H as (w1 & o & H & _ & ->). pose proof (call_body_plain p thread w c Hw) as [H1 _].
  rewrite H in H1. exact H1.
Qed.

Lemma plain_start files : plain_world (world_start files).
Proof. split; constructor. Qed.

Lemma state_plain p files calls i : plain_world (state_at p (world_start files) calls i).
Proof. apply state_at_invariant; [|apply plain_start]. intros. eapply run_call_plain; eassumption. Qed.

(** * C34: the status *)

Lemma from_error_returned thread errors e errors' status :
  from_error thread errors e = (errors', Returned status) ->
  status = error_code e /\ errors' thread = error_text e
  /\ (forall other, other <> thread -> errors' other = errors other).
Proof.
  unfold from_error, cstring_new. destruct (has_nul (error_text e)); [discriminate|].
  intros H. injection H as <- <-. split; [reflexivity|]. split; [rewrite Nat.eqb_refl; reflexivity|].
  intros other Ho. apply Nat.eqb_neq in Ho. rewrite Ho. reflexivity.
Qed.

Lemma status_of_call p files calls i thread c v status :
  called p (world_start files) calls i thread c v (Returned status) ->
  let o := snd (call_body p thread (state_at p (world_start files) calls i) c) in
  (status = 0%Z /\ o = Ok tt) \/ (exists e, error_of o e /\ status = error_code e /\ status <> 0%Z).
Proof.
  intros Hc o. subst o. pose proof (state_plain p files calls i) as Hw. apply called_step in Hc.
  apply run_call_body in Hc as (w1 & o & Hb & Hr & _). pose proof (proj2 (call_body_plain p thread _ c Hw)) as Hcoded.
  rewrite Hb in *. cbn [snd fst] in *. destruct o as [[]|e|m|r]; cbn [catch_unwind] in Hr.
  - injection Hr as <-. left. auto.
  - right. destruct (from_error thread (w_errors w1) e) as [er r] eqn:E. cbn [snd] in Hr. subst r.
    apply from_error_returned in E as (-> & _). exists e. split; [left; reflexivity|]. split; [reflexivity|]. apply Hcoded. reflexivity.
  - right. destruct (from_error thread (w_errors w1) (Internal m)) as [er r] eqn:E. cbn [snd] in Hr. subst r.
    apply from_error_returned in E as (-> & _). exists (Internal m). split; [right; eauto|]. split; [reflexivity|]. discriminate.
  - discriminate Hr.
Qed.

Lemma status_zero p files calls i thread c v result :
  called p (world_start files) calls i thread c v result ->
  (result = Returned 0 <-> snd (call_body p thread (state_at p (world_start files) calls i) c) = Ok tt).
Proof.
  intros Hc. split.
  - intros ->. apply status_of_call in Hc as [[_ H]|(e & _ & _ & H)]; [exact H|congruence].
  - intros Ho. apply called_step in Hc. apply run_call_body in Hc as (w1 & o & Hb & Hr & _). rewrite Hb in Ho.
    cbn [snd] in Ho. subst o. rewrite <- Hr. reflexivity.
Qed.

Lemma status_code p files calls i thread c v status e :
  called p (world_start files) calls i thread c v (Returned status) ->
  error_of (snd (call_body p thread (state_at p (world_start files) calls i) c)) e -> status = error_code e.
Proof.
  intros Hc He. apply status_of_call in Hc as [[_ H]|(e' & He' & -> & _)].
  - rewrite H in He. destruct He as [He|(m & He & _)]; discriminate He.
  - f_equal. destruct He as [He|(m & He & ->)], He' as [He'|(m' & He' & ->)]; rewrite He in He'; try discriminate He';
      injection He' as <-; reflexivity.
Qed.

Lemma error_reported e : reported_as e (error_code e) (error_text e).
Proof. destruct e; constructor. Qed.

Lemma reported_code e status text : reported_as e status text -> status = error_code e.
Proof. intros H. destruct H; reflexivity. Qed.

Lemma status_documented p files calls i thread c v status e :
  called p (world_start files) calls i thread c v (Returned status) ->
  error_of (snd (call_body p thread (state_at p (world_start files) calls i) c)) e -> exists text, reported_as e status text.
Proof. intros Hc He. rewrite (status_code p files calls i thread c v status e Hc He). exists (error_text e). apply error_reported. Qed.

(** * C34: the last error *)

Lemma called_before p calls : forall w i j thread c v result, called p w calls i thread c v result -> j < i ->
  exists thread' c' v' status, called p w calls j thread' c' v' (Returned status).
Proof.
  induction calls as [|[t c0] rest IH]; intros w i j thread c v result [H1 H2] Hj; [destruct i; discriminate H1|].
  rewrite run_cons in H2. destruct (run_call p t w c0) as [[w1 v1] r1] eqn:E. destruct i as [|i]; [lia|].
  destruct r1 as [s|m|m]; cbn [snd nth_error] in H2; [|destruct i; discriminate H2..].
  destruct j as [|j].
  - exists t, c0, v1, s. split; [reflexivity|]. rewrite run_cons, E. destruct (run p w1 rest). reflexivity.
  - destruct (run p w1 rest) as [w2 rs] eqn:Er. cbn [snd nth_error] in H2.
    destruct (IH w1 i j thread c v result) as (t' & c' & v' & s' & [H3 H4]); [split; [exact H1|rewrite Er; exact H2]|lia|].
    exists t', c', v', s'. split; [exact H3|]. rewrite run_cons, E, Er. cbn [snd nth_error]. rewrite Er in H4. exact H4.
Qed.

Lemma called_error p w calls j thread e :
  failed_with p w calls j thread e -> exists c v result, called p w calls j thread c v result.
Proof. intros (c & v & r & H & _). eauto. Qed.

Lemma new_blocks_arrays_errors bs : forall w, w_errors (fst (new_blocks_arrays w bs)) = w_errors w.
Proof.
  induction bs as [|b bs IH]; intros w; cbn [new_blocks_arrays]; [reflexivity|]. unfold new_arrays.
  match goal with |- context [new_blocks_arrays ?x bs] => specialize (IH x); destruct (new_blocks_arrays x bs) end. exact IH.
Qed.

Lemma take_blocks_errors bs : forall w, w_errors (fst (take_blocks w bs)) = w_errors w.
Proof.
  induction bs as [|b bs IH]; intros w; cbn [take_blocks]; [reflexivity|].
  destruct (get_block w b) as [[h ob]|e|m|r]; cbn [fst]; try reflexivity.
  match goal with |- context [take_blocks ?x bs] => specialize (IH x); destruct (take_blocks x bs) as [w1 [ ]] end; exact IH.
Qed.

Lemma call_body_errors p thread w c : w_errors (fst (fst (call_body p thread w c))) = w_errors w.
Proof.
  destruct c; cbn [call_body]; try reflexivity.
  - unfold eqs_register_data_origin. steps; reflexivity.
  - unfold eqs_get_data_origin. steps; reflexivity.
  - unfold eqs_labels_position. steps; reflexivity.
  - unfold eqs_block. steps; reflexivity.
  - unfold eqs_block_free. steps; reflexivity.
  - unfold eqs_block_copy. steps; reflexivity.
  - unfold eqs_block_labels. steps; reflexivity.
  - unfold eqs_block_data. steps; reflexivity.
  - unfold eqs_block_add_gradient. steps; reflexivity.
  - unfold eqs_block_gradients_list. steps; reflexivity.
  - unfold eqs_tensormap. pose proof (take_blocks_errors blocks w) as H.
    destruct (take_blocks w blocks) as [w1 o]. steps; exact H || reflexivity.
  - unfold eqs_tensormap_free. steps; reflexivity.
  - unfold eqs_tensormap_keys. steps; reflexivity.
  - unfold eqs_tensormap_block_by_id. steps; reflexivity.
  - unfold eqs_tensormap_blocks_matching. steps; reflexivity.
  - unfold eqs_tensormap_keys_to_properties. steps; try reflexivity.
    match goal with H : new_blocks_arrays ?w ?bs = _ |- _ =>
      pose proof (new_blocks_arrays_errors bs w) as Hn; rewrite H in Hn end. exact Hn.
  - unfold eqs_tensormap_components_to_properties. steps; reflexivity.
  - unfold eqs_tensormap_keys_to_samples. steps; try reflexivity.
    match goal with H : new_blocks_arrays ?w ?bs = _ |- _ =>
      pose proof (new_blocks_arrays_errors bs w) as Hn; rewrite H in Hn end. exact Hn.
  - unfold eqs_tensormap_load. steps; try reflexivity.
    match goal with H : new_blocks_arrays ?w ?bs = _ |- _ =>
      pose proof (new_blocks_arrays_errors bs w) as Hn; rewrite H in Hn end. exact Hn.
  - unfold eqs_tensormap_save. steps; reflexivity.
Qed.

(* the errors after one call which returned *)
Lemma call_errors p w calls i thread c v status :
  called p w calls i thread c v (Returned status) ->
  let before := w_errors (state_at p w calls i) in
  let after := w_errors (state_at p w calls (S i)) in
  let o := snd (call_body p thread (state_at p w calls i) c) in
  (forall other, other <> thread -> after other = before other)
  /\ (o = Ok tt -> after thread = before thread)
  /\ (forall e, error_of o e -> after thread = error_text e)
  /\ (o = Ok tt \/ exists e, error_of o e).
Proof.
  intros Hc. cbv zeta. apply called_step in Hc. apply run_call_body in Hc as (w1 & o & Hb & Hr & Hs).
  pose proof (call_body_errors p thread (state_at p w calls i) c) as He. rewrite Hb in *. cbn [fst snd] in *.
  rewrite Hs. cbn [set_errors w_errors]. rewrite <- He. destruct o as [[]|e|m|r]; cbn [catch_unwind] in *.
  - cbn [fst]. repeat split; auto. intros e [H|(m & H & _)]; discriminate H.
  - destruct (from_error thread (w_errors w1) e) as [er r] eqn:E. cbn [snd fst] in *. subst r.
    apply from_error_returned in E as (_ & H1 & H2). repeat split; auto; [discriminate| |right; exists e; left; reflexivity].
    intros e' [H|(m & H & _)]; [|discriminate H]. injection H as <-. exact H1.
  - destruct (from_error thread (w_errors w1) (Internal m)) as [er r] eqn:E. cbn [snd fst] in *. subst r.
    apply from_error_returned in E as (_ & H1 & H2). repeat split; auto; [discriminate| |right; exists (Internal m); right; eauto].
    intros e' [H|(m' & H & ->)]; [discriminate H|]. injection H as <-. exact H1.
  - discriminate Hr.
Qed.

Lemma last_error_at p w calls thread i :
  (forall j, j < i -> exists thread' c v status, called p w calls j thread' c v (Returned status)) ->
  (forall j e, j < i -> failed_with p w calls j thread e ->
     (forall k e', j < k < i -> ~ failed_with p w calls k thread e') ->
     w_errors (state_at p w calls i) thread = error_text e)
  /\ ((forall j e, j < i -> ~ failed_with p w calls j thread e) ->
      w_errors (state_at p w calls i) thread = w_errors w thread).
Proof.
  induction i as [|i IH]; intros Hall.
  { split; [intros; lia|]. intros _. rewrite state_at_0. reflexivity. }
  destruct (Hall i) as (t & c & v & s & Hc); [lia|]. destruct IH as [IH1 IH2]; [intros; apply Hall; lia|].
  pose proof (call_errors p w calls i t c v s Hc) as (H1 & H2 & H3 & H4). cbv zeta in *.
  (* a step which is not a failure of this thread *)
  assert (Hkeep : (forall e, ~ failed_with p w calls i thread e) ->
    w_errors (state_at p w calls (S i)) thread = w_errors (state_at p w calls i) thread).
  { intros Hn. destruct (Nat.eq_dec thread t) as [->|Ht]; [|apply H1; assumption]. apply H2.
    destruct H4 as [H4|[e H4]]; [exact H4|]. exfalso. apply (Hn e). exists c, v, (Returned s). auto. }
  split.
  - intros j e Hj Hf Hlast. destruct (Nat.eq_dec j i) as [->|Hne].
    + destruct Hf as (c' & v' & r' & [Hc' Hr'] & He). pose proof Hc as [Hc1 Hr1]. rewrite Hc1 in Hc'. injection Hc' as <- <-.
      apply H3. exact He.
    + rewrite Hkeep; [|intros e'; apply Hlast; lia]. apply (IH1 j e); [lia|exact Hf|]. intros. apply Hlast. lia.
  - intros Hn. rewrite Hkeep; [|intros; apply Hn; lia]. apply IH2. intros. apply Hn. lia.
Qed.

Lemma last_error_message p files calls i thread v result :
  called p (world_start files) calls i thread LastError v result ->
  exists text, v = VError text /\ result = Returned 0
  /\ (forall j e, j < i -> failed_with p (world_start files) calls j thread e ->
       (forall k e', j < k < i -> ~ failed_with p (world_start files) calls k thread e') -> text = error_text e)
  /\ ((forall j e, j < i -> ~ failed_with p (world_start files) calls j thread e) -> text = "").
Proof.
  intros Hc. destruct (last_error_at p (world_start files) calls thread i) as [H1 H2].
  { intros j Hj. eapply called_before; eassumption. }
  exists (w_errors (state_at p (world_start files) calls i) thread).
  apply called_step in Hc. apply run_call_body in Hc as (w1 & o & Hb & Hr & _). cbn [call_body] in Hb.
  injection Hb as <- <- <-. repeat split; auto.
Qed.

(** * C35: unwinding *)

(* the message of a panic or an error is all that matters *)
Lemma unwinds_iff p w calls i thread c v result :
  called p w calls i thread c v result ->
  ((exists m, result = Unwound m) <->
   exists e, error_of (snd (call_body p thread (state_at p w calls i) c)) e /\ ~ no_nul (error_text e)).
Proof.
  intros Hc. apply called_step in Hc. apply run_call_body in Hc as (w1 & o & Hb & Hr & _). rewrite Hb. cbn [snd]. subst result.
  unfold catch_unwind, from_error, cstring_new, no_nul. split.
  - destruct o as [[]|e|m|r]; intros [m' H]; try discriminate H.
    + exists e. split; [left; reflexivity|]. destruct (has_nul (error_text e)); [discriminate|discriminate H].
    + exists (Internal m). split; [right; eauto|]. destruct (has_nul (error_text (Internal m))); [discriminate|discriminate H].
  - intros (e & [->|(m & -> & ->)] & Hn).
    + destruct (has_nul (error_text e)); [eexists; reflexivity|exfalso; apply Hn; reflexivity].
    + destruct (has_nul (error_text (Internal m))); [eexists; reflexivity|exfalso; apply Hn; reflexivity].
Qed.

Lemma no_unwinding p files calls i thread c v result m :
  called p (world_start files) calls i thread c v result -> reportable c -> result <> Unwound m.
Proof.
  intros Hc Hrep ->. pose proof (proj1 (unwinds_iff _ _ _ _ _ _ _ _ Hc) (ex_intro _ m eq_refl)) as (e & He & Hn).
  pose proof (proj2 (call_body_good p thread _ c (state_plain p files calls i) Hrep)) as Hq. apply Hn.
  destruct He as [He|(m' & He & ->)]; rewrite He in Hq; [apply Hq|].
  cbn [error_text]. apply no_nul_append; [reflexivity|exact Hq].
Qed.

Lemma unwinds_exactly p w calls i thread c v result :
  called p w calls i thread c v result ->
  ((exists m, result = Unwound m) <->
   exists e, error_of (snd (call_body p thread (state_at p w calls i) c)) e /\ has_nul (error_text e) = true).
Proof.
  intros H. rewrite (unwinds_iff _ _ _ _ _ _ _ _ H). unfold no_nul.
  split; intros (e & H1 & H2); exists e; (split; [exact H1|]); destruct (has_nul (error_text e)); congruence.
Qed.

Lemma last_error_documented p files calls i thread v result :
  called p (world_start files) calls i thread LastError v result ->
  exists text, v = VError text /\ result = Returned 0
  /\ (forall j e, j < i -> failed_with p (world_start files) calls j thread e ->
       (forall k e', j < k < i -> ~ failed_with p (world_start files) calls k thread e') ->
       exists status, reported_as e status text)
  /\ ((forall j e, j < i -> ~ failed_with p (world_start files) calls j thread e) -> text = "").
Proof.
  intros H. apply last_error_message in H as (text & H1 & H2 & H3 & H4). exists text.
  split; [exact H1|]. split; [exact H2|]. split; [|exact H4]. intros j e Hj Hf Hk. rewrite (H3 j e Hj Hf Hk).
  exists (error_code e). apply error_reported.
Qed.
