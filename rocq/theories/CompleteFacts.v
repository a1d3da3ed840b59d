(* Lemmas about Tensor.v: when keys_to_samples and keys_to_properties succeed *)
From Coq Require Import Permutation Sorted.
From Verif Require Import Base BaseFacts LayoutFacts Labels Array Block Tensor Spec SpecTensor LabelsFacts ArrayFacts BlockFacts TensorFacts KeysFacts MergeFacts GroupFacts BlocksFacts MergePropertiesFacts MovedFacts DefinedFacts.
Local Open Scope string_scope.
Local Open Scope list_scope.
Local Open Scope nat_scope.

(** * Outcomes *)

Lemma foldM_exists {A S} (f : S -> A -> outcome S) (P : S -> Prop) l : forall s,
  (forall s x, In x l -> P s -> exists s', f s x = Ok s' /\ P s') ->
  P s -> exists s', foldM f l s = Ok s' /\ P s'.
Proof.
  induction l as [|x l IH]; intros s Hf Hs; cbn [foldM]; [eauto|].
  destruct (Hf s x (or_introl eq_refl) Hs) as (s1 & E & Hs1). rewrite E. cbn [bind].
  apply IH; [|exact Hs1]. intros s' y Hy. apply Hf. right. exact Hy.
Qed.

Lemma mapM_exists {A B} (f : A -> outcome B) l :
  (forall x, In x l -> exists y, f x = Ok y) -> exists ys, mapM f l = Ok ys.
Proof.
  induction l as [|x l IH]; intros Hf; cbn [mapM]; [eauto|].
  destruct (Hf x (or_introl eq_refl)) as (y & ->). destruct IH as (ys & ->); [intros z Hz; apply Hf; right; exact Hz|].
  cbn [bind]. eauto.
Qed.

(* success, or a refusal of the parameters: nothing else *)
Definition clean {A} (o : outcome A) : Prop := (exists a, o = Ok a) \/ exists m, o = Err (InvalidParameter m).

Lemma clean_ok {A} (a : A) : clean (Ok a).
Proof. left. eauto. Qed.

Lemma clean_refused {A} m : clean (Err (InvalidParameter m) : outcome A).
Proof. right. eauto. Qed.

Lemma clean_bind {A B} (o : outcome A) (f : A -> outcome B) :
  clean o -> (forall a, o = Ok a -> clean (f a)) -> clean (bind o f).
Proof. intros [[a ->]|[m ->]] Hf; [exact (Hf a eq_refl)|right; exists m; reflexivity]. Qed.

Lemma clean_mapM {A B} (f : A -> outcome B) l : (forall x, In x l -> clean (f x)) -> clean (mapM f l).
Proof.
  induction l as [|x l IH]; intros Hf; cbn [mapM]; [apply clean_ok|].
  apply clean_bind; [apply Hf; left; reflexivity|]. intros y _.
  apply clean_bind; [apply IH; intros z Hz; apply Hf; right; exact Hz|]. intros ys _. apply clean_ok.
Qed.

(** * Arrays *)

Lemma responsive_working a : responsive a -> a_kind a <> RustEmptyArray -> working a.
Proof. intros Hr Hk. split; [exact Hk|]. intros o Ho op. exact (Hr op o Ho). Qed.

Lemma working_responsive a : working a -> responsive a.
Proof. intros [_ H] op o Ho. exact (H o Ho op). Qed.

(* an output of the moves *)
Definition output_of (k : array_kind) (shape : list nat) (a : eqs_array) : Prop :=
  working a /\ a_kind a = k /\ shape_of a = shape /\ wf_array a.

Lemma output_wf_array k shape a : output_of k shape a -> wf_array a.
Proof. intros (_ & _ & _ & H). exact H. Qed.

Lemma create_output a shape : working a -> exists a', array_create a shape = Ok a' /\ output_of (a_kind a) shape a'.
Proof.
  intros Hw. unfold array_create. rewrite call_working by exact Hw. pose proof (proj1 Hw) as Hk.
  destruct (a_kind a) as [| |o] eqn:E; [|contradiction|].
  all: exists (with_layout a (nd_zeros shape) (default_strides shape)); split; [reflexivity|].
  all: split; [exact Hw|]; split; [exact E|]; split; [reflexivity|].
  all: apply wf_nd_array; [apply nd_zeros_wf|intros _; apply default_strides_length].
Qed.

Lemma move_output k n cs P output input ms start stop np n_in :
  output_of k (n :: cs ++ [P]) output -> a_kind input = k ->
  shape_of input = n_in :: cs ++ [np] -> stop = start + np -> stop <= P ->
  Forall (fun m => sm_input m < n_in /\ sm_output m < n) ms ->
  exists output', array_move_samples_from output input ms start stop = Ok output' /\ output_of k (n :: cs ++ [P]) output'.
Proof.
  intros (Hw & Hk & Hs & Hwf) Hki Hin Hstop HP Hms.
  destruct (array_move_succeeds output input ms start stop n_in n cs np P) as (output' & E); try assumption;
    [congruence|exact (wf_array_nd _ Hwf (proj1 Hw))|].
  exists output'. split; [exact E|].
  destruct (array_move_spec _ _ _ _ _ _ n_in n cs np P E Hin Hs Hstop HP (wf_array_nd _ Hwf (proj1 Hw))) as (E1 & E2 & _ & E3 & _).
  split; [|split; [congruence|split; [congruence|exact (array_move_wf _ _ _ _ _ _ Hwf E)]]].
  destruct Hw as [Hw1 Hw2]. split; [congruence|]. rewrite E1, E2. exact Hw2.
Qed.

(** * Samples *)

Lemma mapping_succeeds merged sources : forall start,
  wf_labels merged -> (forall r, In r sources -> In r (rows merged)) ->
  exists ms, samples_mapping_from start merged sources = Ok ms.
Proof.
  induction sources as [|r sources IH]; intros start Hwf Hin; cbn [samples_mapping_from]; [eauto|].
  destruct (In_nth_error (rows merged) r) as [i Hi]; [apply Hin; left; reflexivity|].
  rewrite (proj2 (labels_position_ok _ _ _ Hwf) Hi). cbn [bind expect_some].
  destruct (IH (start + 1) Hwf) as (ms & ->); [intros r' Hr'; apply Hin; right; exact Hr'|]. cbn [bind]. eauto.
Qed.

Lemma labels_build_succeeds names rs :
  good_names names -> good_rows (length names) rs -> exists l, labels_build names rs = Ok l.
Proof. intros H1 H2. eexists. apply labels_build_ok. split; [exact H1|]. split; [exact H2|reflexivity]. Qed.

Lemma nub_length_le l : length (nub l) <= length l.
Proof. apply NoDup_incl_length; [apply nub_NoDup|]. intros x. apply nub_In. Qed.

Lemma merged_NoDup (sort : bool) l : NoDup (if sort then sort_rows (nub l) else nub l).
Proof. destruct sort; [apply sort_rows_NoDup|]; apply nub_NoDup. Qed.

Lemma merged_length (sort : bool) l : length (if sort then sort_rows (nub l) else nub l) <= length l.
Proof. apply NoDup_incl_length; [apply merged_NoDup|]. intros x. apply merged_rows. Qed.

Lemma merge_samples_succeeds k0 b0 rest names sort n :
  let blocks := (k0, b0) :: rest in
  let add := length (labels_names (bb_samples (tb_values b0))) <? length names in
  Forall (fun kb : KeyAndBlock => wf_block (snd kb)) blocks ->
  (forall k b, In (k, b) blocks -> length (labels_names (bb_samples (tb_values b))) = n) ->
  (forall k b, In (k, b) blocks -> (if add then n + length k else n) = length names) ->
  good_names names ->
  exists merged maps, merge_samples blocks names sort = Ok (merged, maps).
Proof.
  intros blocks add Hwf Hn Hk Hnames. unfold merge_samples.
  change (index_slice blocks 0) with (Ok (k0, b0) : outcome KeyAndBlock). cbn [bind snd].
  change (labels_size (bb_samples (tb_values b0)) <? length names) with add.
  rewrite (mapM_ok_map _ (fun kb => map (extend add (fst kb)) (block_samples kb))).
  2:{ intros kb Hin. apply extended_samples_ok. rewrite Forall_forall in Hwf. apply Hwf. exact Hin. }
  cbn [bind]. rewrite is_insert_all_nub. rewrite <- flat_map_concat_map. fold (all_samples add blocks).
  destruct (labels_build_succeeds names (if sort then sort_rows (nub (all_samples add blocks)) else nub (all_samples add blocks)))
    as (merged & E).
  { exact Hnames. }
  { split; [|apply merged_NoDup]. apply Forall_forall. intros r Hr. apply merged_rows in Hr.
    apply in_flat_map in Hr as ([k b] & Hin & Hr). apply in_map_iff in Hr as (s & <- & Hs). cbn [fst].
    rewrite Forall_forall in Hwf. pose proof (block_samples_axis _ (Hwf _ Hin)) as [Hax _].
    pose proof (wf_rows_length _ _ Hax Hs) as El. cbn [snd] in El. rewrite (Hn _ _ Hin) in El.
    specialize (Hk _ _ Hin). unfold extend. destruct add; [rewrite app_length|]; lia. }
  rewrite E. cbn [bind]. pose proof (labels_build_wf _ _ _ E) as Hwm.
  assert (Hne : names <> []).
  { intros ->. unfold add in *. cbn in Hk. specialize (Hk k0 b0 (or_introl eq_refl)).
    rewrite <- (Hn k0 b0 (or_introl eq_refl)) in Hk. apply length_zero_iff_nil in Hk.
    inversion Hwf as [|? ? Hb _]; subst. apply (proj2 (block_samples_axis _ Hb)). exact Hk. }
  apply (labels_build_is_labels _ _ _ Hne) in E.
  destruct (mapM_exists (samples_mapping_from 0 merged) (map (fun kb => map (extend add (fst kb)) (block_samples kb)) blocks))
    as (maps & ->).
  { intros sources Hs. apply in_map_iff in Hs as (kb & <- & Hkb). apply mapping_succeeds; [exact Hwm|].
    intros r Hr. rewrite (is_labels_rows _ _ _ E). apply merged_rows. apply in_flat_map. exists kb. auto. }
  cbn [bind]. eauto.
Qed.

(** * Gradient samples *)

Lemma translate_succeeds p ms i rest m :
  nth_error ms i = Some m -> sm_input m = i -> (Z.of_nat (sm_output m) < i32_max)%Z -> (Z.of_nat i < 2 ^ 63)%Z ->
  translate_gradient_sample p ms (Z.of_nat i :: rest) = Ok (Z.of_nat (sm_output m) :: rest).
Proof.
  intros Hm Hi Ho Hb. unfold translate_gradient_sample.
  change (index_slice (Z.of_nat i :: rest) 0) with (Ok (Z.of_nat i)). cbn [bind].
  unfold label_usize. rewrite (proj2 (Z.ltb_ge _ _)) by lia. cbn [bind].
  unfold index_slice_Z. rewrite (proj2 (Z.leb_le _ _)) by lia.
  assert (Hl : i < length ms) by (apply nth_error_Some; congruence).
  rewrite (proj2 (Z.ltb_lt (Z.of_nat i) (Z.of_nat (length ms)))) by lia. rewrite (proj2 (Z.ltb_lt _ _) Hb). cbn [andb].
  rewrite Nat2Z.id. unfold index_slice. rewrite Hm. cbn [bind].
  rewrite Hi, Z.eqb_refl. unfold label_from_usize. rewrite (proj2 (Z.ltb_lt _ _) Ho).
  destruct p; reflexivity.
Qed.

Lemma translate_rows p ms merged sources b q g :
  mapping_for merged sources ms -> length sources = length (rows (bb_samples (tb_values b))) ->
  (Z.of_nat (length merged) <= i32_max)%Z -> (Z.of_nat (length sources) <= i32_max)%Z ->
  gradient_samples_in_range b -> In (q, g) (tb_gradients b) ->
  exists tr, mapM (translate_gradient_sample p ms) (rows (bb_samples g)) = Ok tr.
Proof.
  intros [Hl Hm] Hs Hmax Hmax2 Hr Hin. apply mapM_exists. intros row Hrow.
  destruct (Hr q g row Hin Hrow) as (i & rest & -> & Hi).
  destruct (nth_error ms i) as [m|] eqn:Em; [|apply nth_error_None in Em; lia].
  destruct (Hm _ _ Em) as (E1 & r & _ & E2).
  eexists. apply translate_succeeds; [exact Em|exact E1| |].
  - assert (sm_output m < length merged) by (apply nth_error_Some; congruence). lia.
  - unfold i32_max in Hmax2. apply Z.le_lt_trans with (2147483647)%Z; [lia|reflexivity].
Qed.

Lemma translate_length p ms row row' : translate_gradient_sample p ms row = Ok row' -> length row' = length row.
Proof. intros H. apply translate_ok in H as (i & rest & m & -> & _ & ->). reflexivity. Qed.

Lemma merge_gradient_samples_succeeds p blocks q maps names :
  length maps = length blocks -> blocks <> [] -> good_names names -> names <> [] ->
  (forall k b ms, In ((k, b), ms) (combine blocks maps) ->
     exists g tr, tensor_block_gradient b q = Some g /\ axis_labels (bb_samples g) /\ labels_names (bb_samples g) = names
       /\ mapM (translate_gradient_sample p ms) (rows (bb_samples g)) = Ok tr) ->
  exists samples, merge_gradient_samples p blocks q maps = Ok samples.
Proof.
  intros Hlen Hne Hgood Hnn H. unfold merge_gradient_samples.
  match goal with |- exists s, bind (foldM ?f _ _) _ = _ => set (step := f) end.
  destruct (foldM_exists step (fun st => (fst st = None \/ fst st = Some names)
       /\ StronglySorted row_lt (snd st) /\ forall r, In r (snd st) -> length r = length names)
     (combine blocks maps) (None, [])) as ([ns set] & E & Hn & Hss & Hlens).
  { intros [ns set] [[k b] ms] Hin (Hn & Hss & Hl). destruct (H k b ms Hin) as (g & tr & Hg & [Hw Hgne] & Hgn & Htr).
    unfold step. rewrite Hg. cbn [expect_some bind].
    rewrite (proj2 (labels_iter_ok _ _ Hw) (conj Hgne eq_refl)). cbn [bind]. rewrite Htr. cbn [bind].
    eexists. split; [reflexivity|]. cbn [fst snd] in *. split; [|split].
    - right. destruct Hn as [->| ->]; congruence.
    - apply fold_btree_insert_sorted. exact Hss.
    - intros r Hr. apply fold_btree_insert_In in Hr as [Hr|Hr]; [auto|].
      apply mapM_ok in Htr. apply In_nth_error in Hr as [i Hi].
      destruct (Forall2_nth_error_r _ _ _ _ _ Htr Hi) as (row & Hrow & Et).
      rewrite (translate_length _ _ _ _ Et). rewrite <- Hgn. apply wf_rows_length; [exact Hw|]. eapply nth_error_In; eauto. }
  { split; [left; reflexivity|]. split; [constructor|]. intros r []. }
  match goal with |- exists s, bind ?o _ = _ => replace o with (Ok (ns, set)) by (symmetry; exact E) end. cbn [bind].
  assert (Hns : ns = Some names).
  { cbn [fst] in Hn. destruct Hn as [->|Hn]; [|exact Hn]. exfalso.
    destruct blocks as [|kb blocks]; [contradiction|]. destruct maps as [|ms maps]; [discriminate|].
    cbn [combine foldM] in E. apply bind_ok in E as ([n1 s1] & E1 & E2).
    assert (Hn1 : exists x, n1 = Some x).
    { destruct kb as [k b]. unfold step in E1. bind_inv E1. bind_inv E1. bind_inv E1. inversion E1. eauto. }
    destruct Hn1 as [x ->].
    apply (foldM_inv _ (fun st => fst st <> None)) in E2; [|intros s [[k b] ms'] s' _ Hs Hst|discriminate].
    - apply E2. reflexivity.
    - destruct s as [[y|] set']; [|contradiction]. unfold step in Hst. bind_inv Hst. bind_inv Hst. bind_inv Hst.
      inversion Hst. discriminate. }
  rewrite Hns. cbn [expect_some bind]. apply labels_build_succeeds; [exact Hgood|].
  split; [apply Forall_forall; exact Hlens|]. apply sorted_NoDup. exact Hss.
Qed.

Lemma samples_to_move_succeeds p samples ms rs tr : forall start,
  wf_labels samples -> mapM (translate_gradient_sample p ms) rs = Ok tr ->
  (forall r, In r tr -> In r (rows samples)) ->
  exists moves, gradient_samples_to_move p start samples ms rs = Ok moves.
Proof.
  revert tr. induction rs as [|r rs IH]; intros tr start Hwf Htr Hin; cbn [gradient_samples_to_move]; [eauto|].
  cbn [mapM] in Htr. bind_inv Htr. rewrite Hb. bind_inv Htr. inversion Htr; subst tr. cbn [bind].
  destruct (In_nth_error (rows samples) a) as [i Hi]; [apply Hin; left; reflexivity|].
  rewrite (proj2 (labels_position_ok _ _ _ Hwf) Hi). cbn [bind expect_some].
  destruct (IH a0 (start + 1) Hwf Hb0) as (moves & ->); [intros r' Hr'; apply Hin; right; exact Hr'|]. cbn [bind]. eauto.
Qed.

(** * Gradients *)

(* a block which can be merged with the block [b0] *)
Record mergeable_block (k : array_kind) (b0 b : TensorBlock) : Prop := {
  mb_wf : wf_block b;
  mb_kind : a_kind (bb_data (tb_values b)) = k;
  mb_range : gradient_samples_in_range b;
  mb_names : same_gradient_names b0 b;
  mb_agree : agreeing_gradients b b0
}.

Lemma combine_split_map {A B C} (f : A -> B) (g : A -> C) l : combine (map f l) (map g l) = map (fun x => (f x, g x)) l.
Proof. induction l as [|x l IH]; cbn [map combine]; [reflexivity|]. rewrite IH. reflexivity. Qed.

Definition counts (l : list Labels) : list nat := map (fun l => length (rows l)) l.

Section Gradients.
  Variables (p : profile) (k : array_kind) (b0 : TensorBlock) (parts : list part) (add : bool)
            (merged : list (list Z)) (P : nat).
  Hypothesis Hne : parts <> [].
  Hypothesis Hpart : forall x, In x parts -> mergeable_block k b0 (part_block x).
  Hypothesis Hmap : forall x, In x parts -> mapping_for merged (part_samples add x) (part_mapping x).
  Hypothesis Hmax : (Z.of_nat (length merged) <= i32_max)%Z.
  Hypothesis Hmaxs : forall x, In x parts -> (Z.of_nat (length (rows (bb_samples (tb_values (part_block x))))) <= i32_max)%Z.
  Hypothesis Hrange : forall x start stop, In x parts -> part_range x = Some (start, stop) ->
    stop = start + length (rows (bb_properties (tb_values (part_block x)))) /\ stop <= P.

  Lemma part_gradient x q g0 : In x parts -> In (q, g0) (tb_gradients b0) ->
    exists g tr, In (q, g) (tb_gradients (part_block x)) /\ translated p q (part_block x) (part_mapping x) g tr
      /\ labels_names (bb_samples g) = labels_names (bb_samples g0).
  Proof.
    intros Hx Hg0. destruct (Hpart x Hx) as [Hwf Hk Hr Hn Ha].
    destruct (Hn q g0 Hg0) as (g & Hg & En & _).
    assert (Hl : length (part_samples add x) = length (rows (bb_samples (tb_values (part_block x))))) by apply map_length.
    destruct (translate_rows p (part_mapping x) merged (part_samples add x) (part_block x) q g) as (tr & Htr); auto.
    { rewrite Hl. apply Hmaxs. exact Hx. }
    exists g, tr. split; [exact Hg|]. split; [|congruence]. split; [|exact Htr].
    apply (wf_block_gradient _ _ _ Hwf Hg).
  Qed.

  Lemma gradient_made q g0 : wf_basic g0 -> In (q, g0) (tb_gradients b0) ->
    exists samples, merge_gradient_samples p (map part_kb parts) q (map part_mapping parts) = Ok samples
      /\ axis_labels samples /\ labels_names samples = labels_names (bb_samples g0)
      /\ forall s0, output_of k (length (rows samples) :: counts (bb_components g0) ++ [P]) s0 ->
         exists s, foldM (grad_move p q (bb_components g0) samples) parts s0 = Ok s
           /\ output_of k (length (rows samples) :: counts (bb_components g0) ++ [P]) s.
  Proof.
    intros Hwg0 Hg0. destruct (wf_basic_axes _ Hwg0) as (Hsax & Hcax & _).
    assert (Hlen : length (map part_mapping parts) = length (map part_kb parts)) by (rewrite !map_length; reflexivity).
    destruct (merge_gradient_samples_succeeds p (map part_kb parts) q (map part_mapping parts) (labels_names (bb_samples g0)))
      as (samples & E).
    { exact Hlen. }
    { destruct parts; [contradiction|discriminate]. }
    { destruct Hsax as [(ns & rs & His) _]. rewrite (is_labels_names _ _ _ His). apply His. }
    { apply Hsax. }
    { intros k' b ms Hin. rewrite combine_split_map in Hin. apply in_map_iff in Hin as (x & Ex & Hx).
      destruct (part_gradient x q g0 Hx Hg0) as (g & tr & Hg & [Ht Htr] & En).
      inversion Ex as [[E1 E2]]. assert (b = part_block x) by (unfold part_block; unfold part_kb in E1; rewrite E1; reflexivity). subst b.
      exists g, tr. split; [exact Ht|]. split; [|split; [exact En|exact Htr]].
      destruct (Hpart x Hx) as [Hwf _ _ _ _]. apply (gradient_axis _ _ _ Hwf Ht). }
    exists samples. split; [exact E|].
    assert (Hwfs : Forall (fun kb : KeyAndBlock => wf_block (snd kb)) (map part_kb parts)).
    { apply Forall_forall. intros kb Hkb. apply in_map_iff in Hkb as (x & <- & Hx). exact (mb_wf _ _ _ (Hpart x Hx)). }
    destruct (merge_gradient_samples_ok _ _ _ _ _ Hwfs Hlen E) as (gts & HF & Hws & _ & Hrows & gt0 & Hgt0 & Hnames).
    rewrite combine_split_map in HF.
    assert (Hx : forall x, In x parts -> exists g tr, In (q, g) (tb_gradients (part_block x))
        /\ translated p q (part_block x) (part_mapping x) g tr
        /\ labels_names (bb_samples g) = labels_names (bb_samples g0)
        /\ (forall r, In r tr -> In r (rows samples))).
    { intros x Hx. destruct (part_gradient x q g0 Hx Hg0) as (g & tr & Hg & Ht & En).
      exists g, tr. split; [exact Hg|]. split; [exact Ht|]. split; [exact En|]. intros r Hr. apply Hrows.
      apply In_nth_error in Hx as [i Hi].
      assert (Hi' : nth_error (map (fun x => (part_kb x, part_mapping x)) parts) i = Some (part_kb x, part_mapping x))
        by (rewrite nth_error_map, Hi; reflexivity).
      destruct (Forall2_nth_error_l _ _ _ _ _ HF Hi') as (gt & Hgt & Ht').
      destruct (translated_fun _ _ _ _ _ _ _ _ Ht Ht') as [_ ->]. exists gt. split; [eapply nth_error_In; eauto|exact Hr]. }
    assert (Hsn : labels_names samples = labels_names (bb_samples g0)).
    { rewrite Hnames. destruct parts as [|x0 ps] eqn:Ep; [contradiction|].
      destruct (Hx x0 (or_introl eq_refl)) as (g & tr & _ & Ht & En & _).
      cbn [map] in HF. inversion HF as [|? gt ? gts' Ht' _]; subst gts. cbn [nth_error] in Hgt0. inversion Hgt0; subst gt0.
      destruct (translated_fun _ _ _ _ _ _ _ _ Ht Ht') as [-> _]. exact En. }
    split; [split; [exact Hws|rewrite Hsn; apply Hsax]|]. split; [exact Hsn|].
    intros s0 Hs0. apply foldM_exists; [|exact Hs0]. clear s0 Hs0. intros s x Hin Hs. unfold grad_move.
    destruct (part_range x) as [[start stop]|] eqn:Er; [|eauto].
    destruct (Hrange x start stop Hin Er) as [Estop Hle].
    destruct (Hx x Hin) as (g & tr & Hg & [Ht Htr] & En & Hrs). destruct (Hpart x Hin) as [Hwf Hk Hr Hn Ha].
    destruct (wf_block_gradient _ _ _ Hwf Hg) as (Hwg & (_ & _ & Hgp & Hgk) & _).
    destruct (wf_basic_axes _ Hwg) as ([Hgs Hgsn] & Hgc & _).
    pose proof (Ha q g g0 Hg Hg0) as Hcs.
    unfold move_gradient. rewrite Ht. cbn [expect_some bind].
    rewrite (proj2 (labels_list_eqb_same _ _ (axes_wf _ Hgc) (axes_wf _ Hcax)) Hcs).
    assert (Hd : debug_assert p true "assertion failed: *gradient.components == *new_components" = Ok tt) by (destruct p; reflexivity).
    rewrite Hd. cbn [bind].
    rewrite (proj2 (labels_iter_ok _ _ Hgs) (conj Hgsn eq_refl)). cbn [bind].
    destruct (samples_to_move_succeeds p samples (part_mapping x) (rows (bb_samples g)) tr 0 Hws Htr Hrs) as (moves & Em).
    rewrite Em. cbn [bind].
    apply (move_output k _ (counts (bb_components g0)) P s (bb_data g) moves start stop
             (length (rows (bb_properties g))) (length (rows (bb_samples g)))).
    - exact Hs.
    - congruence.
    - unfold counts. rewrite <- (Forall2_same_counts _ _ Hcs). apply wf_basic_shape. exact Hwg.
    - rewrite Hgp. exact Estop.
    - exact Hle.
    - destruct (gradient_samples_to_move_ok _ _ _ _ _ _ Hws Em) as (tr' & Htr' & Hl & Hm).
      assert (tr' = tr) by congruence. subst tr'. pose proof Htr as Htr2. apply mapM_ok in Htr2. apply Forall2_len in Htr2.
      apply Forall_forall. intros m Hmin. apply In_nth_error in Hmin as [i Hi].
      assert (i < length moves) by (apply nth_error_Some; congruence).
      destruct (Hm _ _ Hi) as (E1 & r & _ & E2). split; [lia|]. apply nth_error_Some. congruence.
  Qed.

  (* adding all the gradients of the first block *)
  Lemma gradients_added (step : TensorBlock -> string * BasicBlock -> outcome TensorBlock) newp gradients : forall nb,
    (forall q, In q (map fst (tb_gradients b0)) -> has_nul q = false) ->
    wf_block b0 -> incl gradients (tb_gradients b0) -> NoDup (map fst gradients) ->
    (forall nb q g, In (q, g) (tb_gradients b0) -> exists data samples,
        step nb (q, g) = add_merged_gradient nb q data samples (bb_components g)
        /\ output_of k (length (rows samples) :: counts (bb_components g) ++ [P]) data
        /\ axis_labels samples /\ labels_names samples = labels_names (bb_samples g)) ->
    wf_basic (tb_values nb) -> bb_properties (tb_values nb) = newp -> length (rows newp) = P ->
    responsive (bb_data (tb_values nb)) ->
    Forall2 same_labels (bb_components (tb_values b0)) (bb_components (tb_values nb)) ->
    a_kind (bb_data (tb_values nb)) = k ->
    (forall q, In q (map fst gradients) -> ~ In q (map fst (tb_gradients nb))) ->
    exists nb', foldM step gradients nb = Ok nb'.
  Proof.
    induction gradients as [|[q g] gradients IH]; intros nb Hnul Hb0 Hincl Hnd Hstep Hwnb Hnewp HP Hresp Hcomp Hkind Hnew;
      cbn [foldM]; [eauto|].
    assert (Hqg : In (q, g) (tb_gradients b0)) by (apply Hincl; left; reflexivity).
    destruct (Hstep nb q g Hqg) as (data & samples & E & Hout & Hsax & Hsn). rewrite E.
    destruct (wf_block_gradient _ _ _ Hb0 Hqg) as (Hg & ((others & Hsample) & Hends & _ & _) & _).
    destruct (wf_basic_axes _ Hg) as (_ & Hcax & _). destruct Hg as (_ & _ & _ & Hone & Hcnd).
    destruct (wf_basic_axes _ Hwnb) as (_ & _ & Hpax).
    pose proof Hout as (Hw & Hk & Hs & Hwf).
    pose proof (working_responsive _ Hw) as Hdr.
    assert (Hadd : tensor_block_add_gradient nb q data samples (bb_components g)
       = (mk_block (tb_values nb) (tb_gradients nb ++ [(q, mk_basic data samples (bb_components g) (bb_properties (tb_values nb)))])
            (tb_gradient_parameters nb ++ [q]), Ok tt)).
    { apply add_gradient_ok; [exact Hwnb|apply Hsax|apply axes_wf; exact Hcax| | | | |].
      - apply Hnul. apply (in_map fst) in Hqg. exact Hqg.
      - apply Hdr.
      - apply Hdr.
      - apply Hresp.
      - split; [|reflexivity]. split; [apply Hnew; left; reflexivity|]. split.
        + intros ->. destruct Hb0 as (_ & _ & _ & _ & Hv). apply Hv. apply (in_map fst) in Hqg. exact Hqg.
        + split.
          * split; [cbn [bb_samples]; exists others; congruence|]. split; [|split; [reflexivity|cbn [bb_data]; congruence]].
            cbn [bb_components]. destruct Hends as (prefix & rest & Ep & Hrest). exists prefix, rest. split; [exact Ep|].
            eapply Forall2_same_trans; eauto.
          * split; [|split; [exact Hone|split; [exact Hcnd|split; [apply Hsax|apply Hpax]]]].
            rewrite Hs. cbn [map]. rewrite map_app. cbn [map]. unfold counts. rewrite Hnewp, HP. reflexivity. }
    unfold add_merged_gradient. rewrite Hadd. cbn [expect bind].
    apply IH; auto.
    - intros x Hx. apply Hincl. right. exact Hx.
    - inversion Hnd; assumption.
    - intros q' Hq'. cbn [tb_gradients]. rewrite map_app. cbn [map]. intros Hi. apply in_app_or in Hi as [Hi|[Hi|[]]].
      + revert Hi. apply Hnew. right. exact Hq'.
      + cbn [fst] in Hi. subst q'. inversion Hnd. contradiction.
  Qed.
End Gradients.

(** * Groups of blocks *)

Lemma set_slice_first_ok {A} (n n' : A) l : set_slice (n :: l) 0 n' = Ok (n' :: l).
Proof. reflexivity. Qed.

Lemma set_slice_last_ok {A} (n : A) l x y :
  set_slice (n :: l ++ [x]) (length (n :: l ++ [x]) - 1) y = Ok (n :: l ++ [y]).
Proof.
  destruct (set_slice (n :: l ++ [x]) (length (n :: l ++ [x]) - 1) y) as [shape|e|m|r] eqn:E.
  - f_equal. apply set_slice_last in E. exact E.
  - exfalso. unfold set_slice in E. destruct (_ <? _); discriminate.
  - exfalso. unfold set_slice in E.
    destruct (Nat.ltb_spec (length (n :: l ++ [x]) - 1) (length (n :: l ++ [x]))) as [H|H]; [discriminate|].
    cbn [length] in H. lia.
  - exfalso. unfold set_slice in E. destruct (_ <? _); discriminate.
Qed.

Lemma length_sum {A B} (f : A -> list B) l : length (flat_map f l) = list_sum (map (fun x => length (f x)) l).
Proof. induction l as [|x l IH]; cbn [flat_map map list_sum fold_right]; [reflexivity|]. rewrite app_length, IH. reflexivity. Qed.

(* how many samples there are in these blocks *)
Definition sample_count (blocks : list TensorBlock) : nat :=
  list_sum (map (fun b => length (rows (bb_samples (tb_values b)))) blocks).

Lemma sample_count_in blocks b : In b blocks -> length (rows (bb_samples (tb_values b))) <= sample_count blocks.
Proof.
  unfold sample_count. induction blocks as [|b' blocks IH]; intros [].
  - subst b'. cbn [map list_sum fold_right]. lia.
  - cbn [map list_sum fold_right]. specialize (IH H). unfold list_sum in IH. lia.
Qed.

Lemma all_samples_count add (blocks : list KeyAndBlock) : length (all_samples add blocks) = sample_count (map snd blocks).
Proof.
  unfold all_samples, sample_count. rewrite length_sum, map_map. f_equal. apply map_ext. intros kb. apply map_length.
Qed.

Record mergeable_group (k : array_kind) (b0 : TensorBlock) (blocks : list KeyAndBlock) : Prop := {
  mg_block : forall key b, In (key, b) blocks -> mergeable_block k b0 b;
  mg_samples : forall key b, In (key, b) blocks ->
    labels_names (bb_samples (tb_values b)) = labels_names (bb_samples (tb_values b0));
  mg_responsive : responsive_block b0;
  mg_kind : k <> RustEmptyArray;
  mg_nul : forall q, In q (map fst (tb_gradients b0)) -> has_nul q = false;
  mg_count : (Z.of_nat (sample_count (map snd blocks)) <= i32_max)%Z
}.

Lemma group_wf_blocks k b0 blocks : mergeable_group k b0 blocks -> Forall (fun kb : KeyAndBlock => wf_block (snd kb)) blocks.
Proof. intros H. apply Forall_forall. intros [key b] Hin. exact (mb_wf _ _ _ (mg_block _ _ _ H key b Hin)). Qed.

Lemma group_sample_count k b0 blocks key b :
  mergeable_group k b0 blocks -> In (key, b) blocks ->
  (Z.of_nat (length (rows (bb_samples (tb_values b)))) <= i32_max)%Z.
Proof.
  intros H Hin. pose proof (mg_count _ _ _ H) as Hc.
  pose proof (sample_count_in (map snd blocks) b) as Hs. specialize (Hs (in_map snd _ _ Hin)). lia.
Qed.

Lemma check_same_samples_clean first blocks : clean (check_same_labels_for_samples first blocks).
Proof.
  induction blocks as [|[k b] blocks IH]; cbn [check_same_labels_for_samples]; [apply clean_ok|].
  destruct (negb _); [apply clean_refused|]. destruct (negb _); [apply clean_refused|]. exact IH.
Qed.

Lemma check_same_properties_clean first hk blocks : clean (check_same_labels_for_properties first hk blocks).
Proof.
  induction blocks as [|[k b] blocks IH]; cbn [check_same_labels_for_properties]; [apply clean_ok|].
  destruct (negb _); [apply clean_refused|]. destruct (andb _ _); [apply clean_refused|]. exact IH.
Qed.

(* everything after the checks of merge_blocks_along_samples *)
Lemma merge_along_samples_succeeds p k k0 b0 others extracted sort :
  let blocks := (k0, b0) :: others in
  mergeable_group k b0 blocks ->
  extracted <> [] ->
  (forall key b, In (key, b) blocks -> length key = length extracted) ->
  good_names (labels_names (bb_samples (tb_values b0)) ++ extracted) ->
  check_same_labels_for_samples (tb_values b0) blocks = Ok tt ->
  exists nb, merge_blocks_along_samples p blocks extracted sort = Ok nb.
Proof.
  intros blocks Hg Hext Hkey Hnames Hchk. pose proof (group_wf_blocks _ _ _ Hg) as Hwf.
  unfold merge_blocks_along_samples. unfold blocks at 1. fold blocks. rewrite Hchk. cbn [bind].
  assert (Hin0 : In (k0, b0) blocks) by (left; reflexivity).
  pose proof (mb_wf _ _ _ (mg_block _ _ _ Hg _ _ Hin0)) as Hb0.
  pose proof (mb_kind _ _ _ (mg_block _ _ _ Hg _ _ Hin0)) as Hk0.
  pose proof (proj1 Hb0) as Hv0. destruct (wf_basic_axes _ Hv0) as (Hs0 & Hc0 & Hp0).
  rewrite (check_same_samples_ok _ _ Hv0 Hwf) in Hchk.
  assert (Hadd : (length (labels_names (bb_samples (tb_values b0))) <?
     length (labels_names (bb_samples (tb_values b0)) ++ extracted)) = true).
  { apply Nat.ltb_lt. rewrite app_length. destruct extracted; [contradiction|cbn [length]; lia]. }
  destruct (merge_samples_succeeds k0 b0 others (labels_names (bb_samples (tb_values b0)) ++ extracted) sort
              (length (labels_names (bb_samples (tb_values b0))))) as (merged & maps & Hms).
  { exact Hwf. }
  { intros key b Hin. rewrite (mg_samples _ _ _ Hg _ _ Hin). reflexivity. }
  { intros key b Hin. rewrite Hadd, app_length, (Hkey key b Hin). reflexivity. }
  { exact Hnames. }
  fold blocks in Hms. rewrite Hms. cbn [bind].
  assert (Hnames' : labels_names (bb_samples (tb_values b0)) ++ extracted <> []).
  { intros E. apply app_eq_nil in E as [_ E]. contradiction. }
  apply merge_samples_ok in Hms; [|exact Hwf|assumption]. rewrite Hadd in Hms. fold blocks in Hms. destruct Hms as [Hmerged Hmaps].
  assert (Hmax : axis_labels merged).
  { split; [eexists; eexists; exact Hmerged|]. rewrite (is_labels_names _ _ _ Hmerged). assumption. }
  assert (Hcount : (Z.of_nat (length (rows merged)) <= i32_max)%Z).
  { rewrite (is_labels_rows _ _ _ Hmerged). pose proof (merged_length sort (all_samples true blocks)) as Hl.
    rewrite all_samples_count in Hl. pose proof (mg_count _ _ _ Hg). lia. }
  pose proof (Forall2_len _ _ _ Hmaps) as Hlen.
  pose proof (responsive_working _ (proj1 (mg_responsive _ _ _ Hg))) as Hwork0.
  rewrite Hk0 in Hwork0. specialize (Hwork0 (mg_kind _ _ _ Hg)).
  rewrite (proj2 (array_shape_ok _ _) (conj (proj1 (mg_responsive _ _ _ Hg) OpShape) eq_refl)). cbn [bind].
  rewrite (labels_count_axis _ Hmax). cbn [bind]. rewrite (wf_basic_shape _ Hv0), set_slice_first_ok. cbn [bind].
  destruct (create_output (bb_data (tb_values b0)) (length (rows merged) :: map (fun l => length (rows l)) (bb_components (tb_values b0))
              ++ [length (rows (bb_properties (tb_values b0)))]) Hwork0) as (s0 & -> & Hs0').
  rewrite Hk0 in Hs0'. cbn [bind].
  rewrite (labels_count_axis _ Hp0). cbn [bind]. set (P := length (rows (bb_properties (tb_values b0)))) in *.
  set (parts := map (sample_part P) (combine blocks maps)).
  assert (Hpkb : map part_kb parts = blocks).
  { unfold parts. rewrite map_map. transitivity (map fst (combine blocks maps)); [reflexivity|apply combine_fst; assumption]. }
  assert (Hpm : map part_mapping parts = maps).
  { unfold parts. rewrite map_map. transitivity (map snd (combine blocks maps)); [reflexivity|apply combine_snd; assumption]. }
  assert (Hin_parts : forall x, In x parts -> In (part_key x, part_block x) blocks /\ part_range x = Some (0, P)).
  { intros x Hx. unfold parts in Hx. apply in_map_iff in Hx as ([[key b] ms] & <- & Hx). simpl. apply in_combine_l in Hx. auto. }
  assert (Hmap : forall x, In x parts -> mapping_for (rows merged) (part_samples true x) (part_mapping x)).
  { intros x Hx. unfold parts in Hx. apply in_map_iff in Hx as ([[key b] ms] & <- & Hx).
    apply (Forall2_combine_In _ _ _ _ _ Hmaps Hx). }
  assert (Hprops : forall x, In x parts -> length (rows (bb_properties (tb_values (part_block x)))) = P).
  { intros x Hx. apply Hin_parts in Hx as [Hx _]. rewrite Forall_forall in Hchk. apply Hchk in Hx as [_ [_ Hx]].
    cbn [snd] in Hx. unfold P. rewrite Hx. reflexivity. }
  assert (Hcomps : forall x, In x parts -> counts (bb_components (tb_values (part_block x))) = counts (bb_components (tb_values b0))).
  { intros x Hx. apply Hin_parts in Hx as [Hx _]. rewrite Forall_forall in Hchk. apply Hchk in Hx as [Hx _].
    apply Forall2_same_counts. exact Hx. }
  assert (Hpart : forall x, In x parts -> mergeable_block k b0 (part_block x)).
  { intros x Hx. apply Hin_parts in Hx as [Hx _]. exact (mg_block _ _ _ Hg _ _ Hx). }
  assert (Hrange : forall x start stop, In x parts -> part_range x = Some (start, stop) ->
     stop = start + length (rows (bb_properties (tb_values (part_block x)))) /\ stop <= P).
  { intros x start stop Hx Er. rewrite (Hprops x Hx). apply Hin_parts in Hx as [_ Hx]. rewrite Hx in Er. inversion Er. lia. }
  (* the values *)
  match goal with |- exists nb, bind (foldM ?f _ _) _ = _ => set (move := f) end.
  destruct (foldM_exists move (output_of k (length (rows merged) :: counts (bb_components (tb_values b0)) ++ [P]))
     (combine blocks maps) s0) as (data & Edata & Hdata).
  { intros s [[key b] ms] Hin Hs. unfold move.
    assert (Hx : In (sample_part P ((key, b), ms)) parts) by (apply in_map; exact Hin).
    apply (move_output k _ (counts (bb_components (tb_values b0))) P s _ _ 0 P P (length (rows (bb_samples (tb_values b))))); auto.
    - exact (mb_kind _ _ _ (Hpart _ Hx)).
    - rewrite (wf_basic_shape (tb_values b) (proj1 (mb_wf _ _ _ (Hpart _ Hx)))). f_equal.
      pose proof (Hcomps _ Hx) as E1. pose proof (Hprops _ Hx) as E2. unfold counts, part_block in E1, E2.
      cbn [sample_part fst snd] in E1, E2. unfold counts. rewrite <- E1, <- E2. reflexivity.
    - pose proof (Hmap _ Hx) as [Hl Hm]. unfold part_samples, part_mapping, part_block in Hl, Hm. cbn [sample_part fst snd] in Hl, Hm.
      rewrite map_length in Hl. apply Forall_forall. intros m Hmin. apply In_nth_error in Hmin as [i Hi].
      assert (i < length ms) by (apply nth_error_Some; congruence).
      destruct (Hm _ _ Hi) as (E1 & r & _ & E2). split; [lia|]. apply nth_error_Some. congruence. }
  { exact Hs0'. }
  match goal with |- exists nb, bind ?o _ = _ => replace o with (Ok data) by (symmetry; exact Edata) end. cbn [bind].
  (* the block *)
  pose proof Hdata as (Hdw & Hdk & Hds & Hdwf). pose proof (working_responsive _ Hdw) as Hdr.
  assert (Hnew : tensor_block_new data merged (bb_components (tb_values b0)) (bb_properties (tb_values b0))
     = Ok (mk_block (mk_basic data merged (bb_components (tb_values b0)) (bb_properties (tb_values b0))) [] [])).
  { destruct Hv0 as (_ & _ & _ & Hone & Hcnd). apply tensor_block_new_ok; auto using axis_wf, axes_wf. split; [|reflexivity].
    split; [|split; [exact Hone|split; [exact Hcnd|split; [apply Hmax|apply Hp0]]]].
    rewrite Hds. cbn [map]. rewrite map_app. reflexivity. }
  rewrite Hnew. cbn [expect bind].
  assert (Hwnb : wf_basic (mk_basic data merged (bb_components (tb_values b0)) (bb_properties (tb_values b0)))).
  { apply tensor_block_new_ok in Hnew as [Hsh _]; auto using axis_wf, axes_wf.
    apply shapes_agree_wf_basic; auto using axis_wf, axes_wf, (output_wf_array _ _ _ Hdata). }
  (* the gradients *)
  eapply (gradients_added k b0 P) with (newp := bb_properties (tb_values b0)); cbn [tb_values tb_gradients bb_properties bb_data bb_components]; auto.
  - exact (mg_nul _ _ _ Hg).
  - apply incl_refl.
  - apply Hb0.
  - intros nb q g Hqg. destruct (wf_block_gradient _ _ _ Hb0 Hqg) as (Hwg & (_ & _ & Hgp & _) & _).
    destruct (gradient_made p k b0 parts true (rows merged) P) with (q := q) (g0 := g) as (samples & Es & Hsax & Hsn & Hfold); auto.
    { intros E. apply (f_equal (map part_kb)) in E. rewrite Hpkb in E. discriminate. }
    { intros x Hx. apply Hin_parts in Hx as [Hx _]. exact (group_sample_count _ _ _ _ _ Hg Hx). }
    rewrite Hpkb, Hpm in Es. rewrite Es. cbn [bind].
    rewrite (proj2 (array_shape_ok _ _) (conj (proj2 (mg_responsive _ _ _ Hg) q g Hqg OpShape) eq_refl)). cbn [bind].
    rewrite (labels_count_axis _ Hsax). cbn [bind]. rewrite (wf_basic_shape _ Hwg), set_slice_first_ok. cbn [bind].
    destruct (create_output (bb_data (tb_values b0)) (length (rows samples) :: map (fun l => length (rows l)) (bb_components g)
              ++ [length (rows (bb_properties g))]) Hwork0) as (s1 & -> & Hs1).
    rewrite Hk0, Hgp in Hs1. cbn [bind]. destruct (Hfold s1 Hs1) as (s & Efold & Hs).
    exists s, samples. split; [|auto].
    match goal with |- bind ?o _ = _ => replace o with (Ok s) end; [reflexivity|].
    rewrite <- Efold. unfold parts. rewrite foldM_map. apply foldM_ext. intros s' [[key b] ms] _. reflexivity.
  - apply Forall2_same_refl.
Qed.

(** * Properties *)

Lemma blocks_properties_succeeds blocks :
  Forall (fun kb : KeyAndBlock => wf_block (snd kb)) blocks ->
  blocks_properties blocks = Ok (map (fun kb : KeyAndBlock => (fst kb, block_properties (snd kb))) blocks).
Proof.
  intros Hwf. unfold blocks_properties. apply mapM_ok_map.
  intros kb Hkb. rewrite Forall_forall in Hwf. apply Hwf in Hkb. destruct Hkb as [Hv _].
  destruct (wf_basic_axes _ Hv) as (_ & _ & [Hp Hne]). rewrite (proj2 (labels_iter_ok _ _ Hp) (conj Hne eq_refl)). reflexivity.
Qed.

Lemma constant_flat_map_length {A B} (f : A -> list B) l n :
  (forall x, In x l -> length (f x) = n) -> length (flat_map f l) = length l * n.
Proof.
  induction l as [|x l IH]; intros H; cbn [flat_map length]; [reflexivity|].
  rewrite app_length, (H x), IH; [reflexivity| |left; reflexivity]. intros y Hy. apply H. right. exact Hy.
Qed.

Lemma merged_properties_succeeds (keys : option Labels) k0 b0 others n :
  let blocks := (k0, b0) :: others in
  Forall (fun kb : KeyAndBlock => wf_block (snd kb)) blocks ->
  NoDup (map fst blocks) -> (forall k b, In (k, b) blocks -> length k = n) ->
  match keys with
  | Some l => axis_labels l /\ (forall k b, In (k, b) blocks -> block_properties b = block_properties b0)
  | None => True
  end ->
  exists result, merged_properties (tb_values b0) keys blocks = Ok result.
Proof.
  intros blocks Hwf Hnd Hlen Hk.
  assert (HND : NoDup (new_properties (option_map rows keys) blocks b0)).
  { apply (new_properties_NoDup keys k0 b0 others n); auto. destruct keys; tauto. }
  assert (Hb0 : wf_block b0) by (inversion Hwf; assumption).
  destruct (wf_basic_axes _ (proj1 Hb0)) as (_ & _ & Hp0).
  unfold merged_properties. rewrite (blocks_properties_succeeds _ Hwf).
  destruct keys as [l|]; cbn [bind]; [|eauto].
  destruct Hk as [Hl Hsame]. rewrite (proj2 (labels_iter_ok _ _ (proj1 Hl)) (conj (proj2 Hl) eq_refl)). cbn [bind].
  rewrite (labels_count_axis _ Hp0), (labels_count_axis _ Hl). cbn [bind].
  cbn [option_map] in HND. unfold new_properties in HND.
  rewrite (flat_map_ext _ (fun e => flat_map (fun kb : KeyAndBlock => map (app e) (block_properties (snd kb))) blocks)).
  2:{ intros e. rewrite flat_map_map. reflexivity. }
  assert (G : forall entries s, NoDup (s ++ flat_map (fun e => map (app e) (block_properties b0)) entries) ->
     is_insert_all row_eqb s (flat_map (fun e => flat_map (fun kb : KeyAndBlock => map (app e) (block_properties (snd kb))) blocks) entries)
     = s ++ flat_map (fun e => map (app e) (block_properties b0)) entries).
  { induction entries as [|e entries IH]; intros s HN; [rewrite app_nil_r; reflexivity|].
    rewrite !flat_map_cons in *. rewrite app_assoc in HN. rewrite is_insert_all_app. unfold blocks at 1.
    rewrite (is_insert_all_repeat s (map (app e) (block_properties b0)) _ (k0, b0) others).
    - rewrite IH by assumption. rewrite <- app_assoc. reflexivity.
    - apply NoDup_app_left in HN. apply NoDup_app_right in HN. assumption.
    - apply NoDup_app_left in HN. intros x Hx Hs. apply (NoDup_app_disjoint _ _ HN x Hs Hx).
    - intros [k b] Hkb. simpl. rewrite (Hsame k b Hkb). reflexivity. }
  rewrite (G (rows l) []) by assumption. cbn [app].
  rewrite (constant_flat_map_length _ _ (length (block_properties b0))) by (intros; apply map_length).
  unfold assert_. fold (block_properties b0). rewrite (Nat.mul_comm (length (block_properties b0))), Nat.eqb_refl. cbn [bind]. eauto.
Qed.

Lemma property_range_succeeds newp k b :
  axis_labels (bb_properties (tb_values b)) -> block_properties b <> [] ->
  length (labels_names newp) = length k + length (labels_names (bb_properties (tb_values b))) ->
  exists range, property_range newp (k, b) = Ok range.
Proof.
  intros Hax Hne Hn. unfold property_range. rewrite (labels_count_axis _ Hax). cbn [bind].
  unfold block_properties in Hne. destruct (rows (bb_properties (tb_values b))) as [|r rs] eqn:E; [contradiction|].
  rewrite (proj2 (labels_index_ok _ 0 r (proj1 Hax) (proj2 Hax))) by (rewrite E; reflexivity). cbn [bind].
  unfold labels_position, labels_size. change (l_names newp) with (labels_names newp). rewrite Hn, app_length.
  rewrite (wf_rows_length _ r (proj1 Hax)) by (rewrite E; left; reflexivity). rewrite Nat.eqb_refl. cbn [bind]. eauto.
Qed.

(* everything after the checks of merge_blocks_along_properties *)
Lemma merge_along_properties_succeeds p k k0 b0 others (keys : option Labels) extracted sort :
  let blocks := (k0, b0) :: others in
  mergeable_group k b0 blocks ->
  NoDup (map fst blocks) ->
  (forall key b, In (key, b) blocks -> length key = length extracted) ->
  (forall key b, In (key, b) blocks -> block_properties b <> []) ->
  (forall key b, In (key, b) blocks -> labels_names (bb_properties (tb_values b)) = labels_names (bb_properties (tb_values b0))) ->
  match keys with Some l => axis_labels l /\ length (labels_names l) = length extracted | None => True end ->
  good_names (extracted ++ labels_names (bb_properties (tb_values b0))) ->
  check_same_labels_for_properties (tb_values b0) (match keys with Some _ => true | None => false end) blocks = Ok tt ->
  exists nb, merge_blocks_along_properties p blocks keys extracted sort = Ok nb.
Proof.
  intros blocks Hg Hdist Hkey Hpne Hpnames Hkeys Hnames Hchk. pose proof (group_wf_blocks _ _ _ Hg) as Hwf.
  unfold merge_blocks_along_properties. unfold blocks at 1. fold blocks. rewrite Hchk. cbn [bind].
  assert (Hin0 : In (k0, b0) blocks) by (left; reflexivity).
  pose proof (mb_wf _ _ _ (mg_block _ _ _ Hg _ _ Hin0)) as Hb0.
  pose proof (mb_kind _ _ _ (mg_block _ _ _ Hg _ _ Hin0)) as Hk0.
  pose proof (proj1 Hb0) as Hv0. destruct (wf_basic_axes _ Hv0) as (Hs0 & Hc0 & Hp0).
  rewrite (check_same_properties_ok _ _ _ Hv0 Hwf) in Hchk.
  destruct (merge_samples_succeeds k0 b0 others (labels_names (bb_samples (tb_values b0))) sort
              (length (labels_names (bb_samples (tb_values b0))))) as (merged & maps & Hms).
  { exact Hwf. }
  { intros key b Hin. rewrite (mg_samples _ _ _ Hg _ _ Hin). reflexivity. }
  { intros key b Hin. rewrite Nat.ltb_irrefl. reflexivity. }
  { destruct Hs0 as [(ns & rs & His) _]. rewrite (is_labels_names _ _ _ His). apply His. }
  fold blocks in Hms. rewrite Hms. cbn [bind].
  apply merge_samples_ok in Hms; [|exact Hwf|apply Hs0]. rewrite Nat.ltb_irrefl in Hms. fold blocks in Hms. destruct Hms as [Hmerged Hmaps].
  assert (Hmax : axis_labels merged).
  { split; [eexists; eexists; exact Hmerged|]. rewrite (is_labels_names _ _ _ Hmerged). apply Hs0. }
  assert (Hcount : (Z.of_nat (length (rows merged)) <= i32_max)%Z).
  { rewrite (is_labels_rows _ _ _ Hmerged). pose proof (merged_length sort (all_samples false blocks)) as Hl.
    rewrite all_samples_count in Hl. pose proof (mg_count _ _ _ Hg). lia. }
  pose proof (Forall2_len _ _ _ Hmaps) as Hlen.
  pose proof (responsive_working _ (proj1 (mg_responsive _ _ _ Hg))) as Hwork0.
  rewrite Hk0 in Hwork0. specialize (Hwork0 (mg_kind _ _ _ Hg)).
  (* the new properties *)
  assert (Hkeys2 : match keys with
    | Some l => axis_labels l /\ length (labels_names l) = length extracted
                /\ (forall k b, In (k, b) blocks -> block_properties b = block_properties b0)
    | None => True end).
  { destruct keys as [l|]; [|exact I]. destruct Hkeys as (H1 & H2). split; [exact H1|]. split; [exact H2|].
    intros key b Hin. rewrite Forall_forall in Hchk. apply Hchk in Hin as [_ Hin]. destruct (Hin eq_refl) as [_ E]. exact E. }
  assert (Hkeys3 : match keys with
    | Some l => axis_labels l /\ (forall k b, In (k, b) blocks -> block_properties b = block_properties b0)
    | None => True end) by (destruct keys; tauto).
  destruct (merged_properties_succeeds keys k0 b0 others (length extracted) Hwf Hdist Hkey Hkeys3) as (nprows & Enp).
  fold blocks in Enp. rewrite Enp. cbn [bind].
  apply (merged_properties_ok keys k0 b0 others (length extracted)) in Enp; auto.
  fold blocks in Enp.
  destruct (labels_build_succeeds (extracted ++ labels_names (bb_properties (tb_values b0))) nprows) as (newp & Ebuild).
  { exact Hnames. }
  { rewrite Enp. split.
    - assert (Hrl : forall key b r, In (key, b) blocks -> In r (block_properties b) -> length r = length (labels_names (bb_properties (tb_values b0)))).
      { intros key b r Hin Hr. rewrite <- (Hpnames _ _ Hin). apply wf_rows_length; [|exact Hr].
        rewrite Forall_forall in Hwf. apply (wf_basic_axes _ (proj1 (Hwf _ Hin))). }
      apply Forall_forall. intros r Hr. rewrite app_length. destruct keys as [l|]; cbn [option_map new_properties] in Hr.
      + apply in_flat_map in Hr as (e & He & Hr). apply in_map_iff in Hr as (r' & <- & Hr'). rewrite app_length.
        rewrite (Hrl _ _ _ Hin0 Hr'). destruct Hkeys as [Hl1 Hl2]. rewrite (wf_rows_length _ _ (proj1 Hl1) He). lia.
      + apply in_flat_map in Hr as ([key b] & Hin & Hr). apply in_map_iff in Hr as (r' & <- & Hr'). rewrite app_length. cbn [fst snd] in *.
        rewrite (Hrl _ _ _ Hin Hr'), (Hkey _ _ Hin). reflexivity.
    - apply (new_properties_NoDup keys k0 b0 others (length extracted)); auto. destruct keys; tauto. }
  rewrite Ebuild. cbn [bind].
  assert (Hnpne : extracted ++ labels_names (bb_properties (tb_values b0)) <> []).
  { intros E. apply app_eq_nil in E as [_ E]. apply (proj2 Hp0 E). }
  apply labels_build_is_labels in Ebuild; [|assumption].
  assert (Hnewax : axis_labels newp).
  { split; [eexists; eexists; exact Ebuild|]. rewrite (is_labels_names _ _ _ Ebuild). assumption. }
  assert (Hnewrows : rows newp = new_properties (option_map rows keys) blocks b0).
  { rewrite (is_labels_rows _ _ _ Ebuild). assumption. }
  rewrite (labels_count_axis _ Hnewax). cbn [bind].
  rewrite (proj2 (array_shape_ok _ _) (conj (proj1 (mg_responsive _ _ _ Hg) OpShape) eq_refl)). cbn [bind].
  rewrite (labels_count_axis _ Hmax). cbn [bind]. rewrite (wf_basic_shape _ Hv0), set_slice_first_ok. cbn [bind].
  rewrite set_slice_last_ok. cbn [bind].
  set (P := length (rows newp)) in *.
  destruct (create_output (bb_data (tb_values b0)) (length (rows merged) :: map (fun l => length (rows l)) (bb_components (tb_values b0))
              ++ [P]) Hwork0) as (s0 & -> & Hs0').
  rewrite Hk0 in Hs0'. cbn [bind].
  destruct (mapM_exists (property_range newp) blocks) as (ranges & Hranges).
  { intros [key b] Hin. apply property_range_succeeds; [|exact (Hpne _ _ Hin)|].
    - rewrite Forall_forall in Hwf. apply (wf_basic_axes _ (proj1 (Hwf _ Hin))).
    - rewrite (is_labels_names _ _ _ Ebuild), app_length, (Hkey _ _ Hin), (Hpnames _ _ Hin). reflexivity. }
  rewrite Hranges. cbn [bind]. rewrite mapM_ok in Hranges.
  pose proof (Forall2_len _ _ _ Hranges) as Hrlen.
  set (parts := combine (combine blocks maps) ranges : list part).
  assert (Hclen : length (combine blocks maps) = length ranges) by (rewrite combine_length; rewrite <- Hlen, Nat.min_id; exact Hrlen).
  assert (Hpkbm : map fst parts = combine blocks maps) by (apply combine_fst; exact Hclen).
  assert (Hpkb : map part_kb parts = blocks).
  { transitivity (map fst (map fst parts)); [rewrite map_map; reflexivity|]. rewrite Hpkbm. apply combine_fst. exact Hlen. }
  assert (Hpm : map part_mapping parts = maps).
  { transitivity (map snd (map fst parts)); [rewrite map_map; reflexivity|]. rewrite Hpkbm. apply combine_snd. exact Hlen. }
  assert (Hblk : forall x, In x parts -> In (part_key x, part_block x) blocks).
  { intros x Hx. rewrite <- Hpkb. apply in_map_iff. exists x. split; [|assumption].
    unfold part_kb, part_key, part_block. destruct (fst (fst x)). reflexivity. }
  assert (Hpart_range : forall x, In x parts -> property_range newp (part_key x, part_block x) = Ok (part_range x)).
  { intros [[[key b] ms] rg] Hx. apply In_nth_error in Hx as [i Hi]. apply nth_error_combine in Hi as [Hi1 Hi2].
    apply nth_error_combine in Hi1 as [Hi1 _].
    destruct (Forall2_nth_error_l _ _ _ _ _ Hranges Hi1) as (rg' & Hrg & E). assert (rg' = rg) by congruence. subst rg'. exact E. }
  assert (Hmap : forall x, In x parts -> mapping_for (rows merged) (part_samples false x) (part_mapping x)).
  { intros [[[key b] ms] rg] Hx. apply in_combine_l in Hx.
    apply (Forall2_combine_In _ _ _ _ _ Hmaps Hx). }
  assert (Hcomps : forall x, In x parts -> counts (bb_components (tb_values (part_block x))) = counts (bb_components (tb_values b0))).
  { intros x Hx. apply Hblk in Hx. rewrite Forall_forall in Hchk. apply Hchk in Hx as [Hx _].
    apply Forall2_same_counts. exact Hx. }
  assert (Hpart : forall x, In x parts -> mergeable_block k b0 (part_block x)).
  { intros x Hx. apply Hblk in Hx. exact (mg_block _ _ _ Hg _ _ Hx). }
  assert (Hrange : forall x start stop, In x parts -> part_range x = Some (start, stop) ->
     stop = start + length (rows (bb_properties (tb_values (part_block x)))) /\ stop <= P).
  { intros x start stop Hx Er.
    destruct (property_range_ok keys k0 b0 others (length extracted) newp (part_key x) (part_block x) (part_range x))
      as (Hne & _ & Hrr); auto; [apply Hnewax|].
    destruct (Hrr _ _ Er) as [E Hn]. split; [exact E|]. fold (block_properties (part_block x)) in *.
    destruct (length (block_properties (part_block x))) as [|m] eqn:El.
    { apply length_zero_iff_nil in El. contradiction. }
    destruct (nth_error (block_properties (part_block x)) m) as [r|] eqn:Em; [|apply nth_error_None in Em; lia].
    apply Hn in Em. assert (start + m < length (rows newp)) by (apply nth_error_Some; congruence). unfold P. lia. }
  (* the values *)
  match goal with |- exists nb, bind (foldM ?f _ _) _ = _ => set (move := f) end.
  destruct (foldM_exists move (output_of k (length (rows merged) :: counts (bb_components (tb_values b0)) ++ [P]))
     parts s0) as (data & Edata & Hdata).
  { intros s [[[key b] ms] [[start stop]|]] Hx Hs; unfold move; [|eauto].
    destruct (Hrange _ start stop Hx eq_refl) as [Estop Hle]. unfold part_block in Estop. cbn [fst snd] in Estop.
    apply (move_output k _ (counts (bb_components (tb_values b0))) P s _ _ start stop
             (length (rows (bb_properties (tb_values b)))) (length (rows (bb_samples (tb_values b))))); auto.
    - exact (mb_kind _ _ _ (Hpart _ Hx)).
    - rewrite (wf_basic_shape (tb_values b) (proj1 (mb_wf _ _ _ (Hpart _ Hx)))). f_equal.
      pose proof (Hcomps _ Hx) as E1. unfold counts, part_block in E1. cbn [fst snd] in E1. unfold counts. rewrite <- E1. reflexivity.
    - pose proof (Hmap _ Hx) as [Hl Hm]. unfold part_samples, part_mapping, part_block in Hl, Hm. cbn [fst snd] in Hl, Hm.
      rewrite map_length in Hl. apply Forall_forall. intros m Hmin. apply In_nth_error in Hmin as [i Hi].
      assert (i < length ms) by (apply nth_error_Some; congruence).
      destruct (Hm _ _ Hi) as (E1 & r & _ & E2). split; [lia|]. apply nth_error_Some. congruence. }
  { exact Hs0'. }
  match goal with |- exists nb, bind ?o _ = _ => replace o with (Ok data) by (symmetry; exact Edata) end. cbn [bind].
  (* the block *)
  pose proof Hdata as (Hdw & Hdk & Hds & Hdwf). pose proof (working_responsive _ Hdw) as Hdr.
  assert (Hnew : tensor_block_new data merged (bb_components (tb_values b0)) newp
     = Ok (mk_block (mk_basic data merged (bb_components (tb_values b0)) newp) [] [])).
  { destruct Hv0 as (_ & _ & _ & Hone & Hcnd). apply tensor_block_new_ok; auto using axis_wf, axes_wf. split; [|reflexivity].
    split; [|split; [exact Hone|split; [exact Hcnd|split; [apply Hmax|apply Hnewax]]]].
    rewrite Hds. cbn [map]. rewrite map_app. reflexivity. }
  rewrite Hnew. cbn [expect bind].
  assert (Hwnb : wf_basic (mk_basic data merged (bb_components (tb_values b0)) newp)).
  { apply tensor_block_new_ok in Hnew as [Hsh _]; auto using axis_wf, axes_wf.
    apply shapes_agree_wf_basic; auto using axis_wf, axes_wf, (output_wf_array _ _ _ Hdata). }
  (* the gradients *)
  eapply (gradients_added k b0 P) with (newp := newp); cbn [tb_values tb_gradients bb_properties bb_data bb_components]; auto.
  - exact (mg_nul _ _ _ Hg).
  - apply incl_refl.
  - apply Hb0.
  - intros nb q g Hqg. destruct (wf_block_gradient _ _ _ Hb0 Hqg) as (Hwg & _ & _).
    destruct (gradient_made p k b0 parts false (rows merged) P) with (q := q) (g0 := g) as (samples & Es & Hsax & Hsn & Hfold); auto.
    { intros E. apply (f_equal (map part_kb)) in E. rewrite Hpkb in E. discriminate. }
    { intros x Hx. apply Hblk in Hx. exact (group_sample_count _ _ _ _ _ Hg Hx). }
    rewrite Hpkb, Hpm in Es. rewrite Es. cbn [bind].
    rewrite (proj2 (array_shape_ok _ _) (conj (proj2 (mg_responsive _ _ _ Hg) q g Hqg OpShape) eq_refl)). cbn [bind].
    rewrite (labels_count_axis _ Hsax). cbn [bind]. rewrite (wf_basic_shape _ Hwg), set_slice_first_ok. cbn [bind].
    rewrite set_slice_last_ok. cbn [bind].
    destruct (create_output (bb_data (tb_values b0)) (length (rows samples) :: map (fun l => length (rows l)) (bb_components g)
              ++ [P]) Hwork0) as (s1 & -> & Hs1).
    rewrite Hk0 in Hs1. cbn [bind]. destruct (Hfold s1 Hs1) as (s & Efold & Hs).
    exists s, samples. split; [|auto].
    match goal with |- bind ?o _ = _ => replace o with (Ok s) end; [reflexivity|].
    rewrite <- Efold. apply foldM_ext. intros s' [[[key b] ms] [[start stop]|]] _; reflexivity.
  - apply Forall2_same_refl.
Qed.

(** * Tensor maps *)

Lemma has_nul_false s : ~ In Ascii.zero (list_ascii_of_string s) -> has_nul s = false.
Proof.
  induction s as [|c s IH]; cbn [list_ascii_of_string has_nul]; intros H; [reflexivity|].
  destruct (Ascii.eqb_spec c nul) as [->|Hc]; [exfalso; apply H; left; reflexivity|].
  cbn [orb]. apply IH. intros Hi. apply H. right. exact Hi.
Qed.

Lemma check_variables_clean variables names : clean (check_variables variables names).
Proof.
  induction variables as [|v variables IH]; cbn [check_variables]; [apply clean_ok|].
  destruct (negb _); [apply clean_refused|exact IH].
Qed.

Lemma remove_variables_cases keys variables :
  axis_labels keys ->
  ((forall v, In v variables -> In v (labels_names keys)) /\ exists r, remove_variables_from_keys keys variables = Ok r)
  \/ (~ (forall v, In v variables -> In v (labels_names keys))
      /\ exists m, remove_variables_from_keys keys variables = Err (InvalidParameter m)).
Proof.
  intros [Hwf Hne]. unfold remove_variables_from_keys.
  destruct (check_variables_clean variables (labels_names keys)) as [[[] E]|[m E]]; rewrite E; cbn [bind].
  2:{ right. split; [|eauto]. intros H. rewrite <- check_variables_ok in H. congruence. }
  left. rewrite check_variables_ok in E. split; [exact E|].
  destruct (split_names 0 (labels_names keys) variables) as [[rn ri] ei] eqn:Es.
  apply split_names_0 in Es as (Hrn & Hri & Hproj).
  destruct ri as [|r0 ri].
  { assert (El : exists l, labels_single = Ok l) by (eexists; vm_compute; reflexivity).
    destruct El as (l & El). rewrite El. cbn [bind]. eauto. }
  rewrite (proj2 (labels_iter_ok keys _ Hwf)) by (split; [exact Hne|reflexivity]). cbn [bind].
  rewrite (mapM_ok_map _ (kept_part variables (labels_names keys))).
  2:{ intros k Hk. apply Hproj. apply wf_rows_length; assumption. }
  cbn [bind]. rewrite is_insert_all_nub.
  destruct (labels_build_succeeds rn (nub (map (kept_part variables (labels_names keys)) (rows keys)))) as (l & ->).
  - rewrite Hrn. apply kept_names_good. apply wf_labels_is_labels in Hwf. apply Hwf.
  - split; [|apply nub_NoDup]. apply Forall_forall. intros r Hr. rewrite nub_In in Hr. apply in_map_iff in Hr as (k & <- & Hk).
    rewrite Hrn. apply kept_part_length. apply wf_rows_length; assumption.
  - cbn [bind]. eauto.
Qed.

Lemma merged_blocks_mapM t variables new_keys positions merge :
  wf_tensor t ->
  remove_variables_from_keys (tm_keys t) variables = Ok (new_keys, positions) ->
  merged_blocks t new_keys positions merge
  = mapM (fun e => merge (group t variables e)) (new_keys_rows (tm_keys t) variables).
Proof.
  intros Ht Hrem. pose proof Ht as ([Hk Hn] & Hb & Hlen & _).
  destruct (remove_variables_ok _ _ _ _ (conj Hk Hn) Hrem) as (Hv & Hl & Hproj). clear Hrem.
  unfold merged_blocks.
  rewrite (is_labels_count _ _ _ Hl) by apply new_key_names_nonempty. cbn [bind].
  destruct (Nat.eqb_spec (length (new_keys_rows (tm_keys t) variables)) 1) as [E|E].
  - destruct (new_keys_rows (tm_keys t) variables) as [|e [|e' es]] eqn:Ee; try discriminate.
    rewrite (all_blocks_group t variables positions e Ht Hproj).
    + cbn [bind mapM]. destruct (merge (group t variables e)); reflexivity.
    + intros key Hkey. unfold new_keys_rows in Ee.
      destruct (kept_names variables (labels_names (tm_keys t))) as [|n ns] eqn:En.
      * inversion Ee. unfold new_key. rewrite En. reflexivity.
      * assert (Hin : In (new_key variables (labels_names (tm_keys t)) key)
                      (nub (map (new_key variables (labels_names (tm_keys t))) (rows (tm_keys t))))).
        { apply nub_In. apply in_map. assumption. }
        rewrite Ee in Hin. destruct Hin as [|[]]; congruence.
  - rewrite (is_labels_iter _ _ _ Hl) by apply new_key_names_nonempty. cbn [bind].
    rewrite (is_labels_names _ _ _ Hl).
    assert (Hkn : kept_names variables (labels_names (tm_keys t)) <> []).
    { intros En. apply E. unfold new_keys_rows. rewrite En. reflexivity. }
    replace (new_key_names variables (labels_names (tm_keys t))) with (kept_names variables (labels_names (tm_keys t))).
    2:{ unfold new_key_names. destruct (kept_names variables (labels_names (tm_keys t))); [contradiction|reflexivity]. }
    apply mapM_ext.
    intros e He. rewrite (blocks_to_merge_group t variables positions e Ht Hkn); auto.
    unfold new_keys_rows in He. destruct (kept_names variables (labels_names (tm_keys t))) as [|n ns] eqn:En; [contradiction|].
    rewrite nub_In in He. apply in_map_iff in He as (k & <- & Hkin).
    rewrite new_key_length by (apply wf_rows_length; assumption).
    unfold new_key_names. rewrite En. reflexivity.
Qed.

Lemma sum_filter {A} (f : A -> nat) g l : list_sum (map f (filter g l)) <= list_sum (map f l).
Proof. induction l as [|x l IH]; cbn [filter map list_sum fold_right]; [lia|]. unfold list_sum in IH. destruct (g x); cbn [map fold_right]; lia. Qed.

Lemma group_count t variables e : wf_tensor t -> sample_count (map snd (group t variables e)) <= sample_count (tm_blocks t).
Proof.
  intros (_ & _ & Hlen & _). unfold sample_count, group. rewrite map_map. cbn [snd]. rewrite map_map.
  etransitivity; [apply (sum_filter (fun kb : list Z * TensorBlock => length (rows (bb_samples (tb_values (snd kb))))))|].
  rewrite <- (map_map snd (fun b => length (rows (bb_samples (tb_values b))))). rewrite combine_snd by congruence. lia.
Qed.

Lemma workable_group t variables e k0 b0 others :
  workable t -> agreeing_groups t variables -> group t variables e = (k0, b0) :: others ->
  exists k, mergeable_group k b0 ((k0, b0) :: others).
Proof.
  intros (Ht & Hne & (k & Hk & Hkind) & Hb & Hcount) Hagree Eg. exists k.
  pose proof Ht as (_ & Hwf & _ & Hsame). rewrite Forall_forall in Hwf.
  assert (Hblocks : forall key b, In (key, b) ((k0, b0) :: others) -> In b (tm_blocks t)).
  { intros key b Hin. rewrite <- Eg in Hin. exact (group_blocks _ _ _ _ _ Hin). }
  pose proof (Hblocks k0 b0 (or_introl eq_refl)) as Hin0.
  split.
  - intros key b Hin. pose proof (Hblocks key b Hin) as Hinb. destruct (Hb b Hinb) as (H1 & H2 & H3). split; auto.
    + apply (Hsame b0 b Hin0 Hinb).
    + rewrite <- Eg in Hin. apply in_group_block_of in Hin as (key1 & Hk1 & En1 & _).
      assert (Hin' : In (k0, b0) (group t variables e)) by (rewrite Eg; left; reflexivity).
      apply in_group_block_of in Hin' as (key2 & Hk2 & En2 & _). apply (Hagree key1 b key2 b0); congruence.
  - intros key b Hin. apply (Hsame b b0 (Hblocks _ _ Hin) Hin0).
  - apply (Hb b0 Hin0).
  - exact Hk.
  - intros q Hq. apply in_map_iff in Hq as ([q' g] & <- & Hg). apply has_nul_false. apply (Hb b0 Hin0) with g. exact Hg.
  - rewrite <- Eg. pose proof (group_count t variables e Ht) as Hl. unfold i32_max.
    change (2 ^ 31)%Z with 2147483648%Z in Hcount. unfold sample_count in Hl at 2. lia.
Qed.

Lemma good_names_app names names' : good_names names -> good_names names' ->
  (forall n, In n names -> ~ In n names') -> good_names (names ++ names').
Proof. intros [H1 H2] [H3 H4] H. split; [apply Forall_app; auto|apply NoDup_app_intro; auto]. Qed.

Lemma wf_labels_good_names l : wf_labels l -> good_names (labels_names l).
Proof. intros H. apply wf_labels_is_labels in H. apply H. Qed.

(* the result of moving keys, from the result for each group *)
Lemma mapM_merged_ok {B} t variables (merge : list KeyAndBlock -> outcome B) :
  (exists bs, mapM (fun e => merge (group t variables e)) (new_keys_rows (tm_keys t) variables) = Ok bs) <->
  forall e, In e (new_keys_rows (tm_keys t) variables) -> exists b, merge (group t variables e) = Ok b.
Proof.
  split.
  - intros [bs H] e He. rewrite mapM_ok in H. apply In_nth_error in He as [i Hi].
    destruct (Forall2_nth_error_l _ _ _ _ _ H Hi) as (b & _ & E). eauto.
  - apply mapM_exists.
Qed.

Lemma new_key_In t variables key : wf_tensor t -> In key (rows (tm_keys t)) ->
  In (new_key variables (labels_names (tm_keys t)) key) (new_keys_rows (tm_keys t) variables).
Proof.
  intros ([Hk Hn] & _) Hin.
  assert (Hr : rows (tm_keys t) <> []) by (intros E; rewrite E in Hin; destruct Hin).
  destruct (new_keys_first_appearance (tm_keys t) variables Hr) as (_ & H & _). apply H. apply in_map. exact Hin.
Qed.

(* conditions on all the groups, and on all the pairs of blocks *)
Lemma groups_pairs t variables (R : TensorBlock -> TensorBlock -> Prop) :
  wf_tensor t -> tm_blocks t <> [] ->
  (forall b1 b2, R b1 b2 -> R b2 b1) -> (forall b1 b2 b3, R b1 b2 -> R b2 b3 -> R b1 b3) ->
  ((forall e, In e (new_keys_rows (tm_keys t) variables) ->
      exists k0 b0 others, group t variables e = (k0, b0) :: others
        /\ Forall (fun kb : KeyAndBlock => R (snd kb) b0) ((k0, b0) :: others))
   <-> forall key1 b1 key2 b2, block_of t key1 b1 -> block_of t key2 b2 ->
         new_key variables (labels_names (tm_keys t)) key1 = new_key variables (labels_names (tm_keys t)) key2 -> R b1 b2).
Proof.
  intros Ht Hne Hsym Htrans. split.
  - intros H key1 b1 key2 b2 H1 H2 E.
    destruct (H (new_key variables (labels_names (tm_keys t)) key1)) as (k0 & b0 & others & Eg & HF).
    { apply new_key_In; [exact Ht|exact (block_of_key _ _ _ H1)]. }
    rewrite <- Eg, Forall_forall in HF.
    assert (G1 : R b1 b0).
    { apply (HF (moved_part variables (labels_names (tm_keys t)) key1, b1)). apply in_group_block_of. eauto. }
    assert (G2 : R b2 b0).
    { apply (HF (moved_part variables (labels_names (tm_keys t)) key2, b2)). apply in_group_block_of. eauto. }
    eauto.
  - intros H e He. pose proof (new_keys_rows_group t variables e Ht Hne He) as Hg.
    destruct (group t variables e) as [|[k0 b0] others] eqn:Eg; [contradiction|].
    exists k0, b0, others. split; [reflexivity|]. apply Forall_forall. intros [k b] Hin.
    assert (Hin2 : In (k, b) (group t variables e)) by (rewrite Eg; exact Hin).
    apply in_group_block_of in Hin2 as (key1 & Hk1 & En1 & _).
    assert (Hin' : In (k0, b0) (group t variables e)) by (rewrite Eg; left; reflexivity).
    apply in_group_block_of in Hin' as (key2 & Hk2 & En2 & _). apply (H key1 b key2 b0); congruence.
Qed.

(** * keys_to_samples and keys_to_properties *)

Definition samples_match (b1 b2 : TensorBlock) : Prop :=
  Forall2 same_labels (bb_components (tb_values b1)) (bb_components (tb_values b2))
  /\ same_labels (bb_properties (tb_values b1)) (bb_properties (tb_values b2)).

Definition properties_match (explicit : bool) (b1 b2 : TensorBlock) : Prop :=
  Forall2 same_labels (bb_components (tb_values b1)) (bb_components (tb_values b2))
  /\ (explicit = true -> same_labels (bb_properties (tb_values b1)) (bb_properties (tb_values b2))).

Lemma samples_group_cases p t keys sort e k0 b0 others :
  workable t -> wf_labels keys -> labels_names keys <> [] -> agreeing_groups t (labels_names keys) ->
  (forall v, In v (labels_names keys) -> In v (labels_names (tm_keys t))) ->
  (forall b name, In b (tm_blocks t) -> In name (labels_names keys) -> ~ In name (labels_names (bb_samples (tb_values b)))) ->
  group t (labels_names keys) e = (k0, b0) :: others ->
  let merge := merge_blocks_along_samples p (group t (labels_names keys) e) (labels_names keys) sort in
  clean merge
  /\ ((exists b, merge = Ok b) <-> Forall (fun kb : KeyAndBlock => samples_match (snd kb) b0) ((k0, b0) :: others)).
Proof.
  intros Hw Hk Hkn Hagree Hv Hdis Eg merge.
  pose proof Hw as (Ht & _). destruct (workable_group t _ e k0 b0 others Hw Hagree Eg) as (k & Hg).
  pose proof (group_wf_blocks _ _ _ Hg) as Hwf.
  assert (Hb0 : wf_block b0) by (inversion Hwf; assumption).
  assert (Hin0 : In b0 (tm_blocks t)) by (apply (group_blocks t (labels_names keys) e k0); rewrite Eg; left; reflexivity).
  pose proof (check_same_samples_ok _ _ (proj1 Hb0) Hwf) as Hchk.
  destruct (check_same_samples_clean (tb_values b0) ((k0, b0) :: others)) as [[[] E]|[m E]].
  - destruct (merge_along_samples_succeeds p k k0 b0 others (labels_names keys) sort Hg Hkn) as (nb & Enb); [| |exact E|].
    + intros key b Hin. rewrite <- Eg in Hin. rewrite (group_keys_length _ _ _ _ _ Ht Hin).
      apply moved_names_length; [apply Ht|apply (wf_labels_good_names _ Hk)|exact Hv].
    + apply good_names_app.
      * apply wf_labels_good_names. apply (wf_basic_axes _ (proj1 Hb0)).
      * apply wf_labels_good_names. exact Hk.
      * intros n Hn1 Hn2. exact (Hdis b0 n Hin0 Hn2 Hn1).
    + unfold merge. rewrite Eg, Enb. split; [apply clean_ok|]. split; [intros _|eauto].
      apply Hchk. exact E.
  - assert (Em : merge = Err (InvalidParameter m)).
    { unfold merge. rewrite Eg. unfold merge_blocks_along_samples. rewrite E. reflexivity. }
    rewrite Em. split; [apply clean_refused|]. split; [intros [b H]; discriminate|].
    intros H. apply Hchk in H. congruence.
Qed.

(* C52 *)
Lemma keys_to_samples_complete p t keys sort :
  workable t -> wf_labels keys -> labels_names keys <> [] -> agreeing_groups t (labels_names keys) ->
  (forall b name, In b (tm_blocks t) -> In name (labels_names keys) -> ~ In name (labels_names (bb_samples (tb_values b)))) ->
  let possible := rows keys = []
    /\ (forall v, In v (labels_names keys) -> In v (labels_names (tm_keys t)))
    /\ same_components_groups t (labels_names keys) /\ same_properties_groups t (labels_names keys) in
  (possible /\ exists t', keys_to_samples p t keys sort = (t', Ok tt))
  \/ (~ possible /\ exists m, keys_to_samples p t keys sort = (t, Err (InvalidParameter m))).
Proof.
  intros Hw Hk Hkn Hagree Hdis possible. pose proof Hw as (Ht & Hne & _).
  unfold keys_to_samples, keys_to_samples_compute. rewrite (labels_count_axis _ (conj Hk Hkn)). cbn [bind].
  destruct (rows keys) as [|r rs] eqn:Er; cbn [length Nat.ltb Nat.leb].
  2:{ right. split; [|eauto]. intros (H & _). congruence. }
  destruct (remove_variables_cases (tm_keys t) (labels_names keys) (proj1 Ht)) as [[Hv ([nk pos] & Erem)]|[Hv (m & Erem)]];
    rewrite Erem; cbn [bind].
  2:{ right. split; [|eauto]. intros (_ & H & _). contradiction. }
  rewrite (merged_blocks_mapM _ _ _ _ _ Ht Erem).
  set (merge := fun bs => merge_blocks_along_samples p bs (labels_names keys) sort).
  assert (Hcases : forall e, In e (new_keys_rows (tm_keys t) (labels_names keys)) ->
     clean (merge (group t (labels_names keys) e))
     /\ ((exists b, merge (group t (labels_names keys) e) = Ok b) <->
         exists k0 b0 others, group t (labels_names keys) e = (k0, b0) :: others
          /\ Forall (fun kb : KeyAndBlock => samples_match (snd kb) b0) ((k0, b0) :: others))).
  { intros e He. pose proof (new_keys_rows_group t (labels_names keys) e Ht Hne He) as Hgne.
    destruct (group t (labels_names keys) e) as [|[k0 b0] others] eqn:Eg; [contradiction|].
    pose proof (samples_group_cases p t keys sort e k0 b0 others Hw Hk Hkn Hagree Hv Hdis Eg) as [H1 H2].
    rewrite Eg in H1, H2. split; [exact H1|]. unfold merge. rewrite H2. split; [eauto 10|].
    intros (k1 & b1 & o1 & E1 & HF). inversion E1; subst. exact HF. }
  assert (Hiff : (exists bs, mapM (fun e => merge (group t (labels_names keys) e)) (new_keys_rows (tm_keys t) (labels_names keys)) = Ok bs)
     <-> possible).
  { rewrite mapM_merged_ok.
    transitivity (forall key1 b1 key2 b2, block_of t key1 b1 -> block_of t key2 b2 ->
         new_key (labels_names keys) (labels_names (tm_keys t)) key1 = new_key (labels_names keys) (labels_names (tm_keys t)) key2 ->
         samples_match b1 b2).
    - rewrite <- (groups_pairs t (labels_names keys) samples_match Ht Hne).
      + split; intros H e He; apply (Hcases e He); auto.
      + intros b1 b2 [H1 H2]. split; [apply Forall2_same_sym|apply same_labels_sym]; assumption.
      + intros b1 b2 b3 [H1 H2] [H3 H4]. split; [eapply Forall2_same_trans|eapply same_labels_trans]; eassumption.
    - unfold possible. split.
      + intros H. split; [reflexivity|]. split; [exact Hv|]. split; intros key1 b1 key2 b2 H1 H2 E; apply (H key1 b1 key2 b2 H1 H2 E).
      + intros (_ & _ & H1 & H2) key1 b1 key2 b2 Hb1 Hb2 E. split; [exact (H1 _ _ _ _ Hb1 Hb2 E)|exact (H2 _ _ _ _ Hb1 Hb2 E)]. }
  destruct (clean_mapM (fun e => merge (group t (labels_names keys) e)) (new_keys_rows (tm_keys t) (labels_names keys)))
    as [[bs Ebs]|[m Em]].
  - intros e He. apply (Hcases e He).
  - left. split; [apply Hiff; eauto|]. exists (mk_tensor nk bs).
    match goal with |- match bind ?o _ with _ => _ end = _ => replace o with (Ok bs) by (symmetry; exact Ebs) end. reflexivity.
  - right. split; [rewrite <- Hiff; intros [bs Ebs]; congruence|]. exists m.
    match goal with |- match bind ?o _ with _ => _ end = _ =>
      replace o with (Err (InvalidParameter m) : outcome (list TensorBlock)) by (symmetry; exact Em) end. reflexivity.
Qed.

Lemma properties_group_cases p t keys sort e k0 b0 others :
  workable t -> wf_labels keys -> labels_names keys <> [] -> agreeing_groups t (labels_names keys) ->
  (forall v, In v (labels_names keys) -> In v (labels_names (tm_keys t))) ->
  (forall b, In b (tm_blocks t) -> rows (bb_properties (tb_values b)) <> []) ->
  (forall b name, In b (tm_blocks t) -> In name (labels_names keys) -> ~ In name (labels_names (bb_properties (tb_values b)))) ->
  group t (labels_names keys) e = (k0, b0) :: others ->
  let explicit := if length (rows keys) =? 0 then None else Some keys in
  let merge := merge_blocks_along_properties p (group t (labels_names keys) e) explicit (labels_names keys) sort in
  clean merge
  /\ ((exists b, merge = Ok b) <->
      Forall (fun kb : KeyAndBlock => properties_match (negb (length (rows keys) =? 0)) (snd kb) b0) ((k0, b0) :: others)).
Proof.
  intros Hw Hk Hkn Hagree Hv Hpne Hdis Eg explicit merge.
  pose proof Hw as (Ht & _). destruct (workable_group t _ e k0 b0 others Hw Hagree Eg) as (k & Hg).
  pose proof (group_wf_blocks _ _ _ Hg) as Hwf.
  assert (Hb0 : wf_block b0) by (inversion Hwf; assumption).
  assert (Hblocks : forall key b, In (key, b) ((k0, b0) :: others) -> In b (tm_blocks t)).
  { intros key b Hin. apply (group_blocks t (labels_names keys) e key). rewrite Eg. exact Hin. }
  assert (Hin0 : In b0 (tm_blocks t)) by (apply (Hblocks k0); left; reflexivity).
  assert (Hexp : (match explicit with Some _ => true | None => false end) = negb (length (rows keys) =? 0)).
  { unfold explicit. destruct (length (rows keys) =? 0); reflexivity. }
  pose proof (check_same_properties_ok _ (negb (length (rows keys) =? 0)) _ (proj1 Hb0) Hwf) as Hchk.
  assert (Hlen : length (filter (is_moved (labels_names keys)) (labels_names (tm_keys t))) = length (labels_names keys)).
  { apply moved_names_length; [apply Ht|apply (wf_labels_good_names _ Hk)|exact Hv]. }
  destruct (check_same_properties_clean (tb_values b0) (negb (length (rows keys) =? 0)) ((k0, b0) :: others)) as [[[] E]|[m E]].
  - destruct (merge_along_properties_succeeds p k k0 b0 others explicit (labels_names keys) sort Hg) as (nb & Enb).
    + pose proof (group_keys_distinct t (labels_names keys) e Ht) as H. rewrite Eg in H. exact H.
    + intros key b Hin. rewrite <- Eg in Hin. rewrite (group_keys_length _ _ _ _ _ Ht Hin). exact Hlen.
    + intros key b Hin. apply Hpne. exact (Hblocks key b Hin).
    + intros key b Hin. destruct Ht as (_ & _ & _ & Hsame). apply (Hsame b b0 (Hblocks key b Hin) Hin0).
    + unfold explicit. destruct (length (rows keys) =? 0); [exact I|]. split; [split; assumption|reflexivity].
    + apply good_names_app.
      * apply wf_labels_good_names. exact Hk.
      * apply wf_labels_good_names. apply (wf_basic_axes _ (proj1 Hb0)).
      * intros n Hn1 Hn2. exact (Hdis b0 n Hin0 Hn1 Hn2).
    + rewrite Hexp. exact E.
    + unfold merge. rewrite Eg, Enb. split; [apply clean_ok|]. split; [intros _|eauto].
      apply Hchk. exact E.
  - assert (Em : merge = Err (InvalidParameter m)).
    { unfold merge. rewrite Eg. unfold merge_blocks_along_properties. rewrite Hexp, E. reflexivity. }
    rewrite Em. split; [apply clean_refused|]. split; [intros [b H]; discriminate|].
    intros H. apply Hchk in H. congruence.
Qed.

(* C53 *)
Lemma keys_to_properties_complete p t keys sort :
  workable t -> wf_labels keys -> labels_names keys <> [] -> agreeing_groups t (labels_names keys) ->
  (forall b, In b (tm_blocks t) -> rows (bb_properties (tb_values b)) <> []) ->
  (forall b name, In b (tm_blocks t) -> In name (labels_names keys) -> ~ In name (labels_names (bb_properties (tb_values b)))) ->
  let possible := (forall v, In v (labels_names keys) -> In v (labels_names (tm_keys t)))
    /\ same_components_groups t (labels_names keys) /\ (rows keys <> [] -> same_properties_groups t (labels_names keys)) in
  (possible /\ exists t', keys_to_properties p t keys sort = (t', Ok tt))
  \/ (~ possible /\ exists m, keys_to_properties p t keys sort = (t, Err (InvalidParameter m))).
Proof.
  intros Hw Hk Hkn Hagree Hpne Hdis possible. pose proof Hw as (Ht & Hne & _).
  unfold keys_to_properties, keys_to_properties_compute.
  destruct (remove_variables_cases (tm_keys t) (labels_names keys) (proj1 Ht)) as [[Hv ([nk pos] & Erem)]|[Hv (m & Erem)]];
    rewrite Erem; cbn [bind].
  2:{ right. split; [|eauto]. intros (H & _). contradiction. }
  rewrite (labels_count_axis _ (conj Hk Hkn)). cbn [bind].
  rewrite (merged_blocks_mapM _ _ _ _ _ Ht Erem).
  set (merge := fun bs => merge_blocks_along_properties p bs (if length (rows keys) =? 0 then None else Some keys) (labels_names keys) sort).
  set (match_ := properties_match (negb (length (rows keys) =? 0))).
  assert (Hcases : forall e, In e (new_keys_rows (tm_keys t) (labels_names keys)) ->
     clean (merge (group t (labels_names keys) e))
     /\ ((exists b, merge (group t (labels_names keys) e) = Ok b) <->
         exists k0 b0 others, group t (labels_names keys) e = (k0, b0) :: others
          /\ Forall (fun kb : KeyAndBlock => match_ (snd kb) b0) ((k0, b0) :: others))).
  { intros e He. pose proof (new_keys_rows_group t (labels_names keys) e Ht Hne He) as Hgne.
    destruct (group t (labels_names keys) e) as [|[k0 b0] others] eqn:Eg; [contradiction|].
    pose proof (properties_group_cases p t keys sort e k0 b0 others Hw Hk Hkn Hagree Hv Hpne Hdis Eg) as [H1 H2].
    rewrite Eg in H1, H2. split; [exact H1|]. unfold merge. rewrite H2. split; [eauto 10|].
    intros (k1 & b1 & o1 & E1 & HF). inversion E1; subst. exact HF. }
  assert (Hexp : negb (length (rows keys) =? 0) = true <-> rows keys <> []).
  { destruct (rows keys); cbn; split; congruence. }
  assert (Hiff : (exists bs, mapM (fun e => merge (group t (labels_names keys) e)) (new_keys_rows (tm_keys t) (labels_names keys)) = Ok bs)
     <-> possible).
  { rewrite mapM_merged_ok.
    transitivity (forall key1 b1 key2 b2, block_of t key1 b1 -> block_of t key2 b2 ->
         new_key (labels_names keys) (labels_names (tm_keys t)) key1 = new_key (labels_names keys) (labels_names (tm_keys t)) key2 ->
         match_ b1 b2).
    - rewrite <- (groups_pairs t (labels_names keys) match_ Ht Hne).
      + split; intros H e He; apply (Hcases e He); auto.
      + intros b1 b2 [H1 H2]. split; [apply Forall2_same_sym; exact H1|intros H; apply same_labels_sym; auto].
      + intros b1 b2 b3 [H1 H2] [H3 H4]. split; [eapply Forall2_same_trans; eassumption|intros H; eapply same_labels_trans; [apply H2|apply H4]; exact H].
    - unfold possible. split.
      + intros H. split; [exact Hv|]. split.
        * intros key1 b1 key2 b2 H1 H2 E; apply (H key1 b1 key2 b2 H1 H2 E).
        * intros Hr key1 b1 key2 b2 H1 H2 E; apply (H key1 b1 key2 b2 H1 H2 E). apply Hexp. exact Hr.
      + intros (_ & H1 & H2) key1 b1 key2 b2 Hb1 Hb2 E. split; [exact (H1 _ _ _ _ Hb1 Hb2 E)|].
        intros Hx. apply Hexp in Hx. exact (H2 Hx _ _ _ _ Hb1 Hb2 E). }
  destruct (clean_mapM (fun e => merge (group t (labels_names keys) e)) (new_keys_rows (tm_keys t) (labels_names keys)))
    as [[bs Ebs]|[m Em]].
  - intros e He. apply (Hcases e He).
  - left. split; [apply Hiff; eauto|]. exists (mk_tensor nk bs).
    match goal with |- match bind ?o _ with _ => _ end = _ => replace o with (Ok bs) by (symmetry; exact Ebs) end. reflexivity.
  - right. split; [rewrite <- Hiff; intros [bs Ebs]; congruence|]. exists m.
    match goal with |- match bind ?o _ with _ => _ end = _ =>
      replace o with (Err (InvalidParameter m) : outcome (list TensorBlock)) by (symmetry; exact Em) end. reflexivity.
Qed.

(* C30 *)
Lemma moving_keys_no_panic p t keys sort :
  workable t -> wf_labels keys -> labels_names keys <> [] -> agreeing_groups t (labels_names keys) ->
  (forall b, In b (tm_blocks t) -> rows (bb_properties (tb_values b)) <> []) ->
  (forall b name, In b (tm_blocks t) -> In name (labels_names keys) ->
     ~ In name (labels_names (bb_samples (tb_values b))) /\ ~ In name (labels_names (bb_properties (tb_values b)))) ->
  (forall m, snd (keys_to_samples p t keys sort) <> Panic m) /\ (forall m, snd (keys_to_properties p t keys sort) <> Panic m).
Proof.
  intros Hw Hk Hkn Ha Hp Hd. split; intros m H.
  - destruct (keys_to_samples_complete p t keys sort Hw Hk Hkn Ha) as [[_ [t' E]]|[_ [m' E]]].
    + intros b name Hb Hn. apply (Hd b name Hb Hn).
    + rewrite E in H. discriminate.
    + rewrite E in H. discriminate.
  - destruct (keys_to_properties_complete p t keys sort Hw Hk Hkn Ha Hp) as [[_ [t' E]]|[_ [m' E]]].
    + intros b name Hb Hn. apply (Hd b name Hb Hn).
    + rewrite E in H. discriminate.
    + rewrite E in H. discriminate.
Qed.
