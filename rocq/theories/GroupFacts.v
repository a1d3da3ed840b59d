(* Lemmas about Tensor.v: values and gradients of merged blocks, for any way of
   placing the blocks in the new one *)
From Coq Require Import Permutation.
From Verif Require Import Base BaseFacts Labels Array Block Tensor Spec SpecTensor LabelsFacts ArrayFacts BlockFacts TensorFacts KeysFacts MergeFacts.
Local Open Scope string_scope.
Local Open Scope list_scope.
Local Open Scope nat_scope.

Lemma Forall2_choice {A B C} (R : A -> B -> C -> Prop) la lb :
  Forall2 (fun a b => exists c, R a b c) la lb ->
  exists lc, Forall2 (fun ab c => R (fst ab) (snd ab) c) (combine la lb) lc.
Proof.
  induction 1 as [|a b la lb [c Hc] H [lc IH]]; simpl.
  - exists []. constructor.
  - exists (c :: lc). constructor; assumption.
Qed.

Lemma wf_block_gradient b q g :
  wf_block b -> In (q, g) (tb_gradients b) ->
  wf_basic g /\ compatible_gradient (tb_values b) g /\ tensor_block_gradient b q = Some g.
Proof.
  intros (_ & Hg & Hnd & _) Hin. rewrite Forall_forall in Hg. destruct (Hg _ Hin) as [H1 H2].
  split; [assumption|]. split; [assumption|]. apply (hm_get_iff _ String.eqb_eq _ _ _ Hnd). assumption.
Qed.

Lemma gradient_In b q g : tensor_block_gradient b q = Some g -> In (q, g) (tb_gradients b).
Proof. apply (hm_get_In _ String.eqb_eq). Qed.

Lemma wf_basic_axes b : wf_basic b ->
  axis_labels (bb_samples b) /\ Forall axis_labels (bb_components b) /\ axis_labels (bb_properties b).
Proof.
  intros (_ & Hax & _). unfold axes in Hax. inversion Hax as [|? ? H1 H2]; subst.
  apply Forall_app in H2 as [H2 H3]. inversion H3; subst. auto.
Qed.

Lemma wf_basic_shape b : wf_basic b ->
  shape_of (bb_data b) = length (rows (bb_samples b))
    :: map (fun l => length (rows l)) (bb_components b) ++ [length (rows (bb_properties b))].
Proof. intros (_ & _ & H & _). rewrite H. unfold axes. simpl. rewrite map_app. reflexivity. Qed.

Lemma axis_wf l : axis_labels l -> wf_labels l.
Proof. intros [H _]; assumption. Qed.

Lemma axes_wf l : Forall axis_labels l -> Forall wf_labels l.
Proof. apply Forall_impl. intros ? [H _]; assumption. Qed.

(** * Parts: the blocks to merge and where they go *)

Definition part : Type := (KeyAndBlock * list sample_mapping * option (nat * nat))%type.
Definition part_key (x : part) : list Z := fst (fst (fst x)).
Definition part_block (x : part) : TensorBlock := snd (fst (fst x)).
Definition part_mapping (x : part) : list sample_mapping := snd (fst x).
Definition part_range (x : part) : option (nat * nat) := snd x.

Definition extend (add : bool) (key sample : list Z) : list Z := if add then sample ++ key else sample.

Definition part_samples (add : bool) (x : part) : list (list Z) :=
  map (extend add (part_key x)) (rows (bb_samples (tb_values (part_block x)))).

Definition part_prefix (pre : bool) (x : part) : list Z := if pre then part_key x else [].

Definition part_in_range (x : part) (k : nat) : Prop :=
  exists start stop, part_range x = Some (start, stop) /\ start <= k < stop.

Definition part_properties (pre : bool) (new_properties : list (list Z)) (x : part) : Prop :=
  forall start stop, part_range x = Some (start, stop) ->
    stop = start + length (rows (bb_properties (tb_values (part_block x))))
    /\ forall k r, nth_error (rows (bb_properties (tb_values (part_block x)))) k = Some r ->
         nth_error new_properties (start + k) = Some (part_prefix pre x ++ r).

Definition disjoint_parts (add : bool) (parts : list part) : Prop :=
  forall n1 n2 x1 x2 s k, nth_error parts n1 = Some x1 -> nth_error parts n2 = Some x2 ->
    In s (part_samples add x1) -> In s (part_samples add x2) ->
    part_in_range x1 k -> part_in_range x2 k -> n1 = n2.

Lemma extend_inj add key s1 s2 : extend add key s1 = extend add key s2 -> s1 = s2.
Proof. unfold extend. destruct add; [apply app_inv_tail|auto]. Qed.

Lemma map_NoDup {A B} (f : A -> B) l : (forall x y, f x = f y -> x = y) -> NoDup l -> NoDup (map f l).
Proof.
  intros Hf. induction 1 as [|x l Hx Hl IH]; simpl; constructor; [|assumption].
  intros H. apply in_map_iff in H as (y & Hy & Hin). apply Hf in Hy. subst. contradiction.
Qed.

Lemma part_samples_NoDup add x : wf_block (part_block x) -> NoDup (part_samples add x).
Proof.
  intros (Hv & _). apply map_NoDup; [apply extend_inj|]. apply wf_basic_axes in Hv as (Hs & _).
  apply wf_rows_NoDup. apply axis_wf. assumption.
Qed.

Lemma part_sample_nth add x i s' :
  nth_error (part_samples add x) i = Some s' <->
  exists s, nth_error (rows (bb_samples (tb_values (part_block x)))) i = Some s /\ s' = extend add (part_key x) s.
Proof.
  unfold part_samples. rewrite nth_error_map.
  destruct (nth_error (rows (bb_samples (tb_values (part_block x)))) i) as [s|]; simpl; split.
  - intros H; inversion H; subst. eauto.
  - intros (s0 & H & ->). congruence.
  - discriminate.
  - intros (s0 & H & _). discriminate.
Qed.

Section Parts.
  Variables (add pre : bool) (parts : list part) (new : BasicBlock).

  Hypothesis Hnew : wf_basic new.
  Hypothesis Hwf : Forall (fun x => wf_block (part_block x)) parts.
  Hypothesis Hmap : Forall (fun x => mapping_for (rows (bb_samples new)) (part_samples add x) (part_mapping x)) parts.
  Hypothesis Hprop : Forall (part_properties pre (rows (bb_properties new))) parts.
  Hypothesis Hdis : disjoint_parts add parts.

  Let Hnd : NoDup (rows (bb_samples new)).
  Proof. apply wf_rows_NoDup. apply axis_wf. apply (wf_basic_axes _ Hnew). Qed.

  (* values *)
  Definition value_item (x : part) : move_item :=
    mk_item (bb_data (tb_values (part_block x))) (part_samples add x) (part_mapping x) (part_range x).

  Lemma part_range_le x start stop :
    In x parts -> part_range x = Some (start, stop) ->
    0 < length (rows (bb_properties (tb_values (part_block x)))) ->
    stop <= length (rows (bb_properties new)).
  Proof.
    intros Hin Hr Hpos. rewrite Forall_forall in Hprop. destruct (Hprop x Hin _ _ Hr) as [-> Hp].
    set (n := length (rows (bb_properties (tb_values (part_block x))))) in *.
    destruct (nth_error (rows (bb_properties (tb_values (part_block x)))) (n - 1)) as [r|] eqn:E;
      [|apply nth_error_None in E; unfold n in *; lia].
    specialize (Hp _ _ E). assert (start + (n - 1) < length (rows (bb_properties new))) by (apply nth_error_Some; congruence).
    lia.
  Qed.

  Hypothesis Hcomp : Forall (fun x => Forall2 same_labels (bb_components (tb_values (part_block x))) (bb_components new)) parts.
  (* ranges of blocks without properties must be in bounds too *)
  Hypothesis Hle : forall x start stop, In x parts -> part_range x = Some (start, stop) ->
     stop <= length (rows (bb_properties new)).

  Lemma value_entries s0 :
    shape_of s0 = map (fun l => length (rows l)) (axes new) ->
    wf_nd (a_nd s0) -> (forall idx, nd_get (a_nd s0) idx = 0%Z) ->
    foldM move_step (map value_item parts) s0 = Ok (bb_data new) ->
    forall s' cs p' v,
      entry new s' cs p' v <->
      (exists x s p, In x parts /\ part_range x <> None /\ s' = extend add (part_key x) s
         /\ p' = part_prefix pre x ++ p /\ entry (tb_values (part_block x)) s cs p v)
      \/ (In s' (rows (bb_samples new)) /\ (exists js, located (bb_components new) js cs)
          /\ In p' (rows (bb_properties new))
          /\ (forall x s p, In x parts -> part_range x <> None -> s' = extend add (part_key x) s ->
                p' = part_prefix pre x ++ p ->
                In s (rows (bb_samples (tb_values (part_block x)))) ->
                ~ In p (rows (bb_properties (tb_values (part_block x)))))
          /\ v = 0%Z).
  Proof.
    intros Hsh Hw0 Hz Hfold s' cs p' v.
    assert (Hpnd : NoDup (rows (bb_properties new))).
    { apply wf_rows_NoDup. apply axis_wf. apply (wf_basic_axes _ Hnew). }
    rewrite Forall_forall in Hwf, Hmap, Hcomp. pose proof Hprop as Hprop'. rewrite Forall_forall in Hprop'.
    rewrite (merged_entries new (map (fun x => (tb_values (part_block x), part_prefix pre x)) parts)
              (map value_item parts) s0); auto.
    - split; intros [H|H]; [left|right|left|right].
      + destruct H as (n & source & prefix & it & i & s & p & Hn & Hit & Hr & Hs' & Hs & -> & He).
        rewrite nth_error_map in Hn, Hit. destruct (nth_error parts n) as [x|] eqn:Ex; [|discriminate].
        simpl in Hn, Hit. inversion Hn; inversion Hit; subst. simpl in *.
        apply part_sample_nth in Hs' as (s1 & Hs1 & ->). exists x, s1, p.
        split; [eapply nth_error_In; eauto|]. split; [assumption|]. split; [reflexivity|]. split; [reflexivity|].
        replace s1 with s by congruence. assumption.
      + destruct H as (H1 & H2 & (k & Hk & Hun) & ->). split; [assumption|]. split; [assumption|].
        split; [eapply nth_error_In; eauto|]. split; [|reflexivity].
        intros x s p Hin Hr -> -> Hs Hp. apply In_nth_error in Hp as [j Hj]. apply In_nth_error in Hs as [i Hi].
        destruct (part_range x) as [[start stop]|] eqn:Er; [|congruence].
        destruct (Hprop' x Hin _ _ Er) as [-> Hp'].
        assert (start + j = k) by (eapply NoDup_nth_error_inj; [exact Hpnd|apply Hp'; exact Hj|exact Hk]).
        apply (Hun (value_item x)).
        * apply in_map. assumption.
        * simpl. apply (nth_error_In _ i). apply part_sample_nth. eauto.
        * exists start, (start + length (rows (bb_properties (tb_values (part_block x))))). split; [assumption|].
          assert (j < length (rows (bb_properties (tb_values (part_block x))))) by (apply nth_error_Some; congruence). lia.
      + destruct H as (x & s & p & Hin & Hr & -> & -> & He). apply In_nth_error in Hin as [n Hn].
        pose proof He as He'. apply entry_iff in He' as (i & _ & _ & Hi & _).
        exists n, (tb_values (part_block x)), (part_prefix pre x), (value_item x), i, s, p.
        rewrite !nth_error_map, Hn. simpl. repeat (split; [reflexivity || assumption|]).
        split; [apply part_sample_nth; eauto|]. auto.
      + destruct H as (H1 & H2 & H3 & H4 & ->). split; [assumption|]. split; [assumption|]. split; [|reflexivity].
        apply In_nth_error in H3 as [k Hk]. exists k. split; [assumption|].
        intros it Hit Hs Hr. apply in_map_iff in Hit as (x & <- & Hx). simpl in Hs.
        apply In_nth_error in Hs as [i Hi]. apply part_sample_nth in Hi as (s & Hs & ->).
        destruct Hr as (start & stop & Hr & Hkr). simpl in Hr.
        destruct (Hprop' x Hx _ _ Hr) as [-> Hp'].
        destruct (nth_error (rows (bb_properties (tb_values (part_block x)))) (k - start)) as [p|] eqn:Ep;
          [|apply nth_error_None in Ep; lia].
        assert (Epk := Hp' _ _ Ep). replace (start + (k - start)) with k in Epk by lia.
        apply (H4 x s p); auto; try congruence.
        * eapply nth_error_In; eauto.
        * eapply nth_error_In; eauto.
    - apply Forall_forall. intros sp Hsp. apply in_map_iff in Hsp as (x & <- & Hx). simpl. apply Hwf. assumption.
    - clear Hfold Hdis. assert (G : forall l, incl l parts ->
        Forall2 (fun sp it => item_of new (fst sp) (snd sp) it)
          (map (fun x => (tb_values (part_block x), part_prefix pre x)) l) (map value_item l)).
      { induction l as [|x l IH]; intros Hl; simpl; constructor.
        - simpl. split; [reflexivity|]. split; [simpl; unfold part_samples; apply map_length|].
          assert (Hx : In x parts) by (apply Hl; simpl; auto).
          split; [apply Hcomp; assumption|]. intros start stop Hr. apply (Hprop' x Hx _ _ Hr).
        - apply IH. intros y Hy. apply Hl. simpl; auto. }
      apply G. intros y Hy; assumption.
    - apply Forall_forall. intros it Hit. apply in_map_iff in Hit as (x & <- & Hx).
      unfold valid_item; simpl. split; [apply Hmap; assumption|]. split; [apply part_samples_NoDup; apply Hwf; assumption|].
      exists (length (rows (bb_properties (tb_values (part_block x))))). split.
      + rewrite wf_basic_shape by (apply Hwf; assumption).
        rewrite (Forall2_same_counts _ _ (Hcomp x Hx)). unfold part_samples. rewrite map_length. reflexivity.
      + intros start stop Hr. destruct (Hprop' x Hx _ _ Hr) as [-> _]. split; [reflexivity|].
        eapply Hle; eauto.
    - intros it1 it2 r k H1 H2 Hr1 Hr2 Hk1 Hk2.
      apply in_map_iff in H1 as (x1 & <- & Hx1). apply in_map_iff in H2 as (x2 & <- & Hx2).
      apply In_nth_error in Hx1 as [n1 Hn1]. apply In_nth_error in Hx2 as [n2 Hn2].
      assert (n1 = n2) by (eapply Hdis; eauto). subst. congruence.
  Qed.

  (* gradients *)
  Section Gradient.
    Variables (q : string) (newg : BasicBlock) (tb : TensorBlock).
    Hypothesis Htb : tb_values tb = new.
    Hypothesis Hqnew : In (q, newg) (tb_gradients tb).
    Hypothesis Hqonly : forall g, In (q, g) (tb_gradients tb) -> g = newg.
    Hypothesis Hnewg : wf_basic newg.
    Hypothesis Hgprop : bb_properties newg = bb_properties new.

    Definition translates (x : part) (row row' : list Z) : Prop :=
      exists i rest m, row = Z.of_nat i :: rest /\ nth_error (part_mapping x) i = Some m
        /\ row' = Z.of_nat (sm_output m) :: rest.

    Definition gradient_item (x : part) (it : move_item) (g : BasicBlock) : Prop :=
      In (q, g) (tb_gradients (part_block x))
      /\ it_input it = bb_data g
      /\ Forall2 (translates x) (rows (bb_samples g)) (it_sources it)
      /\ it_range it = part_range x
      /\ mapping_for (rows (bb_samples newg)) (it_sources it) (it_mapping it).

    Lemma translates_sample x row row' :
      In x parts -> translates x row row' ->
      exists i i' s rest, row = Z.of_nat i :: rest /\ row' = Z.of_nat i' :: rest
        /\ nth_error (rows (bb_samples (tb_values (part_block x)))) i = Some s
        /\ nth_error (rows (bb_samples new)) i' = Some (extend add (part_key x) s).
    Proof.
      intros Hin (i & rest & m & -> & Hm & ->). rewrite Forall_forall in Hmap.
      destruct (Hmap x Hin) as [Hl HM]. destruct (HM _ _ Hm) as (E & r & Hr1 & Hr2).
      apply part_sample_nth in Hr1 as (s & Hs & ->). exists i, (sm_output m), s, rest. auto.
    Qed.

    Lemma sample_translates x i s rest :
      In x parts -> nth_error (rows (bb_samples (tb_values (part_block x)))) i = Some s ->
      exists i', translates x (Z.of_nat i :: rest) (Z.of_nat i' :: rest)
        /\ nth_error (rows (bb_samples new)) i' = Some (extend add (part_key x) s).
    Proof.
      intros Hin Hs. rewrite Forall_forall in Hmap. destruct (Hmap x Hin) as [Hl HM].
      assert (Hi : i < length (part_mapping x)).
      { rewrite Hl. unfold part_samples. rewrite map_length. apply nth_error_Some. congruence. }
      destruct (nth_error (part_mapping x) i) as [m|] eqn:Em; [|apply nth_error_None in Em; lia].
      destruct (HM _ _ Em) as (E & r & Hr1 & Hr2). apply part_sample_nth in Hr1 as (s1 & Hs1 & ->).
      exists (sm_output m). split; [exists i, rest, m; auto|]. congruence.
    Qed.

    Lemma translates_inj x r1 r2 r' : In x parts -> translates x r1 r' -> translates x r2 r' -> r1 = r2.
    Proof.
      intros Hin H1 H2.
      apply (translates_sample x _ _ Hin) in H1 as (i1 & j1 & s1 & rest1 & -> & -> & Hs1 & Hm1).
      apply (translates_sample x _ _ Hin) in H2 as (i2 & j2 & s2 & rest2 & -> & E & Hs2 & Hm2).
      inversion E as [[E1 E2]]. apply Nat2Z.inj in E1. subst j2 rest2.
      assert (Hs : s1 = s2) by (apply (extend_inj add (part_key x)); congruence). subst s2.
      f_equal. f_equal. rewrite Forall_forall in Hwf.
      eapply NoDup_nth_error_inj; [|exact Hs1|exact Hs2].
      apply wf_rows_NoDup. apply axis_wf. apply (wf_basic_axes _ (proj1 (Hwf x Hin))).
    Qed.

    Lemma translated_NoDup x rs rs' : In x parts -> NoDup rs -> Forall2 (translates x) rs rs' -> NoDup rs'.
    Proof.
      intros Hin Hnd' H. induction H as [|a b rs rs' Hab H IH]; [constructor|].
      inversion Hnd' as [|? ? Ha Hrs E]. clear E. constructor; [|auto].
      intros Hb. destruct (Forall2_In_r _ _ _ _ H Hb) as (a' & Ha' & Hab').
      assert (a = a') by (eapply translates_inj; eauto). subst a'. contradiction.
    Qed.

    Lemma gradient_samples_new its gs :
      Forall2 (fun ab g => gradient_item (fst ab) (snd ab) g) (combine parts its) gs ->
      length its = length parts ->
      (forall row, In row (rows (bb_samples newg)) <-> exists it, In it its /\ In row (it_sources it)) ->
      forall s' rest, gradient_sample tb q s' rest <->
        exists x s, In x parts /\ s' = extend add (part_key x) s /\ gradient_sample (part_block x) q s rest.
    Proof.
      intros Hit Hlen Hrows s' rest. unfold gradient_sample. rewrite Htb. split.
      - intros (i & g & Hi & Hg & Hrow). apply Hqonly in Hg. subst g. apply Hrows in Hrow as (it & Hin & Hrow).
        apply In_nth_error in Hin as [n Hn].
        assert (Hnp : n < length parts) by (rewrite <- Hlen; apply nth_error_Some; congruence).
        destruct (nth_error parts n) as [x|] eqn:Ex; [|apply nth_error_None in Ex; lia].
        assert (Hc : nth_error (combine parts its) n = Some (x, it)) by (apply nth_error_combine; auto).
        destruct (Forall2_nth_error_l _ _ _ _ _ Hit Hc) as (g & Hgn & Hgi). simpl in Hgi.
        destruct Hgi as (Hq & Hinp & Htr & _).
        destruct (Forall2_In_r _ _ _ _ Htr Hrow) as (row & Hr1 & Hr2).
        assert (Hx : In x parts) by (eapply nth_error_In; eauto).
        apply (translates_sample x _ _ Hx) in Hr2 as (i1 & j1 & s1 & rest1 & -> & E & Hs1 & Hm1).
        inversion E as [[E1 E2]]. apply Nat2Z.inj in E1. subst j1 rest1.
        exists x, s1. split; [assumption|]. split; [congruence|]. exists i1, g. auto.
      - intros (x & s & Hx & -> & i & g & Hi & Hg & Hrow).
        destruct (sample_translates x i s rest Hx Hi) as (i' & Htr & Hi').
        exists i', newg. split; [assumption|]. split; [assumption|].
        apply Hrows. apply In_nth_error in Hx as [n Hn].
        assert (Hni : n < length its) by (rewrite Hlen; apply nth_error_Some; congruence).
        destruct (nth_error its n) as [it|] eqn:Eit; [|apply nth_error_None in Eit; lia].
        exists it. split; [eapply nth_error_In; eauto|].
        assert (Hc : nth_error (combine parts its) n = Some (x, it)) by (apply nth_error_combine; auto).
        destruct (Forall2_nth_error_l _ _ _ _ _ Hit Hc) as (g' & Hgn & Hgi). simpl in Hgi.
        destruct Hgi as (Hq & Hinp & Htr' & _).
        assert (g' = g).
        { rewrite Forall_forall in Hwf. apply (wf_block_gradient _ _ _ (Hwf x (nth_error_In _ _ Hn))) in Hq as (_ & _ & Hq).
          apply (wf_block_gradient _ _ _ (Hwf x (nth_error_In _ _ Hn))) in Hg as (_ & _ & Hg). congruence. }
        subst g'. destruct (Forall2_In_l _ _ _ _ Htr' Hrow) as (row' & Hr1 & Hr2).
        destruct Htr as (i1 & rest1 & m & E & Hm & E'). destruct Hr2 as (i2 & rest2 & m2 & F & Hm2 & F').
        rewrite E in F. inversion F as [[F1 F2]]. apply Nat2Z.inj in F1. subst i2 rest2.
        assert (m2 = m) by congruence. subst m2. rewrite E', <- F'. assumption.
    Qed.

    Lemma gradient_entries its gs s0 :
      Forall2 (fun ab g => gradient_item (fst ab) (snd ab) g) (combine parts its) gs ->
      length its = length parts ->
      (forall row, In row (rows (bb_samples newg)) <-> exists it, In it its /\ In row (it_sources it)) ->
      (forall x g, In x parts -> In (q, g) (tb_gradients (part_block x)) ->
         Forall2 same_labels (bb_components g) (bb_components newg)) ->
      shape_of s0 = map (fun l => length (rows l)) (axes newg) ->
      wf_nd (a_nd s0) -> (forall idx, nd_get (a_nd s0) idx = 0%Z) ->
      foldM move_step its s0 = Ok (bb_data newg) ->
      forall s' rest cs p' v,
        gradient_value tb q s' rest cs p' v <->
        (exists x s p, In x parts /\ part_range x <> None /\ s' = extend add (part_key x) s
           /\ p' = part_prefix pre x ++ p /\ gradient_value (part_block x) q s rest cs p v)
        \/ (gradient_sample tb q s' rest /\ (exists js, located (bb_components newg) js cs)
            /\ In p' (rows (bb_properties new))
            /\ (forall x s p, In x parts -> part_range x <> None -> s' = extend add (part_key x) s ->
                  p' = part_prefix pre x ++ p ->
                  gradient_sample (part_block x) q s rest ->
                  ~ In p (rows (bb_properties (tb_values (part_block x)))))
            /\ v = 0%Z).
    Proof.
      intros Hit Hlen Hrows Hgcomp Hsh Hw0 Hz Hfold s' rest cs p' v.
      assert (Hpnd : NoDup (rows (bb_properties new))).
      { apply wf_rows_NoDup. apply axis_wf. apply (wf_basic_axes _ Hnew). }
      pose proof Hwf as Hwf'. rewrite Forall_forall in Hwf'.
      pose proof Hprop as Hprop'. rewrite Forall_forall in Hprop'.
      assert (Hlen2 : length gs = length parts).
      { rewrite <- (Forall2_len _ _ _ Hit). rewrite combine_length_eq by congruence. reflexivity. }
      assert (Hat : forall n x it g, nth_error parts n = Some x -> nth_error its n = Some it -> nth_error gs n = Some g ->
                gradient_item x it g).
      { intros n x it g H1 H2 H3.
        assert (Hc : nth_error (combine parts its) n = Some (x, it)) by (apply nth_error_combine; auto).
        destruct (Forall2_nth_error_l _ _ _ _ _ Hit Hc) as (g' & Hg' & Hgi). simpl in Hgi. congruence. }
      assert (Hget : forall {A} n (l : list A), length l = length parts -> n < length parts -> exists a, nth_error l n = Some a).
      { intros A n l Hl Hn. destruct (nth_error l n) as [a|] eqn:E; [eauto|]. apply nth_error_None in E. lia. }
      assert (Hgx : forall x g, In x parts -> In (q, g) (tb_gradients (part_block x)) ->
                 wf_basic g /\ bb_properties g = bb_properties (tb_values (part_block x))).
      { intros x g Hx Hg. destruct (wf_block_gradient _ _ _ (Hwf' x Hx) Hg) as (H1 & (_ & _ & H2 & _) & _). auto. }
      assert (Hgu : forall x g g', In x parts -> In (q, g) (tb_gradients (part_block x)) ->
                 In (q, g') (tb_gradients (part_block x)) -> g = g').
      { intros x g g' Hx Hg Hg'. destruct (wf_block_gradient _ _ _ (Hwf' x Hx) Hg) as (_ & _ & H2).
        destruct (wf_block_gradient _ _ _ (Hwf' x Hx) Hg') as (_ & _ & H2'). congruence. }
      assert (Hent : forall i', nth_error (rows (bb_samples new)) i' = Some s' ->
        (entry newg (Z.of_nat i' :: rest) cs p' v <->
         (exists n x g it j row p, nth_error parts n = Some x /\ nth_error gs n = Some g /\ nth_error its n = Some it
            /\ part_range x <> None
            /\ nth_error (it_sources it) j = Some (Z.of_nat i' :: rest) /\ nth_error (rows (bb_samples g)) j = Some row
            /\ p' = part_prefix pre x ++ p /\ entry g row cs p v)
         \/ (In (Z.of_nat i' :: rest) (rows (bb_samples newg)) /\ (exists js, located (bb_components newg) js cs)
             /\ (exists k, nth_error (rows (bb_properties new)) k = Some p'
                 /\ forall it, In it its -> In (Z.of_nat i' :: rest) (it_sources it) -> ~ in_range it k)
             /\ v = 0%Z))).
      { intros i' Hi'.
        rewrite (merged_entries newg (combine gs (map (part_prefix pre) parts)) its s0); auto.
        - rewrite Hgprop. split; (intros [H|H]; [left|right; exact H]).
          + destruct H as (n & g & prefix & it & j & row & p & Hn & Hitn & Hr & Hsrc & Hrow & -> & He).
            apply nth_error_combine in Hn as [Hg Hpre]. rewrite nth_error_map in Hpre.
            destruct (nth_error parts n) as [x|] eqn:Ex; [|discriminate]. inversion Hpre; subst prefix.
            destruct (Hat _ _ _ _ Ex Hitn Hg) as (H1 & H2 & H3 & H5 & H6).
            exists n, x, g, it, j, row, p. repeat (split; [assumption || congruence|]). assumption.
          + destruct H as (n & x & g & it & j & row & p & Hn & Hg & Hitn & Hr & Hsrc & Hrow & -> & He).
            destruct (Hat _ _ _ _ Hn Hitn Hg) as (H1 & H2 & H3 & H5 & H6).
            exists n, g, (part_prefix pre x), it, j, row, p. split.
            { apply nth_error_combine. split; [assumption|]. rewrite nth_error_map, Hn. reflexivity. }
            repeat (split; [assumption || congruence|]). assumption.
        - apply Forall_forall. intros [g prefix] Hin. apply In_nth_error in Hin as [n Hn].
          apply nth_error_combine in Hn as [Hg _]. simpl.
          assert (Hn : n < length parts) by (rewrite <- Hlen2; apply nth_error_Some; congruence).
          destruct (Hget _ n parts eq_refl Hn) as [x Hx]. destruct (Hget _ n its Hlen Hn) as [it Hitn].
          destruct (Hat _ _ _ _ Hx Hitn Hg) as (H1 & _). apply (Hgx x g); [eapply nth_error_In; eauto|assumption].
        - apply Forall2_nth_error_intro.
          + rewrite combine_length_eq by (rewrite map_length; congruence). congruence.
          + intros n [g prefix] it Hn Hitn. apply nth_error_combine in Hn as [Hg Hpre]. rewrite nth_error_map in Hpre.
            destruct (nth_error parts n) as [x|] eqn:Ex; [|discriminate]. inversion Hpre; subst prefix.
            destruct (Hat _ _ _ _ Ex Hitn Hg) as (H1 & H2 & H3 & H5 & H6).
            assert (Hx : In x parts) by (eapply nth_error_In; eauto).
            destruct (Hgx x g Hx H1) as [Hgw Hgp]. simpl.
            split; [assumption|]. split; [symmetry; eapply Forall2_len; eauto|].
            split; [eapply Hgcomp; eauto|].
            intros start stop Hr. rewrite H5 in Hr. destruct (Hprop' x Hx _ _ Hr) as [-> Hp].
            rewrite Hgp, Hgprop. split; [reflexivity|]. assumption.
        - apply wf_rows_NoDup. apply axis_wf. apply (wf_basic_axes _ Hnewg).
        - apply Forall_forall. intros it Hin. apply In_nth_error in Hin as [n Hitn].
          assert (Hn : n < length parts) by (rewrite <- Hlen; apply nth_error_Some; congruence).
          destruct (Hget _ n parts eq_refl Hn) as [x Hx]. destruct (Hget _ n gs Hlen2 Hn) as [g Hg].
          destruct (Hat _ _ _ _ Hx Hitn Hg) as (H1 & H2 & H3 & H5 & H6).
          assert (Hxin : In x parts) by (eapply nth_error_In; eauto).
          destruct (Hgx x g Hxin H1) as [Hgw Hgp].
          unfold valid_item. split; [assumption|]. split.
          + eapply translated_NoDup; [exact Hxin| |exact H3]. apply wf_rows_NoDup. apply axis_wf. apply (wf_basic_axes _ Hgw).
          + exists (length (rows (bb_properties (tb_values (part_block x))))). split.
            * rewrite H2, (wf_basic_shape _ Hgw), <- (Forall2_len _ _ _ H3), Hgp.
              rewrite (Forall2_same_counts _ _ (Hgcomp x g Hxin H1)). reflexivity.
            * intros start stop Hr. rewrite H5 in Hr. destruct (Hprop' x Hxin _ _ Hr) as [-> _].
              rewrite Hgprop. split; [reflexivity|]. eapply Hle; eauto.
        - intros it1 it2 r k H1 H2 Hr1 Hr2 Hk1 Hk2.
          apply In_nth_error in H1 as [n1 Hn1]. apply In_nth_error in H2 as [n2 Hn2].
          assert (L1 : n1 < length parts) by (rewrite <- Hlen; apply nth_error_Some; congruence).
          assert (L2 : n2 < length parts) by (rewrite <- Hlen; apply nth_error_Some; congruence).
          destruct (Hget _ n1 parts eq_refl L1) as [x1 Hx1]. destruct (Hget _ n1 gs Hlen2 L1) as [g1 Hg1].
          destruct (Hget _ n2 parts eq_refl L2) as [x2 Hx2]. destruct (Hget _ n2 gs Hlen2 L2) as [g2 Hg2].
          destruct (Hat _ _ _ _ Hx1 Hn1 Hg1) as (A1 & A2 & A3 & A5 & A6).
          destruct (Hat _ _ _ _ Hx2 Hn2 Hg2) as (B1 & B2 & B3 & B5 & B6).
          destruct (Forall2_In_r _ _ _ _ A3 Hr1) as (row1 & _ & T1).
          destruct (Forall2_In_r _ _ _ _ B3 Hr2) as (row2 & _ & T2).
          apply (translates_sample x1 _ _ (nth_error_In _ _ Hx1)) in T1 as (i1 & j1 & s1 & rest1 & -> & -> & Hs1 & Hm1).
          apply (translates_sample x2 _ _ (nth_error_In _ _ Hx2)) in T2 as (i2 & j2 & s2 & rest2 & -> & E & Hs2 & Hm2).
          inversion E as [[E1 E2]]. apply Nat2Z.inj in E1. subst j2 rest2.
          assert (n1 = n2).
          { apply (Hdis n1 n2 x1 x2 (extend add (part_key x1) s1) k); auto.
            - apply (nth_error_In _ i1). apply part_sample_nth. eauto.
            - apply (nth_error_In _ i2). apply part_sample_nth. exists s2. split; [assumption|]. congruence.
            - destruct Hk1 as (st & sp & Hr & Hkk). exists st, sp. rewrite <- A5. auto.
            - destruct Hk2 as (st & sp & Hr & Hkk). exists st, sp. rewrite <- B5. auto. }
          subst n2. congruence. }
      split.
      - intros (i' & g & Hi' & Hg & He). rewrite Htb in Hi'. apply Hqonly in Hg. subst g.
        apply (Hent i' Hi') in He. destruct He as [H|H]; [left|right].
        + destruct H as (n & x & g & it & j & row & p & Hn & Hg & Hitn & Hr & Hsrc & Hrow & -> & He).
          destruct (Hat _ _ _ _ Hn Hitn Hg) as (H1 & H2 & H3 & H5 & H6).
          assert (Hx : In x parts) by (eapply nth_error_In; eauto).
          destruct (Forall2_nth_error_l _ _ _ _ _ H3 Hrow) as (row' & Hrow' & Htr).
          assert (row' = Z.of_nat i' :: rest) by congruence. subst row'.
          apply (translates_sample x _ _ Hx) in Htr as (i1 & j1 & s1 & rest1 & -> & E & Hs1 & Hm1).
          inversion E as [[E1 E2]]. apply Nat2Z.inj in E1. subst j1 rest1.
          exists x, s1, p. split; [assumption|]. split; [assumption|]. split; [congruence|]. split; [reflexivity|].
          exists i1, g. auto.
        + destruct H as (Hrow & Hloc & (k & Hk & Hun) & ->).
          split; [exists i', newg; rewrite Htb; auto|]. split; [assumption|].
          split; [eapply nth_error_In; eauto|]. split; [|reflexivity].
          intros x s p Hx Hr -> -> (i & g & Hi & Hg & Hin) Hp.
          apply In_nth_error in Hx as [n Hn].
          assert (L1 : n < length parts) by (apply nth_error_Some; congruence).
          destruct (Hget _ n its Hlen L1) as [it Hitn]. destruct (Hget _ n gs Hlen2 L1) as [g' Hg'].
          destruct (Hat _ _ _ _ Hn Hitn Hg') as (H1 & H2 & H3 & H5 & H6).
          assert (Hx : In x parts) by (eapply nth_error_In; eauto).
          assert (g' = g) by (apply (Hgu x g' g Hx); auto). subst g'.
          destruct (part_range x) as [[start stop]|] eqn:Er; [|congruence].
          destruct (Hprop' x Hx _ _ Er) as [-> Hp'].
          apply In_nth_error in Hp as [j Hj].
          assert (start + j = k) by (eapply NoDup_nth_error_inj; [exact Hpnd|apply Hp'; exact Hj|exact Hk]).
          apply (Hun it); [eapply nth_error_In; eauto| |].
          * destruct (Forall2_In_l _ _ _ _ H3 Hin) as (row' & Hr1 & Htr).
            destruct (sample_translates x i s rest Hx Hi) as (i2 & Htr2 & Hi2).
            assert (i2 = i') by (eapply NoDup_nth_error_inj; [exact Hnd|exact Hi2|exact Hi']). subst i2.
            destruct Htr as (a1 & rest1 & m & E & Hm & E'). destruct Htr2 as (a2 & rest2 & m2 & F & Hm2 & F').
            rewrite E in F. inversion F as [[F1 F2]]. apply Nat2Z.inj in F1. subst a2 rest2.
            assert (m2 = m) by congruence. subst m2. rewrite F', <- E'. assumption.
          * exists start, (start + length (rows (bb_properties (tb_values (part_block x))))). split; [congruence|].
            assert (j < length (rows (bb_properties (tb_values (part_block x))))) by (apply nth_error_Some; congruence). lia.
      - intros [H|H].
        + destruct H as (x & s & p & Hx & Hr & -> & -> & i & g & Hi & Hg & He).
          destruct (sample_translates x i s rest Hx Hi) as (i' & Htr & Hi').
          exists i', newg. rewrite Htb. split; [assumption|]. split; [assumption|].
          apply (Hent i' Hi'). left.
          apply In_nth_error in Hx as [n Hn].
          assert (L1 : n < length parts) by (apply nth_error_Some; congruence).
          destruct (Hget _ n its Hlen L1) as [it Hitn]. destruct (Hget _ n gs Hlen2 L1) as [g' Hg'].
          destruct (Hat _ _ _ _ Hn Hitn Hg') as (H1 & H2 & H3 & H5 & H6).
          assert (Hx : In x parts) by (eapply nth_error_In; eauto).
          assert (g' = g) by (apply (Hgu x g' g Hx); auto). subst g'.
          pose proof He as He'. apply entry_iff in He' as (j & _ & _ & Hj & _).
          destruct (Forall2_nth_error_l _ _ _ _ _ H3 Hj) as (row' & Hrow' & Htr').
          exists n, x, g, it, j, (Z.of_nat i :: rest), p. repeat (split; [assumption || congruence|]).
          split; [|auto]. rewrite Hrow'. f_equal.
          destruct Htr as (a1 & rest1 & m & E & Hm & E'). destruct Htr' as (a2 & rest2 & m2 & F & Hm2 & F').
          rewrite E in F. inversion F as [[F1 F2]]. apply Nat2Z.inj in F1. subst a2 rest2.
          assert (m2 = m) by congruence. subst m2. congruence.
        + destruct H as ((i' & g & Hi' & Hg & Hin) & Hloc & Hp & Hun & ->).
          apply Hqonly in Hg. subst g. rewrite Htb in Hi'.
          exists i', newg. rewrite Htb. split; [assumption|]. split; [assumption|].
          apply (Hent i' Hi'). right. split; [assumption|]. split; [assumption|]. split; [|reflexivity].
          apply In_nth_error in Hp as [k Hk]. exists k. split; [assumption|].
          intros it Hitin Hrow Hkr. apply In_nth_error in Hitin as [n Hitn].
          assert (L1 : n < length parts) by (rewrite <- Hlen; apply nth_error_Some; congruence).
          destruct (Hget _ n parts eq_refl L1) as [x Hn]. destruct (Hget _ n gs Hlen2 L1) as [g Hg].
          destruct (Hat _ _ _ _ Hn Hitn Hg) as (H1 & H2 & H3 & H5 & H6).
          assert (Hx : In x parts) by (eapply nth_error_In; eauto).
          destruct (Forall2_In_r _ _ _ _ H3 Hrow) as (row & Hr1 & Htr).
          apply (translates_sample x _ _ Hx) in Htr as (i1 & j1 & s1 & rest1 & -> & E & Hs1 & Hm1).
          inversion E as [[E1 E2]]. apply Nat2Z.inj in E1. subst j1 rest1.
          destruct Hkr as (start & stop & Hr & Hkk). rewrite H5 in Hr.
          destruct (Hprop' x Hx _ _ Hr) as [-> Hp'].
          destruct (nth_error (rows (bb_properties (tb_values (part_block x)))) (k - start)) as [p|] eqn:Ep;
            [|apply nth_error_None in Ep; lia].
          assert (Epk := Hp' _ _ Ep). replace (start + (k - start)) with k in Epk by lia.
          apply (Hun x s1 p); auto; try congruence.
          * exists i1, g. auto.
          * eapply nth_error_In; eauto.
    Qed.
  End Gradient.
End Parts.
