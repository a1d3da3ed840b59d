(* Lemmas about SpecCallApart.v *)
From Verif Require Import Base BaseFacts LayoutFacts Labels Array Block Tensor Spec SpecTensor LabelsFacts ArrayFacts BlockFacts TensorFacts KeysFacts
  MergeFacts GroupFacts BlocksFacts MergePropertiesFacts MovedFacts DefinedFacts CompleteFacts
  MoveWith MoveWithFacts Callbacks SpecCallbacks CallbacksStore CallbacksFacts CallbacksOwnFacts CallbacksStoreFacts
  SpecCallMoves CallMovesFacts SpecCallApart.
Local Open Scope string_scope.
Local Open Scope list_scope.
Local Open Scope nat_scope.

(** * What was written in the last array which was made *)

Definition area : Type := list sample_mapping * (nat * nat).

Definition disjoint (a b : area) : Prop :=
  forall row property, writes (fst a) (fst (snd a)) (snd (snd a)) row property -> ~ writes (fst b) (fst (snd b)) (snd (snd b)) row property.

Lemma disjoint_sym a b : disjoint a b -> disjoint b a.
Proof. intros H row property H1 H2. exact (H _ _ H2 H1). Qed.

Definition written := option (nat * list area).

Definition wstep (L : written) (e : call * answer) : written :=
  match fst e with
  | QCreate a sh => if works (snd e) then Some (an_new (snd e), []) else L
  | QCopy _ => None
  | QMove o i samples start stop => match L with Some (o', areas) => Some (o', (samples, (start, stop)) :: areas) | None => None end
  | _ => L
  end.

Definition wgood_step (L : written) (e : call * answer) : Prop :=
  match fst e with
  | QMove o i samples start stop =>
      NoDup (map sm_output samples) /\ exists areas, L = Some (o, areas) /\ Forall (disjoint (samples, (start, stop))) areas
  | _ => True
  end.

Fixpoint wgood (L : written) (tr : trace) : Prop :=
  match tr with
  | [] => True
  | e :: tr => wgood_step L e /\ wgood (wstep L e) tr
  end.

Definition wlast (L : written) (tr : trace) : written := fold_left wstep tr L.

Lemma wgood_app L tr1 tr2 : wgood L (tr1 ++ tr2) <-> wgood L tr1 /\ wgood (wlast L tr1) tr2.
Proof.
  revert L. induction tr1 as [|e tr1 IH]; intros L; cbn [app wgood]; [unfold wlast; cbn; tauto|].
  rewrite IH. unfold wlast. cbn [fold_left]. tauto.
Qed.

(* when the array is not made again, what was written in it is not forgotten *)
Lemma wgood_kept between : forall o L ar,
  (forall areas, L = Some (o, areas) -> In ar areas) ->
  Forall (fun '(c, an) => created c an <> Some o) between ->
  forall areas, wlast L between = Some (o, areas) -> In ar areas.
Proof.
  induction between as [|[c an] between IH]; intros o L ar HL Hf areas E; [exact (HL areas E)|].
  inversion Hf as [|? ? H1 H2]; subst. unfold wlast in E. cbn [fold_left] in E. eapply IH; [|exact H2|exact E].
  intros areas' E'. unfold wstep in E'. cbn [fst snd] in E'. destruct c; try (apply HL; exact E').
  - destruct (works an) eqn:Ew; [|apply HL; exact E']. inversion E'; subst. cbn in H1. rewrite Ew in H1. contradiction.
  - discriminate.
  - destruct L as [[o' l]|]; [|discriminate]. inversion E'; subst. right. apply HL. reflexivity.
Qed.

Lemma wgood_apart tr : wgood None tr -> apart_moves tr.
Proof.
  intros H. split.
  - intros before o i samples start stop an after ->. apply wgood_app in H as [_ H]. cbn [wgood] in H. apply H.
  - intros before o i1 samples1 start1 stop1 an1 between i2 samples2 start2 stop2 an2 after -> Hf row property Hw1 Hw2.
    apply wgood_app in H as [_ H]. cbn [wgood] in H. destruct H as [_ H]. apply wgood_app in H as [_ H]. cbn [wgood] in H.
    destruct H as [(_ & areas & E & Hd) _]. rewrite Forall_forall in Hd.
    assert (Hin : In (samples1, (start1, stop1)) areas).
    { eapply wgood_kept; [|exact Hf|exact E]. intros areas' E'. unfold wstep in E'. cbn [fst] in E'.
      destruct (wlast None before) as [[o' l]|]; [|discriminate]. inversion E'; subst. left. reflexivity. }
    exact (Hd _ Hin row property Hw2 Hw1).
Qed.

(** * Programs *)

Definition ap {X} (L : written) (m : prog (outcome X)) (R : written -> X -> Prop) : Prop :=
  forall tr r, runs m tr r -> wgood L tr /\ forall x, r = Ok x -> R (wlast L tr) x.

Lemma drop_wgood l : forall L tr u, runs (drop_arrays l) tr u -> wgood L tr.
Proof.
  induction l as [|a l IH]; intros L tr u H; cbn [drop_arrays] in H.
  - apply runs_ret_inv in H as [-> _]. exact I.
  - apply runs_ask_inv in H as (an & tr' & -> & H). cbn [wgood]. split; [exact I|eapply IH; exact H].
Qed.

Lemma then_fail_wgood {X} owned (f : outcome X) L tr r : runs (then_fail owned f) tr r -> wgood L tr /\ r = f.
Proof.
  intros H. apply runs_bindp in H as (tr1 & u & tr2 & H1 & H2 & ->). apply runs_ret_inv in H2 as [-> ->].
  rewrite app_nil_r. split; [eapply drop_wgood; exact H1|reflexivity].
Qed.

Lemma ap_ret {X} L (r : outcome X) (R : written -> X -> Prop) : (forall x, r = Ok x -> R L x) -> ap L (Ret r) R.
Proof. intros H tr r' Hr. apply runs_ret_inv in Hr as [-> ->]. split; [exact I|exact H]. Qed.

Lemma ap_or_drop {X Y} L owned (m : prog (outcome X)) (k : X -> prog (outcome Y)) (R : written -> X -> Prop) (Q : written -> Y -> Prop) :
  ap L m R -> (forall L' x, R L' x -> ap L' (k x) Q) -> ap L (or_drop owned m k) Q.
Proof.
  intros Hm Hk tr r H. unfold or_drop in H. apply runs_bindp in H as (tr1 & x & tr2 & H1 & H2 & ->).
  destruct (Hm _ _ H1) as [Hg Hx]. rewrite wgood_app. destruct x as [x|e|e|e].
  - destruct (Hk _ _ (Hx x eq_refl) _ _ H2) as [Hg2 Hq]. split; [auto|]. intros y Hy. unfold wlast. rewrite fold_left_app. apply Hq, Hy.
  - destruct (then_fail_wgood _ _ (wlast L tr1) _ _ H2) as [Hg2 ->]. split; [auto|discriminate].
  - destruct (then_fail_wgood _ _ (wlast L tr1) _ _ H2) as [Hg2 ->]. split; [auto|discriminate].
  - destruct (then_fail_wgood _ _ (wlast L tr1) _ _ H2) as [Hg2 ->]. split; [auto|discriminate].
Qed.

Lemma ap_pure {X Y} L owned (o : outcome X) (k : X -> prog (outcome Y)) (Q : written -> Y -> Prop) :
  (forall x, o = Ok x -> ap L (k x) Q) -> ap L (or_drop owned (Ret o) k) Q.
Proof.
  intros H. eapply (ap_or_drop _ _ _ _ (fun L' x => L' = L /\ o = Ok x)).
  - apply ap_ret. auto.
  - intros L' x [-> E]. apply H, E.
Qed.

Lemma ap_weaken {X} L (m : prog (outcome X)) (R Q : written -> X -> Prop) : (forall L' x, R L' x -> Q L' x) -> ap L m R -> ap L m Q.
Proof. intros H Hm tr r Hr. destruct (Hm _ _ Hr) as [Hg Hx]. split; [exact Hg|]. intros x E. apply H, Hx, E. Qed.

Lemma ap_ask {X} L c op (value : answer -> X) (R : written -> X -> Prop) :
  (forall an, wgood_step L (c, an)) -> (forall an, works an = true -> R (wstep L (c, an)) (value an)) -> ap L (ask c op value) R.
Proof.
  intros Hs Hr tr r H. unfold ask in H. apply runs_ask_inv in H as (an & tr' & -> & H). apply runs_ret_inv in H as [-> ->].
  split; [split; [apply Hs|exact I]|]. intros x E. unfold wlast. cbn [fold_left].
  destruct (an_null an) eqn:En; [discriminate|]. destruct (an_status an =? 0)%Z eqn:Ez; [|unfold callback_error in E; destruct op; discriminate].
  inversion E; subst x. apply Hr. unfold works. rewrite En, Ez. reflexivity.
Qed.

Definition whatever {X} (L : written) (x : X) : Prop := True.

Lemma ap_shape L a : ap L (p_shape a) whatever.
Proof. apply ap_ask; intros; exact I. Qed.

Lemma ap_origin L a : ap L (p_origin a) whatever.
Proof. apply ap_ask; intros; exact I. Qed.

Lemma ap_create L a sh : ap L (p_create a sh) (fun L' x => L' = Some (x, [])).
Proof. apply ap_ask; [intros; exact I|]. intros an Hw. unfold wstep. cbn [fst snd]. rewrite Hw. reflexivity. Qed.

Lemma ap_move o areas i samples start stop : NoDup (map sm_output samples) -> Forall (disjoint (samples, (start, stop))) areas ->
  ap (Some (o, areas)) (p_move o i samples start stop) (fun L' _ => L' = Some (o, (samples, (start, stop)) :: areas)).
Proof. intros Hn Hd. apply ap_ask; [intros an; split; [exact Hn|exists areas; auto]|]. intros an _. reflexivity. Qed.

(* a loop which writes in the last array *)
Lemma ap_each {X} o (f : X -> prog (outcome unit)) (wrote : X -> area -> Prop) l :
  (forall done x rest areas, l = done ++ x :: rest ->
     (forall ar, In ar areas -> exists y, In y done /\ wrote y ar) ->
     ap (Some (o, areas)) (f x) (fun L' _ => L' = Some (o, areas) \/ exists ar, wrote x ar /\ L' = Some (o, ar :: areas))) ->
  ap (Some (o, [])) (each f l) whatever.
Proof.
  intros H.
  enough (Hl : forall rest done areas, l = done ++ rest -> (forall ar, In ar areas -> exists y, In y done /\ wrote y ar) ->
                 ap (Some (o, areas)) (each f rest) whatever).
  { apply (Hl l [] []); [reflexivity|]. intros ar []. }
  induction rest as [|x rest IH]; intros done areas El Ha; cbn [each]; [apply ap_ret; intros; exact I|].
  eapply ap_or_drop; [apply (H done x rest areas El Ha)|]. cbv beta. intros L' _ HL.
  assert (El' : l = (done ++ [x]) ++ rest) by (rewrite <- app_assoc; exact El).
  assert (Ha' : forall ar, In ar areas -> exists y, In y (done ++ [x]) /\ wrote y ar).
  { intros ar Har. destruct (Ha ar Har) as (y & Hy & Hw). exists y. split; [apply in_or_app; left; exact Hy|exact Hw]. }
  destruct HL as [->|(ar & Hw & ->)]; (apply (IH (done ++ [x])); [exact El'|]).
  - exact Ha'.
  - intros ar' [<-|Har]; [|exact (Ha' _ Har)]. exists x. split; [apply in_or_app; right; left; reflexivity|exact Hw].
Qed.

Lemma ap_expect {X} L message (m : prog (outcome X)) (R : written -> X -> Prop) : ap L m R -> ap L (expectp message m) R.
Proof.
  intros Hm tr r H. unfold expectp in H. apply runs_bindp in H as (tr1 & x & tr2 & H1 & H2 & ->). apply runs_ret_inv in H2 as [-> ->].
  rewrite app_nil_r in *. destruct (Hm _ _ H1) as [Hg Hx]. split; [exact Hg|]. intros y E. apply Hx. destruct x; cbn in E; try discriminate. exact E.
Qed.

Lemma ap_check L context a samples components properties : ap L (p_check context a samples components properties) whatever.
Proof. unfold p_check. eapply ap_or_drop; [apply ap_shape|]. intros L' sh _. apply ap_ret. intros; exact I. Qed.

Lemma ap_block_new L a samples components properties : ap L (p_block_new a samples components properties) whatever.
Proof.
  unfold p_block_new. eapply ap_or_drop; [apply ap_check|]. intros L' [] _. apply ap_pure. intros _ _. apply ap_ret. intros; exact I.
Qed.

Lemma ap_check_gradient L b parameter a samples components : ap L (p_check_gradient b parameter a samples components) whatever.
Proof.
  unfold p_check_gradient. destruct (hm_contains _ _ _); [apply ap_ret; discriminate|].
  eapply (ap_or_drop _ _ _ _ whatever).
  - unfold p_same_origin. eapply ap_or_drop; [apply ap_origin|]. intros L1 o1 _. eapply ap_or_drop; [apply ap_origin|]. intros L2 o2 _.
    destruct (negb _); [|apply ap_ret; intros; exact I]. eapply ap_or_drop; [apply ap_origin|]. intros L3 _ _.
    eapply ap_or_drop; [apply ap_origin|]. intros L4 _ _. apply ap_ret. discriminate.
  - intros L1 _ _. destruct (String.eqb _ _); [apply ap_ret; discriminate|]. destruct (_ || _)%bool; [apply ap_ret; discriminate|].
    apply ap_pure. intros _ _. cbv zeta. destruct (_ <? _); [apply ap_ret; discriminate|]. apply ap_pure. intros _ _. apply ap_check.
Qed.

Lemma ap_add_merged L b parameter a samples components : ap L (p_add_merged_gradient b parameter a samples components) whatever.
Proof.
  intros tr r H. unfold p_add_merged_gradient in H. apply runs_bindp in H as (tr1 & [b' r'] & tr2 & H1 & H2 & ->).
  split; [|intros; exact I]. rewrite wgood_app. split.
  - unfold p_add_gradient in H1. apply runs_bindp in H1 as (tr3 & r3 & tr4 & H3 & H4 & ->).
    destruct (ap_check_gradient L _ _ _ _ _ _ _ H3) as [Hg _]. rewrite wgood_app. split; [exact Hg|].
    destruct r3 as [[]|e|e|e].
    + cbv zeta in H4. destruct (cstring_new parameter); apply runs_ret_inv in H4 as [-> _]; exact I.
    + apply runs_bindp in H4 as (tr5 & u & tr6 & H5 & H6 & ->). apply runs_ret_inv in H6 as [-> _]. rewrite app_nil_r. eapply drop_wgood; exact H5.
    + apply runs_bindp in H4 as (tr5 & u & tr6 & H5 & H6 & ->). apply runs_ret_inv in H6 as [-> _]. rewrite app_nil_r. eapply drop_wgood; exact H5.
    + apply runs_bindp in H4 as (tr5 & u & tr6 & H5 & H6 & ->). apply runs_ret_inv in H6 as [-> _]. rewrite app_nil_r. eapply drop_wgood; exact H5.
  - assert (Hm : ap (wlast L tr1) (let! _ := Ret (expect "created invalid gradients" r') dropping block_arrays b' in Ret (Ok b')) whatever).
    { apply ap_pure. intros. apply ap_ret. intros; exact I. }
    apply (Hm _ _ H2).
Qed.

Lemma ap_each_gradient {X} (f : TensorBlock -> X -> prog (outcome TensorBlock)) l : (forall L b x, In x l -> ap L (f b x) whatever) ->
  forall L b, ap L (each_gradient f l b) whatever.
Proof.
  induction l as [|x l IH]; intros H L b; cbn [each_gradient]; [apply ap_ret; intros; exact I|].
  eapply ap_or_drop; [apply H; left; reflexivity|]. intros L' b' _. apply IH. intros L1 b1 y Hy. apply H. right. exact Hy.
Qed.

Lemma ap_each_block {X} (f : X -> prog (outcome TensorBlock)) l : (forall L x, In x l -> ap L (f x) whatever) ->
  forall L done, ap L (each_block f done l) whatever.
Proof.
  induction l as [|x l IH]; intros H L done; cbn [each_block]; [apply ap_ret; intros; exact I|].
  eapply ap_or_drop; [apply H; left; reflexivity|]. intros L' b' _. apply IH. intros L1 y Hy. apply H. right. exact Hy.
Qed.

(** * Areas *)

Lemma app_same_end {A} (a b c d : list A) : length c = length d -> a ++ c = b ++ d -> c = d.
Proof.
  intros Hl E. assert (Hab : length a = length b) by (apply (f_equal (@length A)) in E; rewrite !app_length in E; lia).
  revert b Hab E. induction a as [|x a IH]; intros [|y b] Hab E; try discriminate; [exact E|].
  inversion E. eapply IH; [|eassumption]. inversion Hab. reflexivity.
Qed.

Lemma app_same_start {A} (a b c d : list A) : length a = length b -> a ++ c = b ++ d -> a = b.
Proof.
  revert b. induction a as [|x a IH]; intros [|y b] Hab E; try discriminate; [reflexivity|].
  inversion E. f_equal. eapply IH; [|eassumption]. inversion Hab. reflexivity.
Qed.

Definition outputs_apart (ms1 ms2 : list sample_mapping) : Prop := forall m1 m2, In m1 ms1 -> In m2 ms2 -> sm_output m1 <> sm_output m2.

Lemma outputs_disjoint ms1 ms2 r1 r2 : outputs_apart ms1 ms2 -> disjoint (ms1, r1) (ms2, r2).
Proof.
  intros H row property [H1 _] [H2 _]. cbn in H1, H2. apply in_map_iff in H1 as (m1 & E1 & H1). apply in_map_iff in H2 as (m2 & E2 & H2).
  apply (H m1 m2 H1 H2). congruence.
Qed.

Lemma ranges_disjoint ms1 ms2 start1 stop1 start2 stop2 : (forall x, start1 <= x < stop1 -> start2 <= x < stop2 -> False) ->
  disjoint (ms1, (start1, stop1)) (ms2, (start2, stop2)).
Proof. intros H row property [_ H1] [_ H2]. cbn in H1, H2. exact (H _ H1 H2). Qed.

(* the samples of gradients come from samples *)
Definition comes_from (new_samples : list (list Z)) (ms moved : list sample_mapping) : Prop :=
  forall m, In m moved -> exists m0 rest, In m0 ms /\ nth_error new_samples (sm_output m) = Some (Z.of_nat (sm_output m0) :: rest).

Lemma comes_apart new_samples ms1 ms2 moved1 moved2 : outputs_apart ms1 ms2 ->
  comes_from new_samples ms1 moved1 -> comes_from new_samples ms2 moved2 -> outputs_apart moved1 moved2.
Proof.
  intros H H1 H2 m1 m2 Hm1 Hm2 E. destruct (H1 _ Hm1) as (n1 & rest1 & Hn1 & E1). destruct (H2 _ Hm2) as (n2 & rest2 & Hn2 & E2).
  apply (H n1 n2 Hn1 Hn2). rewrite E, E2 in E1. apply Nat2Z.inj. congruence.
Qed.

(* the keys of different places of the list are different *)
Lemma NoDup_before {X} (key : X -> list Z) l done x rest y : NoDup (map key l) -> l = done ++ x :: rest -> In y done -> key y <> key x.
Proof.
  intros Hn -> Hy E. rewrite map_app in Hn. cbn [map] in Hn. apply NoDup_remove_2 in Hn. apply Hn. apply in_or_app. left.
  rewrite <- E. apply in_map. exact Hy.
Qed.

Lemma NoDup_combine {X Y Z} (key : X -> Z) (l : list X) (l' : list Y) : NoDup (map key l) -> NoDup (map (fun x => key (fst x)) (combine l l')).
Proof.
  revert l'. induction l as [|x l IH]; intros [|y l'] H; cbn; try constructor; inversion H as [|? ? H1 H2]; subst.
  - intros Hin. apply H1. apply in_map_iff in Hin as ([x' y'] & E & Hin). cbn in E. rewrite <- E. apply in_map. eapply in_combine_l. exact Hin.
  - apply IH. exact H2.
Qed.

Section Merge.
  Context (s : store).

  (* the move of the gradient of one block *)
  Lemma ap_move_gradient p q new_components new_samples b ms start stop o areas :
    wf_block (see_block s b) -> wf_labels new_samples -> NoDup (map sm_output ms) ->
    (forall moved, comes_from (rows new_samples) ms moved -> Forall (disjoint (moved, (start, stop))) areas) ->
    ap (Some (o, areas)) (p_move_gradient p q new_components new_samples b ms start stop o)
       (fun L' _ => exists moved, comes_from (rows new_samples) ms moved /\ L' = Some (o, (moved, (start, stop)) :: areas)).
  Proof.
    intros Hw Hns Hms Hd. unfold p_move_gradient. apply ap_pure. intros g Eg. apply expect_some_ok in Eg.
    apply gradient_In in Eg. pose proof (see_gradient_in s _ _ _ Eg) as Eg'. destruct (wf_block_gradient _ _ _ Hw Eg') as (Hwg & _).
    destruct (wf_basic_axes _ Hwg) as (Hgs & _). cbn [see_basic bb_samples] in Hgs.
    apply ap_pure. intros u Ed. apply ap_pure. intros rs Hrs. apply (labels_iter_ok _ _ (axis_wf _ Hgs)) in Hrs as [_ ->].
    apply ap_pure. intros moved Hmoved. destruct (gradient_samples_to_move_ok _ _ _ _ _ _ Hns Hmoved) as (tr & Htr & Hlen & Hm).
    assert (Hc : comes_from (rows new_samples) ms moved).
    { intros m Hin. apply In_nth_error in Hin as [i Hi]. destruct (Hm i m Hi) as [_ (r & Hr & Hr')]. rewrite mapM_ok in Htr.
      destruct (Forall2_nth_error_r _ _ _ _ _ Htr Hr) as (r0 & _ & T). apply translate_ok in T as (i0 & rest & m0 & _ & Hm0 & ->).
      exists m0, rest. split; [eapply nth_error_In; exact Hm0|exact Hr']. }
    destruct (mapping_right (rows new_samples) tr moved) as (_ & _ & H3).
    { split; [exact Hlen|]. intros i m Hi. apply Hm in Hi. exact Hi. }
    { eapply translated_NoDup; [exact Hms| |exact Htr]. apply wf_rows_NoDup, axis_wf, Hgs. }
    eapply ap_weaken; [|apply ap_move; [exact H3|exact (Hd _ Hc)]]. cbv beta. intros L' _ ->. exists moved. auto.
  Qed.

  Section Group.
    Context (p : profile) (k0 : list Z) (b0 : TensorBlock) (others : list KeyAndBlock) (n : nat).
    Let kbs := (k0, b0) :: others.
    Context (Hwf : Forall (fun kb : KeyAndBlock => wf_block (snd kb)) (map (see_kb s) kbs)).
    Context (Hnd : NoDup (map fst kbs)) (Hklen : forall k b, In (k, b) kbs -> length k = n).

    Lemma gwf k b : In (k, b) kbs -> wf_block (see_block s b).
    Proof. exact (group_wf s k0 b0 others Hwf k b). Qed.

    (* where the samples of the blocks go *)
    Lemma group_goes names sort merged maps : names <> [] -> merge_samples kbs names sort = Ok (merged, maps) ->
      length maps = length kbs /\
      forall k b ms, In ((k, b), ms) (combine kbs maps) -> In (k, b) kbs /\ NoDup (map sm_output ms)
        /\ forall m, In m ms -> exists r, nth_error (rows merged) (sm_output m)
             = Some (extend (length (labels_names (bb_samples (tb_values b0))) <? length names) k r).
    Proof.
      intros Hne H. rewrite <- (see_merge_samples s) in H.
      apply (BlocksFacts.merge_samples_ok k0 (see_block s b0) (map (see_kb s) others)) in H; [|exact Hwf|exact Hne].
      destruct H as [Hl Hf]. change ((k0, see_block s b0) :: map (see_kb s) others) with (map (see_kb s) kbs) in Hf.
      split; [apply Forall2_len in Hf; rewrite map_length in Hf; symmetry; exact Hf|].
      intros k b ms Hm. pose proof (in_combine_l _ _ _ _ Hm) as Hkb. split; [exact Hkb|].
      assert (Hm' : In (see_kb s (k, b), ms) (combine (map (see_kb s) kbs) maps)).
      { rewrite combine_see. apply (in_map (fun x => (see_kb s (fst x), snd x))) in Hm. exact Hm. }
      apply (Forall2_combine_In _ _ _ _ _ Hf) in Hm'.
      destruct (wf_basic_axes _ (proj1 (gwf k b Hkb))) as (Hs & _ & _). split.
      - apply mapping_right in Hm'; [apply Hm'|apply extend_NoDup, wf_rows_NoDup, axis_wf; exact Hs].
      - intros m Hin. apply In_nth_error in Hin as [i Hi]. destruct Hm' as [_ Hm']. destruct (Hm' i m Hi) as [_ (r & Hr & Hr')].
        cbn [fst see_kb] in Hr. rewrite nth_error_map in Hr. destruct (nth_error (block_samples _) i) as [r0|]; [|discriminate]. inversion Hr; subst r.
        exists r0. exact Hr'.
    Qed.

    Lemma glabels q maps new_samples : length maps = length kbs -> merge_gradient_samples p kbs q maps = Ok new_samples -> wf_labels new_samples.
    Proof.
      intros Hlen H. rewrite <- (see_merge_gradient_samples s) in H.
      apply merge_gradient_samples_ok in H as (gts & _ & Hw & _); [exact Hw|exact Hwf|rewrite map_length; exact Hlen].
    Qed.

    Lemma ap_merge_samples L extracted sort : (extracted = [] -> n = 0) -> ap L (p_merge_blocks_along_samples p kbs extracted sort) whatever.
    Proof.
      intros Hex. unfold p_merge_blocks_along_samples. unfold kbs at 1. cbv zeta.
      assert (Hv0 : wf_basic (see_basic s (tb_values b0))) by exact (proj1 (gwf k0 b0 (or_introl eq_refl))).
      destruct (wf_basic_axes _ Hv0) as (Hs0 & _). cbn [see_basic bb_samples] in Hs0.
      apply ap_pure. intros _ _. apply ap_pure. intros [merged maps] Hms.
      apply group_goes in Hms as (Hlen & Hms); [|intros E; apply app_eq_nil in E as [E _]; exact (proj2 Hs0 E)].
      set (l := combine kbs maps) in *. set (add := _ <? _) in Hms.
      assert (Hkeys : NoDup (map (fun x => fst (fst x)) l)) by (apply NoDup_combine; exact Hnd).
      (* the samples of different blocks go to different samples *)
      assert (Hapart : forall done k b ms rest k' b' ms', l = done ++ ((k, b), ms) :: rest -> In ((k', b'), ms') done -> outputs_apart ms ms').
      { intros done k b ms rest k' b' ms' El Hy m m' Hm Hm' E.
        assert (Hx : In ((k, b), ms) l) by (rewrite El; apply in_or_app; right; left; reflexivity).
        assert (Hx' : In ((k', b'), ms') l) by (rewrite El; apply in_or_app; left; exact Hy).
        pose proof (NoDup_before _ _ _ _ _ _ Hkeys El Hy) as Hne. cbn in Hne. apply Hne.
        destruct (Hms _ _ _ Hx) as (Hkb & _ & Hr). destruct (Hms _ _ _ Hx') as (Hkb' & _ & Hr').
        pose proof (Hklen _ _ Hkb) as Hk1. pose proof (Hklen _ _ Hkb') as Hk2.
        destruct extracted as [|e es].
        - rewrite (Hex eq_refl) in *. apply length_zero_iff_nil in Hk1, Hk2. congruence.
        - assert (Ea : add = true). { unfold add. apply Nat.ltb_lt. rewrite app_length. cbn. lia. }
          rewrite Ea in *. destruct (Hr m Hm) as [r E1]. destruct (Hr' m' Hm') as [r' E2]. rewrite E, E2 in E1. inversion E1 as [E3].
          cbn [extend] in E3. eapply app_same_end; [|exact E3]. congruence. }
      eapply ap_or_drop; [apply ap_shape|]. intros L1 sh _. apply ap_pure. intros n_samples _. apply ap_pure. intros new_shape _.
      eapply ap_or_drop; [apply ap_create|]. cbv beta. intros L2 o ->. apply ap_pure. intros P _.
      eapply ap_or_drop.
      { apply (ap_each o _ (fun x ar => ar = (snd x, (0, P)))). intros done [[k b] ms] rest areas El Ha.
        change (l = done ++ ((k, b), ms) :: rest) in El.
        assert (Hx : In ((k, b), ms) l) by (rewrite El; apply in_or_app; right; left; reflexivity).
        eapply ap_weaken; [|apply ap_move].
        - cbv beta. intros L' _ ->. right. eexists. split; [|reflexivity]. reflexivity.
        - apply (Hms _ _ _ Hx).
        - apply Forall_forall. intros ar Har. destruct (Ha ar Har) as ([[k' b'] ms'] & Hy & ->). apply outputs_disjoint.
          eapply Hapart; eassumption. }
      intros L3 u _. eapply ap_or_drop; [apply ap_expect; apply ap_block_new|]. intros L4 nb _.
      apply ap_each_gradient. intros L5 nb' [q g0] Hg0. apply ap_pure. intros new_samples Hnew.
      pose proof (glabels q maps new_samples Hlen Hnew) as Hwn.
      eapply ap_or_drop; [apply ap_shape|]. intros L6 sh' _. apply ap_pure. intros n_grad _. apply ap_pure. intros gshape _.
      eapply ap_or_drop; [apply ap_create|]. cbv beta. intros L7 og ->. cbv zeta.
      eapply ap_or_drop; [|intros; apply ap_add_merged].
      apply (ap_each og _ (fun x ar => exists moved, comes_from (rows new_samples) (snd x) moved /\ ar = (moved, (0, P)))).
      intros done [[k b] ms] rest areas El Ha.
      change (l = done ++ ((k, b), ms) :: rest) in El.
      assert (Hx : In ((k, b), ms) l) by (rewrite El; apply in_or_app; right; left; reflexivity).
      destruct (Hms _ _ _ Hx) as (Hkb & Hno & _).
      eapply ap_weaken; [|apply ap_move_gradient; [exact (gwf k b Hkb)|exact Hwn|exact Hno|]].
      - cbv beta. intros L' _ (moved & Hc & ->). right. eexists. split; [|reflexivity]. exists moved. split; [exact Hc|reflexivity].
      - intros moved Hc. apply Forall_forall. intros ar Har. destruct (Ha ar Har) as ([[k' b'] ms'] & Hy & moved' & Hc' & ->).
        apply outputs_disjoint. eapply comes_apart; [eapply Hapart; eassumption|exact Hc|exact Hc'].
    Qed.

    Lemma ap_merge_properties L (keys : option Labels) extracted sort :
      match keys with Some l => axis_labels l /\ length (labels_names l) = n | None => True end ->
      ap L (p_merge_blocks_along_properties p kbs keys extracted sort) whatever.
    Proof.
      intros Hkeys.
      unfold p_merge_blocks_along_properties. unfold kbs at 1. cbv zeta.
      assert (Hv0 : wf_basic (see_basic s (tb_values b0))) by exact (proj1 (gwf k0 b0 (or_introl eq_refl))).
      destruct (wf_basic_axes _ Hv0) as (Hs0 & Hc0 & Hp0). cbn [see_basic bb_samples bb_components bb_properties] in Hs0, Hc0, Hp0.
      set (seen := map (see_kb s) kbs) in *.
      assert (Hnd' : NoDup (map fst seen)).
      { unfold seen. rewrite map_map. exact Hnd. }
      assert (Hklen' : forall k b, In (k, b) seen -> length k = n).
      { intros k b H. unfold seen in H. apply in_map_iff in H as ([k' b'] & E & H). inversion E; subst. exact (Hklen _ _ H). }
      apply ap_pure. intros [] Hchk. rewrite <- (see_check_properties s) in Hchk. apply (check_same_properties_ok _ _ _ Hv0 Hwf) in Hchk.
      rewrite Forall_forall in Hchk. fold seen in Hchk.
      assert (Hk : match keys with
        | Some l => axis_labels l /\ length (labels_names l) = n /\ (forall k b, In (k, b) seen -> block_properties b = block_properties (see_block s b0))
        | None => True end).
      { destruct keys as [l|]; [|exact I]. split; [apply Hkeys|]. split; [apply Hkeys|]. intros k b H. apply Hchk in H as [_ H]. apply (H eq_refl). }
      apply ap_pure. intros [merged maps] Hms.
      apply group_goes in Hms as (Hlen & Hms); [|exact (proj2 Hs0)].
      apply ap_pure. intros nprows Hnp. rewrite <- (see_merged_properties s) in Hnp.
      apply (merged_properties_ok keys k0 (see_block s b0) (map (see_kb s) others) n) in Hnp;
        [|exact Hwf|exact Hnd'|exact Hklen'|destruct keys; [split; apply Hk|exact I]].
      change ((k0, see_block s b0) :: map (see_kb s) others) with seen in Hnp.
      apply ap_pure. intros newp Hbuild.
      assert (Hnewp : wf_labels newp) by (eapply labels_build_wf; exact Hbuild).
      assert (Hnames : extracted ++ labels_names (bb_properties (tb_values b0)) <> []).
      { intros E; apply app_eq_nil in E as [_ E]; apply (proj2 Hp0 E). }
      apply labels_build_is_labels in Hbuild; [|exact Hnames].
      assert (Hnewrows : rows newp = new_properties (option_map rows keys) seen (see_block s b0)) by (rewrite (is_labels_rows _ _ _ Hbuild); exact Hnp).
      apply ap_pure. intros P _.
      eapply ap_or_drop; [apply ap_shape|]. intros L1 sh _.
      apply ap_pure. intros n_samples _. apply ap_pure. intros new_shape _. apply ap_pure. intros new_shape' _.
      eapply ap_or_drop; [apply ap_create|]. cbv beta. intros L2 o ->.
      apply ap_pure. intros ranges Hranges. rewrite <- (see_property_range s), mapM_ok in Hranges.
      set (l := combine (combine kbs maps) ranges).
      (* the properties in a range start with the key *)
      assert (Hrange : forall k b ms start stop, In (((k, b), ms), Some (start, stop)) l ->
         In ((k, b), ms) (combine kbs maps) /\ forall x, start <= x < stop -> exists r, nth_error (rows newp) x = Some (k ++ r)).
      { intros k b ms start stop Hx. split; [eapply in_combine_l; exact Hx|].
        apply In_nth_error in Hx as [i Hi]. apply nth_error_combine in Hi as [Hi1 Hi2].
        apply nth_error_combine in Hi1 as [Hi1 _]. apply (map_nth_error (see_kb s)) in Hi1. fold seen in Hi1.
        assert (Hkb : In (k, see_block s b) seen) by (eapply nth_error_In; exact Hi1).
        destruct (Forall2_nth_error_l _ _ _ _ _ Hranges Hi1) as (rg & Hrg & E). rewrite Hi2 in Hrg. inversion Hrg; subst rg.
        destruct (property_range_ok keys k0 (see_block s b0) (map (see_kb s) others) n newp k (see_block s b) (Some (start, stop))) as (_ & _ & Hrr);
          [exact Hwf|exact Hklen'|exact Hk|exact Hnewp|exact Hnewrows|exact Hkb|exact E|].
        destruct (Hrr _ _ eq_refl) as [E' Hn']. intros x Hx.
        destruct (nth_error (block_properties (see_block s b)) (x - start)) as [r|] eqn:Em; [|apply nth_error_None in Em; lia].
        apply Hn' in Em. replace (start + (x - start)) with x in Em by lia. exists r. exact Em. }
      assert (Hkeys' : NoDup (map (fun x => fst (fst (fst x))) l)).
      { exact (NoDup_combine (fun x => fst (fst x)) _ ranges (NoDup_combine fst _ maps Hnd)). }
      assert (Hapart : forall done k b ms start stop rest k' b' ms' start' stop', l = done ++ (((k, b), ms), Some (start, stop)) :: rest ->
         In (((k', b'), ms'), Some (start', stop')) done -> forall x, start <= x < stop -> start' <= x < stop' -> False).
      { intros done k b ms start stop rest k' b' ms' start' stop' El Hy x H1 H2.
        assert (Hx : In (((k, b), ms), Some (start, stop)) l) by (rewrite El; apply in_or_app; right; left; reflexivity).
        assert (Hx' : In (((k', b'), ms'), Some (start', stop')) l) by (rewrite El; apply in_or_app; left; exact Hy).
        pose proof (NoDup_before _ _ _ _ _ _ Hkeys' El Hy) as Hne. cbn in Hne. apply Hne.
        destruct (Hrange _ _ _ _ _ Hx) as [Hkm Hr]. destruct (Hrange _ _ _ _ _ Hx') as [Hkm' Hr'].
        apply in_combine_l in Hkm, Hkm'. destruct (Hr x H1) as [r E1]. destruct (Hr' x H2) as [r' E2]. rewrite E2 in E1. inversion E1 as [E3].
        eapply app_same_start; [|exact E3]. rewrite (Hklen _ _ Hkm), (Hklen _ _ Hkm'). reflexivity. }
      set (wrote := fun (x : KeyAndBlock * list sample_mapping * option (nat * nat)) (ar : area) => snd x = Some (snd ar)).
      assert (Hdone : forall done k b ms start stop rest areas moved, l = done ++ (((k, b), ms), Some (start, stop)) :: rest ->
         (forall ar, In ar areas -> exists y, In y done /\ wrote y ar) -> Forall (disjoint (moved, (start, stop))) areas).
      { intros done k b ms start stop rest areas moved El Ha. apply Forall_forall. intros [ms' [start' stop']] Har.
        destruct (Ha _ Har) as ([[[k' b'] ms''] rg] & Hy & Hw). unfold wrote in Hw. cbn [snd] in Hw. subst rg. apply ranges_disjoint.
        eapply Hapart; eassumption. }
      eapply ap_or_drop.
      { apply (ap_each o _ wrote). intros done [[[k b] ms] [[start stop]|]] rest areas El Ha; [|apply ap_ret; intros x _; left; reflexivity].
        change (l = done ++ (((k, b), ms), Some (start, stop)) :: rest) in El.
        assert (Hx : In (((k, b), ms), Some (start, stop)) l) by (rewrite El; apply in_or_app; right; left; reflexivity).
        destruct (Hrange _ _ _ _ _ Hx) as [Hkm _]. destruct (Hms _ _ _ Hkm) as (Hkb & Hno & _).
        eapply ap_weaken; [|apply ap_move; [exact Hno|eapply Hdone; eassumption]].
        cbv beta. intros L' _ ->. right. eexists. split; [|reflexivity]. reflexivity. }
      intros L3 u _. eapply ap_or_drop; [apply ap_expect; apply ap_block_new|]. intros L4 nb _.
      apply ap_each_gradient. intros L5 nb' [q g0] Hg0. apply ap_pure. intros new_samples Hnew.
      pose proof (glabels q maps new_samples Hlen Hnew) as Hwn.
      eapply ap_or_drop; [apply ap_shape|]. intros L6 sh' _. apply ap_pure. intros n_grad _. apply ap_pure. intros gshape _. apply ap_pure. intros gshape' _.
      eapply ap_or_drop; [apply ap_create|]. cbv beta. intros L7 og ->. cbv zeta.
      eapply ap_or_drop; [|intros; apply ap_add_merged].
      apply (ap_each og _ wrote). intros done [[[k b] ms] [[start stop]|]] rest areas El Ha; [|apply ap_ret; intros x _; left; reflexivity].
      change (l = done ++ (((k, b), ms), Some (start, stop)) :: rest) in El.
      assert (Hx : In (((k, b), ms), Some (start, stop)) l) by (rewrite El; apply in_or_app; right; left; reflexivity).
      destruct (Hrange _ _ _ _ _ Hx) as [Hkm _]. destruct (Hms _ _ _ Hkm) as (Hkb & Hno & _).
      eapply ap_weaken; [|apply ap_move_gradient; [exact (gwf k b Hkb)|exact Hwn|exact Hno|]].
      - cbv beta. intros L' _ (moved & Hc & ->). right. eexists. split; [|reflexivity]. reflexivity.
      - intros moved Hc. eapply Hdone; eassumption.
    Qed.
  End Group.
End Merge.

(** * Tensor maps *)

Section Tensor.
  Context (s : store) (t : TensorMap) (p : profile) (keys : Labels).
  Context (Ht : wf_tensor (see s t)).

  (* what is true for the blocks to merge *)
  Definition apart_group (kbs : list KeyAndBlock) : Prop := exists e, map (see_kb s) kbs = group (see s t) (labels_names keys) e.

  Lemma apart_wf kbs : apart_group kbs -> Forall (fun kb : KeyAndBlock => wf_block (snd kb)) (map (see_kb s) kbs).
  Proof.
    intros [e ->]. apply Forall_forall. intros [k b] Hin. apply group_blocks in Hin. exact (wf_tensor_block _ b Ht Hin).
  Qed.

  Lemma apart_keys kbs : apart_group kbs -> NoDup (map fst kbs).
  Proof.
    intros [e He]. assert (Hf : map fst (group (see s t) (labels_names keys) e) = map fst kbs).
    { rewrite <- He, map_map. reflexivity. }
    rewrite <- Hf. exact (group_keys_distinct (see s t) (labels_names keys) e Ht).
  Qed.

  Lemma apart_length kbs k b : apart_group kbs -> In (k, b) kbs ->
    length k = length (filter (is_moved (labels_names keys)) (labels_names (tm_keys t))).
  Proof.
    intros [e He] Hin. assert (Hin' : In (k, see_block s b) (group (see s t) (labels_names keys) e)) by (rewrite <- He; exact (see_in s _ k b Hin)).
    exact (group_keys_length (see s t) (labels_names keys) e k _ Ht Hin').
  Qed.

  Lemma ap_merged_blocks L new_keys positions merge :
    remove_variables_from_keys (tm_keys t) (labels_names keys) = Ok (new_keys, positions) ->
    (forall L kbs, apart_group kbs -> ap L (merge kbs) whatever) ->
    ap L (p_merged_blocks t new_keys positions merge) whatever.
  Proof.
    intros Hrem Hm. pose proof Ht as ([Hk Hn] & _). cbn [see tm_keys] in Hk, Hn.
    destruct (remove_variables_ok _ _ _ _ (conj Hk Hn) Hrem) as (Hv & Hl & Hproj). set (variables := labels_names keys) in *.
    unfold p_merged_blocks. apply ap_pure. intros n Hcount. rewrite (is_labels_count _ _ _ Hl) in Hcount by apply new_key_names_nonempty.
    inversion Hcount; subst n. destruct (Nat.eqb_spec (length (new_keys_rows (tm_keys t) variables)) 1) as [E|E].
    - apply ap_pure. intros kbs Hkbs. eapply ap_or_drop; [apply Hm|intros; apply ap_ret; intros; exact I].
      destruct (new_keys_rows (tm_keys t) variables) as [|e [|e' es]] eqn:Ee; try discriminate. exists e.
      pose proof (see_all_blocks s t positions) as Hs. rewrite Hkbs in Hs. cbn [bind] in Hs.
      rewrite (all_blocks_group (see s t) variables positions e Ht Hproj) in Hs; [inversion Hs; reflexivity|].
      intros key Hkey. cbn [see tm_keys] in *. unfold new_keys_rows in Ee.
      destruct (kept_names variables (labels_names (tm_keys t))) as [|nm ns] eqn:En.
      * inversion Ee. unfold new_key. rewrite En. reflexivity.
      * assert (Hin : In (new_key variables (labels_names (tm_keys t)) key)
                        (nub (map (new_key variables (labels_names (tm_keys t))) (rows (tm_keys t))))).
        { apply nub_In. apply in_map. assumption. }
        rewrite Ee in Hin. destruct Hin as [|[]]; congruence.
    - apply ap_pure. intros entries Hentries. rewrite (is_labels_iter _ _ _ Hl) in Hentries by apply new_key_names_nonempty.
      inversion Hentries; subst entries. rewrite (is_labels_names _ _ _ Hl).
      assert (Hkn : kept_names variables (labels_names (tm_keys t)) <> []).
      { intros En. apply E. unfold new_keys_rows. rewrite En. reflexivity. }
      replace (new_key_names variables (labels_names (tm_keys t))) with (kept_names variables (labels_names (tm_keys t))).
      2:{ unfold new_key_names. destruct (kept_names variables (labels_names (tm_keys t))); [contradiction|reflexivity]. }
      apply ap_each_block. intros L1 e He. apply ap_pure. intros kbs Hkbs. apply Hm. exists e.
      pose proof (see_some_blocks s t positions (kept_names variables (labels_names (tm_keys t))) e) as Hs. rewrite Hkbs in Hs. cbn [bind] in Hs.
      pose proof (blocks_to_merge_group (see s t) variables positions e Ht Hkn) as Hg. cbn [see tm_keys] in Hg, Hs.
      rewrite Hg in Hs; [inversion Hs; reflexivity| |exact Hproj].
      unfold new_keys_rows in He. destruct (kept_names variables (labels_names (tm_keys t))) as [|nm ns] eqn:En; [contradiction|].
      rewrite nub_In in He. apply in_map_iff in He as (k & <- & Hkin).
      rewrite new_key_length by (apply wf_rows_length; assumption).
      unfold new_key_names. rewrite En. reflexivity.
  Qed.

  Lemma replace_apart m tr t' r : ap None m whatever -> runs (p_replace t m) tr (t', r) -> apart_moves tr.
  Proof.
    intros Hm H. unfold p_replace in H. apply runs_bindp in H as (tr1 & x & tr2 & H1 & H2 & ->).
    destruct (Hm _ _ H1) as [Hg _]. apply wgood_apart. rewrite wgood_app. split; [exact Hg|].
    destruct x as [[nk nb]|e|e|e].
    - apply runs_bindp in H2 as (tr3 & u & tr4 & H3 & H4 & ->). apply runs_ret_inv in H4 as [-> _]. rewrite app_nil_r. eapply drop_wgood; exact H3.
    - apply runs_ret_inv in H2 as [-> _]. exact I.
    - apply runs_ret_inv in H2 as [-> _]. exact I.
    - apply runs_ret_inv in H2 as [-> _]. exact I.
  Qed.

  Lemma samples_apart sort tr t' r : runs (p_keys_to_samples p t keys sort) tr (t', r) -> apart_moves tr.
  Proof.
    intros H. eapply replace_apart; [|exact H]. unfold p_keys_to_samples_compute.
    apply ap_pure. intros count _. destruct (0 <? count); [apply ap_ret; discriminate|]. cbv zeta.
    apply ap_pure. intros [nk pos] Hrem. eapply ap_or_drop; [|intros; apply ap_ret; intros; exact I].
    apply ap_merged_blocks; [exact Hrem|]. intros L kbs Hkbs. destruct kbs as [|[k0 b0] others].
    - apply ap_ret. discriminate.
    - eapply ap_merge_samples; [apply apart_wf; exact Hkbs|apply apart_keys; exact Hkbs|intros k b; apply apart_length; exact Hkbs|].
      intros E. rewrite E. clear. induction (labels_names (tm_keys t)) as [|x l IH]; [reflexivity|exact IH].
  Qed.

  Lemma properties_apart sort tr t' r : wf_labels keys -> runs (p_keys_to_properties p t keys sort) tr (t', r) -> apart_moves tr.
  Proof.
    intros Hkeys H. eapply replace_apart; [|exact H]. unfold p_keys_to_properties_compute. cbv zeta.
    apply ap_pure. intros [nk pos] Hrem. apply ap_pure. intros count Hcount.
    eapply ap_or_drop; [|intros; apply ap_ret; intros; exact I].
    destruct (remove_variables_ok _ _ _ _ (proj1 Ht) Hrem) as (Hv & _).
    assert (Hlen : length (filter (is_moved (labels_names keys)) (labels_names (tm_keys t))) = length (labels_names keys)).
    { apply moved_names_length; [apply Ht|apply (wf_labels_good_names _ Hkeys)|exact Hv]. }
    apply ap_merged_blocks; [exact Hrem|]. intros L kbs Hkbs. destruct kbs as [|[k0 b0] others].
    - apply ap_ret. discriminate.
    - eapply ap_merge_properties; [apply apart_wf; exact Hkbs|apply apart_keys; exact Hkbs|intros k b; apply apart_length; exact Hkbs|].
      destruct (count =? 0) eqn:E0; [exact I|]. split; [|symmetry; exact Hlen]. split; [exact Hkeys|].
      intros E. unfold labels_count in Hcount. destruct keys as [ns vs ps]. cbn in *. subst. cbn in Hcount. discriminate Hcount.
  Qed.
End Tensor.
