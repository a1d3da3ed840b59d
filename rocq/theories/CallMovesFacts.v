(* Lemmas about SpecCallMoves.v *)
From Verif Require Import Base BaseFacts LayoutFacts Labels Array Block Tensor Spec SpecTensor LabelsFacts ArrayFacts BlockFacts TensorFacts KeysFacts
  MergeFacts GroupFacts BlocksFacts MergePropertiesFacts MovedFacts DefinedFacts CompleteFacts
  MoveWith MoveWithFacts Callbacks SpecCallbacks CallbacksStore CallbacksFacts CallbacksOwnFacts CallbacksStoreFacts SpecCallMoves.
Local Open Scope string_scope.
Local Open Scope list_scope.
Local Open Scope nat_scope.

(** * The last array which was made *)

Section Moves.
  Context (arrays : list nat) (shape : nat -> list nat).

  Definition latest := option (nat * list nat).

  Definition step (L : latest) (e : call * answer) : latest :=
    match fst e with
    | QCreate a sh => if works (snd e) then Some (an_new (snd e), sh) else L
    | QCopy _ => None
    | QDestroy a => match L with Some (o, _) => if a =? o then None else L | None => None end
    | _ => L
    end.

  Definition good_step (L : latest) (e : call * answer) : Prop :=
    match fst e with
    | QCreate a _ => In a arrays
    | QMove o i samples start stop =>
        In i arrays /\ exists output, L = Some (o, output) /\ right_move (shape i) output samples start stop
    | _ => True
    end.

  Fixpoint good (L : latest) (tr : trace) : Prop :=
    match tr with
    | [] => True
    | e :: tr => good_step L e /\ good (step L e) tr
    end.

  Definition last_made (L : latest) (tr : trace) : latest := fold_left step tr L.

  Lemma good_app L tr1 tr2 : good L (tr1 ++ tr2) <-> good L tr1 /\ good (last_made L tr1) tr2.
  Proof.
    revert L. induction tr1 as [|e tr1 IH]; intros L; cbn [app good]; [unfold last_made; cbn; tauto|].
    rewrite IH. unfold last_made. cbn [fold_left]. tauto.
  Qed.

  Definition known (before : trace) (L : latest) : Prop :=
    match L with None => True | Some (o, output) => exists a, In a arrays /\ made_by before o a output end.

  Lemma known_step before L e : known before L -> good_step L e -> known (before ++ [e]) (step L e).
  Proof.
    destruct e as [c an]. intros Hk Hg.
    assert (Hkeep : forall o output, L = Some (o, output) -> created c an <> Some o -> c <> QDestroy o -> known (before ++ [(c, an)]) L).
    { intros o output -> Hc Hd. cbn in Hk. destruct Hk as (a & Ha & b1 & an1 & b2 & -> & Hw & Hn & Hf). exists a. split; [exact Ha|].
      exists b1, an1, (b2 ++ [(c, an)]). rewrite <- app_assoc. split; [reflexivity|]. split; [exact Hw|]. split; [exact Hn|].
      apply Forall_app. split; [exact Hf|]. constructor; [split; assumption|constructor]. }
    assert (Hsimple : created c an = None -> (forall a, c <> QDestroy a) -> known (before ++ [(c, an)]) L).
    { intros Hc Hd. destruct L as [[o output]|]; [|exact I]. eapply Hkeep; [reflexivity|rewrite Hc; discriminate|apply Hd]. }
    unfold step. cbn [fst snd]. destruct c; try (apply Hsimple; [reflexivity|discriminate]).
    - destruct (works an) eqn:Ew; [|apply Hsimple; [cbn; rewrite Ew; reflexivity|discriminate]].
      cbn in Hg. exists a. split; [exact Hg|]. exists before, an, []. repeat split; auto.
    - exact I.
    - destruct L as [[o output]|]; [|exact I]. destruct (Nat.eqb_spec a o) as [->|Hne]; [exact I|].
      eapply Hkeep; [reflexivity|discriminate|congruence].
  Qed.

  Lemma good_known tr : forall before L, known before L -> good L tr ->
    forall mid o i samples start stop an after, tr = mid ++ (QMove o i samples start stop, an) :: after ->
    In i arrays /\ exists a output, In a arrays /\ made_by (before ++ mid) o a output /\ right_move (shape i) output samples start stop.
  Proof.
    induction tr as [|e tr IH]; intros before L Hk Hg mid o i samples start stop an after E; [destruct mid; discriminate|].
    cbn [good] in Hg. destruct Hg as [Hs Hg]. destruct mid as [|e' mid]; inversion E; subst.
    - cbn in Hs. destruct Hs as (Hi & output & -> & Hr). split; [exact Hi|]. cbn in Hk. destruct Hk as (a & Ha & Hm).
      exists a, output. rewrite app_nil_r. auto.
    - replace (before ++ e' :: mid) with ((before ++ [e']) ++ mid) by (rewrite <- app_assoc; reflexivity).
      eapply IH; [apply known_step; eassumption|exact Hg|reflexivity].
  Qed.

  Lemma good_good_moves tr : good None tr -> good_moves arrays shape tr.
  Proof. intros H before o i samples start stop an after E. apply (good_known tr [] None I H before o i samples start stop an after E). Qed.

  (** * Programs *)

  Definition mv {X} (L : latest) (m : prog (outcome X)) (R : latest -> X -> Prop) : Prop :=
    forall tr r, runs m tr r -> honest arrays shape tr -> good L tr /\ forall x, r = Ok x -> R (last_made L tr) x.

  Lemma honest_app tr1 tr2 : honest arrays shape (tr1 ++ tr2) -> honest arrays shape tr1 /\ honest arrays shape tr2.
  Proof. apply Forall_app. Qed.

  Lemma drop_good l : forall L tr u, runs (drop_arrays l) tr u -> good L tr.
  Proof.
    induction l as [|a l IH]; intros L tr u H; cbn [drop_arrays] in H.
    - apply runs_ret_inv in H as [-> _]. exact I.
    - apply runs_ask_inv in H as (an & tr' & -> & H). cbn [good]. split; [exact I|eapply IH; exact H].
  Qed.

  Lemma then_fail_good {X} owned (f : outcome X) L tr r : runs (then_fail owned f) tr r -> good L tr /\ r = f.
  Proof.
    intros H. apply runs_bindp in H as (tr1 & u & tr2 & H1 & H2 & ->). apply runs_ret_inv in H2 as [-> ->].
    rewrite app_nil_r. split; [eapply drop_good; exact H1|reflexivity].
  Qed.

  Lemma mv_ret {X} L (r : outcome X) (R : latest -> X -> Prop) : (forall x, r = Ok x -> R L x) -> mv L (Ret r) R.
  Proof. intros H tr r' Hr _. apply runs_ret_inv in Hr as [-> ->]. split; [exact I|exact H]. Qed.

  Lemma mv_or_drop {X Y} L owned (m : prog (outcome X)) (k : X -> prog (outcome Y)) (R : latest -> X -> Prop) (Q : latest -> Y -> Prop) :
    mv L m R -> (forall L' x, R L' x -> mv L' (k x) Q) -> mv L (or_drop owned m k) Q.
  Proof.
    intros Hm Hk tr r H Hh. unfold or_drop in H. apply runs_bindp in H as (tr1 & x & tr2 & H1 & H2 & ->).
    apply honest_app in Hh as [Hh1 Hh2]. destruct (Hm _ _ H1 Hh1) as [Hg Hx]. rewrite good_app. destruct x as [x|e|e|e].
    - destruct (Hk _ _ (Hx x eq_refl) _ _ H2 Hh2) as [Hg2 Hq]. split; [auto|]. intros y Hy. unfold last_made. rewrite fold_left_app. apply Hq, Hy.
    - destruct (then_fail_good _ _ (last_made L tr1) _ _ H2) as [Hg2 ->]. split; [auto|discriminate].
    - destruct (then_fail_good _ _ (last_made L tr1) _ _ H2) as [Hg2 ->]. split; [auto|discriminate].
    - destruct (then_fail_good _ _ (last_made L tr1) _ _ H2) as [Hg2 ->]. split; [auto|discriminate].
  Qed.

  Lemma mv_pure {X Y} L owned (o : outcome X) (k : X -> prog (outcome Y)) (Q : latest -> Y -> Prop) :
    (forall x, o = Ok x -> mv L (k x) Q) -> mv L (or_drop owned (Ret o) k) Q.
  Proof.
    intros H. eapply (mv_or_drop _ _ _ _ (fun L' x => L' = L /\ o = Ok x)).
    - apply mv_ret. auto.
    - intros L' x [-> E]. apply H, E.
  Qed.

  Lemma mv_weaken {X} L (m : prog (outcome X)) (R Q : latest -> X -> Prop) : (forall L' x, R L' x -> Q L' x) -> mv L m R -> mv L m Q.
  Proof. intros H Hm tr r Hr Hh. destruct (Hm _ _ Hr Hh) as [Hg Hx]. split; [exact Hg|]. intros x E. apply H, Hx, E. Qed.

  Lemma mv_ask {X} L c op (value : answer -> X) (R : latest -> X -> Prop) :
    (forall an, good_step L (c, an)) ->
    (forall an, works an = true -> (forall a, c = QShape a -> In a arrays -> an_shape an = shape a) -> R (step L (c, an)) (value an)) ->
    mv L (ask c op value) R.
  Proof.
    intros Hs Hr tr r H Hh. unfold ask in H. apply runs_ask_inv in H as (an & tr' & -> & H). apply runs_ret_inv in H as [-> ->].
    unfold honest in Hh. apply Forall_inv in Hh. split; [split; [apply Hs|exact I]|]. intros x E. unfold last_made. cbn [fold_left].
    destruct (an_null an) eqn:En; [discriminate|]. destruct (an_status an =? 0)%Z eqn:Ez; [|unfold callback_error in E; destruct op; discriminate].
    inversion E; subst x. assert (Hw : works an = true) by (unfold works; rewrite En, Ez; reflexivity).
    apply Hr; [exact Hw|]. intros a Ea Ha. exact (Hh a Ea Ha Hw).
  Qed.

  Lemma mv_shape L a : In a arrays -> mv L (p_shape a) (fun L' x => L' = L /\ x = shape a).
  Proof. intros Ha. apply mv_ask; [intros; exact I|]. intros an _ H. split; [reflexivity|apply H; auto]. Qed.

  Lemma mv_some_shape L a : mv L (p_shape a) (fun L' x => True).
  Proof. apply mv_ask; intros; exact I. Qed.

  Lemma mv_origin L a : mv L (p_origin a) (fun L' x => True).
  Proof. apply mv_ask; intros; exact I. Qed.

  Lemma mv_create L a sh : In a arrays -> mv L (p_create a sh) (fun L' x => L' = Some (x, sh)).
  Proof. intros Ha. apply mv_ask; [intros; exact Ha|]. intros an Hw _. unfold step. cbn [fst snd]. rewrite Hw. reflexivity. Qed.

  Lemma mv_move o output i samples start stop : In i arrays -> right_move (shape i) output samples start stop ->
    mv (Some (o, output)) (p_move o i samples start stop) (fun L' _ => L' = Some (o, output)).
  Proof. intros Hi Hr. apply mv_ask; [intros an; split; [exact Hi|exists output; auto]|]. intros an _ _. reflexivity. Qed.

  Lemma mv_each {X} L (f : X -> prog (outcome unit)) l : (forall x, In x l -> mv L (f x) (fun L' _ => L' = L)) -> mv L (each f l) (fun L' _ => L' = L).
  Proof.
    induction l as [|x l IH]; intros H; cbn [each]; [apply mv_ret; auto|].
    eapply mv_or_drop; [apply H; left; reflexivity|]. cbv beta. intros L' _ ->. apply IH. intros y Hy. apply H. right. exact Hy.
  Qed.

  Lemma mv_expect {X} L message (m : prog (outcome X)) (R : latest -> X -> Prop) : mv L m R -> mv L (expectp message m) R.
  Proof.
    intros Hm tr r H Hh. unfold expectp in H. apply runs_bindp in H as (tr1 & x & tr2 & H1 & H2 & ->). apply runs_ret_inv in H2 as [-> ->].
    rewrite app_nil_r in *. destruct (Hm _ _ H1 Hh) as [Hg Hx]. split; [exact Hg|]. intros y E. apply Hx. destruct x; cbn in E; try discriminate. exact E.
  Qed.

  Definition anything {X} (L : latest) (x : X) : Prop := True.

  Lemma mv_check L context a samples components properties : mv L (p_check context a samples components properties) anything.
  Proof. unfold p_check. eapply mv_or_drop; [apply mv_some_shape|]. intros L' sh _. apply mv_ret. intros; exact I. Qed.

  Lemma mv_block_new L a samples components properties : mv L (p_block_new a samples components properties) anything.
  Proof.
    unfold p_block_new. eapply mv_or_drop; [apply mv_check|]. intros L' [] _. apply mv_pure. intros _ _. apply mv_ret. intros; exact I.
  Qed.

  Lemma mv_check_gradient L b parameter a samples components : mv L (p_check_gradient b parameter a samples components) anything.
  Proof.
    unfold p_check_gradient. destruct (hm_contains _ _ _); [apply mv_ret; discriminate|].
    eapply (mv_or_drop _ _ _ _ anything).
    - unfold p_same_origin. eapply mv_or_drop; [apply mv_origin|]. intros L1 o1 _. eapply mv_or_drop; [apply mv_origin|]. intros L2 o2 _.
      destruct (negb _); [|apply mv_ret; intros; exact I]. eapply mv_or_drop; [apply mv_origin|]. intros L3 _ _.
      eapply mv_or_drop; [apply mv_origin|]. intros L4 _ _. apply mv_ret. discriminate.
    - intros L1 _ _. destruct (String.eqb _ _); [apply mv_ret; discriminate|]. destruct (_ || _)%bool; [apply mv_ret; discriminate|].
      apply mv_pure. intros _ _. cbv zeta. destruct (_ <? _); [apply mv_ret; discriminate|]. apply mv_pure. intros _ _. apply mv_check.
  Qed.

  Lemma mv_add_merged L b parameter a samples components : mv L (p_add_merged_gradient b parameter a samples components) anything.
  Proof.
    intros tr r H Hh. unfold p_add_merged_gradient in H. apply runs_bindp in H as (tr1 & [b' r'] & tr2 & H1 & H2 & ->).
    apply honest_app in Hh as [Hh1 Hh2]. split; [|intros; exact I]. rewrite good_app. split.
    - unfold p_add_gradient in H1. apply runs_bindp in H1 as (tr3 & r3 & tr4 & H3 & H4 & ->). apply honest_app in Hh1 as [Hh3 Hh4].
      destruct (mv_check_gradient L _ _ _ _ _ _ _ H3 Hh3) as [Hg _]. rewrite good_app. split; [exact Hg|].
      destruct r3 as [[]|e|e|e].
      + cbv zeta in H4. destruct (cstring_new parameter); apply runs_ret_inv in H4 as [-> _]; exact I.
      + apply runs_bindp in H4 as (tr5 & u & tr6 & H5 & H6 & ->). apply runs_ret_inv in H6 as [-> _]. rewrite app_nil_r. eapply drop_good; exact H5.
      + apply runs_bindp in H4 as (tr5 & u & tr6 & H5 & H6 & ->). apply runs_ret_inv in H6 as [-> _]. rewrite app_nil_r. eapply drop_good; exact H5.
      + apply runs_bindp in H4 as (tr5 & u & tr6 & H5 & H6 & ->). apply runs_ret_inv in H6 as [-> _]. rewrite app_nil_r. eapply drop_good; exact H5.
    - assert (Hm : mv (last_made L tr1) (let! _ := Ret (expect "created invalid gradients" r') dropping block_arrays b' in Ret (Ok b')) anything).
      { apply mv_pure. intros. apply mv_ret. intros; exact I. }
      apply (Hm _ _ H2 Hh2).
  Qed.

  Lemma mv_each_gradient {X} (f : TensorBlock -> X -> prog (outcome TensorBlock)) l : (forall L b x, In x l -> mv L (f b x) anything) ->
    forall L b, mv L (each_gradient f l b) anything.
  Proof.
    induction l as [|x l IH]; intros H L b; cbn [each_gradient]; [apply mv_ret; intros; exact I|].
    eapply mv_or_drop; [apply H; left; reflexivity|]. intros L' b' _. apply IH. intros L1 b1 y Hy. apply H. right. exact Hy.
  Qed.

  Lemma mv_each_block {X} (f : X -> prog (outcome TensorBlock)) l : (forall L x, In x l -> mv L (f x) anything) ->
    forall L done, mv L (each_block f done l) anything.
  Proof.
    induction l as [|x l IH]; intros H L done; cbn [each_block]; [apply mv_ret; intros; exact I|].
    eapply mv_or_drop; [apply H; left; reflexivity|]. intros L' b' _. apply IH. intros L1 y Hy. apply H. right. exact Hy.
  Qed.
End Moves.

(** * Mappings *)

Lemma mapping_right merged sources ms : mapping_for merged sources ms -> NoDup sources ->
  map sm_input ms = seq 0 (length sources) /\ Forall (fun m => sm_output m < length merged) ms /\ NoDup (map sm_output ms).
Proof.
  intros [Hlen Hm] Hnd. split; [|split].
  - apply (nth_ext _ _ 0 0); [rewrite map_length, seq_length; exact Hlen|]. intros i Hi. rewrite map_length in Hi.
    rewrite seq_nth by lia. cbn [plus]. destruct (nth_error ms i) as [m|] eqn:E; [|apply nth_error_None in E; lia].
    destruct (Hm i m E) as [H _]. apply (map_nth_error sm_input) in E. rewrite (nth_error_nth _ _ 0 E). exact H.
  - apply Forall_forall. intros m Hin. apply In_nth_error in Hin as [i Hi]. destruct (Hm i m Hi) as [_ (r & _ & H)].
    apply nth_error_Some. congruence.
  - apply NoDup_nth_error. intros i j Hi E. rewrite map_length in Hi. rewrite !nth_error_map in E.
    destruct (nth_error ms i) as [m|] eqn:Ei; [|apply nth_error_None in Ei; lia].
    destruct (nth_error ms j) as [m'|] eqn:Ej; [|discriminate]. cbn in E. inversion E as [E'].
    destruct (Hm i m Ei) as [_ (r & H1 & H2)]. destruct (Hm j m' Ej) as [_ (r' & H3 & H4)].
    rewrite E' in H2. assert (r' = r) by congruence. subst r'. rewrite NoDup_nth_error in Hnd. apply Hnd; [|congruence].
    apply nth_error_Some. congruence.
Qed.

Lemma extend_NoDup add key l : NoDup l -> NoDup (map (extend add key) l).
Proof.
  intros H. apply FinFun.Injective_map_NoDup; [|exact H]. intros a b E. unfold extend in E. destruct add; [|exact E].
  apply app_inv_tail in E. exact E.
Qed.

(* the samples of gradients go to different samples *)
Lemma translated_NoDup p ms l : NoDup (map sm_output ms) -> NoDup l -> forall l', mapM (translate_gradient_sample p ms) l = Ok l' -> NoDup l'.
Proof.
  intros Hms Hl l' H. rewrite mapM_ok in H. apply NoDup_nth_error. intros i j Hi E.
  destruct (nth_error l' i) as [r|] eqn:Ei; [|apply nth_error_None in Ei; lia]. symmetry in E.
  destruct (Forall2_nth_error_r _ _ _ _ _ H Ei) as (r1 & H1 & T1). destruct (Forall2_nth_error_r _ _ _ _ _ H E) as (r2 & H2 & T2).
  apply translate_ok in T1 as (i1 & rest1 & m1 & -> & Hm1 & E1). apply translate_ok in T2 as (i2 & rest2 & m2 & -> & Hm2 & E2).
  rewrite E1 in E2. inversion E2 as [[Eo Er]]. apply Nat2Z.inj in Eo.
  assert (i1 = i2).
  { rewrite NoDup_nth_error in Hms. apply Hms; [rewrite map_length; apply nth_error_Some; congruence|].
    rewrite !nth_error_map, Hm1, Hm2. cbn. congruence. }
  subst i2 rest2. rewrite NoDup_nth_error in Hl. apply Hl; [apply nth_error_Some; congruence|congruence].
Qed.

Section Merge.
  Context (arrays : list nat) (s : store).
  Let shape a := shape_of (s_array s a).

  Definition blocks_in (kbs : list KeyAndBlock) : Prop := forall k b, In (k, b) kbs -> incl (block_arrays b) arrays.

  Lemma see_in kbs k b : In (k, b) kbs -> In (k, see_block s b) (map (see_kb s) kbs).
  Proof. intros H. apply (in_map (see_kb s)) in H. exact H. Qed.

  Lemma values_array kbs k b : blocks_in kbs -> In (k, b) kbs -> In (data_of (tb_values b)) arrays.
  Proof. intros H Hin. apply (H k b Hin). left. reflexivity. Qed.

  Lemma gradient_in kbs k b q g : blocks_in kbs -> In (k, b) kbs -> In (q, g) (tb_gradients b) -> In (data_of g) arrays.
  Proof. intros H Hin Hg. apply (H k b Hin). right. apply (in_map (fun pg => data_of (snd pg)) _ _ Hg). Qed.

  Lemma see_gradient_in b q g : In (q, g) (tb_gradients b) -> In (q, see_basic s g) (tb_gradients (see_block s b)).
  Proof. intros H. apply (in_map (fun pg => (fst pg, see_basic s (snd pg)))) in H. exact H. Qed.

  (* the move of the gradient of one block *)
  Lemma mv_move_gradient p q new_components new_samples b ms start stop o n P :
    wf_block (see_block s b) -> (forall q g, In (q, g) (tb_gradients b) -> In (data_of g) arrays) ->
    Forall axis_labels new_components ->
    (p = Debug \/ forall g, In (q, g) (tb_gradients b) -> Forall2 same_labels (bb_components g) new_components) ->
    wf_labels new_samples -> n = length (rows new_samples) ->
    NoDup (map sm_output ms) ->
    stop = start + length (rows (bb_properties (tb_values b))) -> stop <= P ->
    mv arrays shape (Some (o, n :: counts new_components ++ [P]))
       (p_move_gradient p q new_components new_samples b ms start stop o)
       (fun L' _ => L' = Some (o, n :: counts new_components ++ [P])).
  Proof.
    intros Hw Hin Hax Hp Hns -> Hms Hstop HP. unfold p_move_gradient. apply mv_pure. intros g Eg. apply expect_some_ok in Eg.
    apply gradient_In in Eg. pose proof (see_gradient_in _ _ _ Eg) as Eg'. destruct (wf_block_gradient _ _ _ Hw Eg') as (Hwg & (_ & _ & Hgp & _) & _).
    destruct (wf_basic_axes _ Hwg) as (Hgs & Hgc & _). cbn [see_basic bb_components bb_samples bb_properties] in Hgs, Hgc, Hgp.
    apply mv_pure. intros u Ed.
    assert (Hcs : Forall2 same_labels (bb_components g) new_components).
    { destruct Hp as [->|Hp]; [|exact (Hp g Eg)]. cbn in Ed. destruct (labels_list_eqb (bb_components g) new_components) eqn:El; [|discriminate].
      apply (labels_list_eqb_same _ _ (axes_wf _ Hgc) (axes_wf _ Hax)). exact El. }
    apply mv_pure. intros rs Hrs. apply (labels_iter_ok _ _ (axis_wf _ Hgs)) in Hrs as [_ ->].
    apply mv_pure. intros moved Hmoved. destruct (gradient_samples_to_move_ok _ _ _ _ _ _ Hns Hmoved) as (tr & Htr & Hlen & Hm).
    assert (Hlt : length tr = length (rows (bb_samples g))) by (symmetry; rewrite mapM_ok in Htr; exact (Forall2_len _ _ _ Htr)).
    destruct (mapping_right (rows new_samples) tr moved) as (H1 & H2 & H3).
    { split; [exact Hlen|]. intros i m Hi. apply Hm in Hi. exact Hi. }
    { eapply translated_NoDup; [exact Hms| |exact Htr]. apply wf_rows_NoDup, axis_wf, Hgs. }
    apply mv_move; [eapply Hin; exact Eg|]. split; [|exact H3]. unfold shape.
    change (s_array s (data_of g)) with (bb_data (see_basic s g)). rewrite (wf_basic_shape _ Hwg).
    cbn [see_basic bb_components bb_samples bb_properties]. do 5 eexists. split; [reflexivity|].
    split; [unfold counts; rewrite (Forall2_same_counts _ _ Hcs); reflexivity|].
    split; [rewrite Hgp; exact Hstop|]. split; [exact HP|]. split; [rewrite <- Hlt; exact H1|exact H2].
  Qed.

  Section Group.
    Context (p : profile) (k0 : list Z) (b0 : TensorBlock) (others : list KeyAndBlock).
    Let kbs := (k0, b0) :: others.
    Context (Hin : blocks_in kbs) (Hwf : Forall (fun kb : KeyAndBlock => wf_block (snd kb)) (map (see_kb s) kbs)).
    Context (Hagree : p = Debug \/ forall k b, In (k, b) kbs -> agreeing_gradients b b0).

    Lemma group_wf k b : In (k, b) kbs -> wf_block (see_block s b).
    Proof. intros H. rewrite Forall_forall in Hwf. exact (Hwf _ (see_in _ _ _ H)). Qed.

    Lemma group_mappings names sort merged maps : names <> [] -> merge_samples kbs names sort = Ok (merged, maps) ->
      is_labels merged names (rows merged) /\ length maps = length kbs /\
      forall k b ms, In ((k, b), ms) (combine kbs maps) -> In (k, b) kbs /\
        map sm_input ms = seq 0 (length (rows (bb_samples (tb_values b)))) /\ Forall (fun m => sm_output m < length (rows merged)) ms
        /\ NoDup (map sm_output ms).
    Proof.
      intros Hne H. rewrite <- (see_merge_samples s) in H.
      apply (BlocksFacts.merge_samples_ok k0 (see_block s b0) (map (see_kb s) others)) in H; [|exact Hwf|exact Hne].
      destruct H as [Hl Hf]. split; [rewrite (is_labels_rows _ _ _ Hl); exact Hl|].
      change ((k0, see_block s b0) :: map (see_kb s) others) with (map (see_kb s) kbs) in Hf.
      split; [apply Forall2_len in Hf; rewrite map_length in Hf; symmetry; exact Hf|].
      intros k b ms Hm. pose proof (in_combine_l _ _ _ _ Hm) as Hkb. split; [exact Hkb|].
      assert (Hm' : In (see_kb s (k, b), ms) (combine (map (see_kb s) kbs) maps)).
      { rewrite combine_see. apply (in_map (fun x => (see_kb s (fst x), snd x))) in Hm. exact Hm. }
      apply (Forall2_combine_In _ _ _ _ _ Hf) in Hm'.
      destruct (wf_basic_axes _ (proj1 (group_wf k b Hkb))) as (Hs & _ & _).
      apply mapping_right in Hm'; [|apply extend_NoDup, wf_rows_NoDup, axis_wf; exact Hs].
      rewrite map_length in Hm'. exact Hm'.
    Qed.

    Lemma group_values_shape k b : In (k, b) kbs -> shape (data_of (tb_values b))
      = length (rows (bb_samples (tb_values b))) :: counts (bb_components (tb_values b)) ++ [length (rows (bb_properties (tb_values b)))].
    Proof. intros H. exact (wf_basic_shape _ (proj1 (group_wf k b H))). Qed.

    Lemma group_gradient_shape k b q g : In (k, b) kbs -> In (q, g) (tb_gradients b) -> shape (data_of g)
      = length (rows (bb_samples g)) :: counts (bb_components g) ++ [length (rows (bb_properties (tb_values b)))]
      /\ Forall axis_labels (bb_components g).
    Proof.
      intros H Hg. destruct (wf_block_gradient _ _ _ (group_wf k b H) (see_gradient_in _ _ _ Hg)) as (Hwg & (_ & _ & Hgp & _) & _).
      split; [|apply (wf_basic_axes _ Hwg)]. etransitivity; [exact (wf_basic_shape _ Hwg)|]. rewrite Hgp. reflexivity.
    Qed.

    Lemma gradient_labels q maps new_samples n : length maps = length kbs ->
      merge_gradient_samples p kbs q maps = Ok new_samples -> labels_count new_samples = Ok n ->
      wf_labels new_samples /\ n = length (rows new_samples).
    Proof.
      intros Hlen H Hn. rewrite <- (see_merge_gradient_samples s) in H.
      apply merge_gradient_samples_ok in H as (gts & _ & Hw & _); [|exact Hwf|rewrite map_length; exact Hlen].
      split; [exact Hw|]. apply (labels_count_ok _ _ Hw) in Hn. tauto.
    Qed.

    Lemma group_components q g0 k b : In (k, b) kbs -> In (q, g0) (tb_gradients b0) ->
      p = Debug \/ forall g, In (q, g) (tb_gradients b) -> Forall2 same_labels (bb_components g) (bb_components g0).
    Proof. intros H H0. destruct Hagree as [->|Ha]; [left; reflexivity|right]. intros g Hg. exact (Ha k b H q g g0 Hg H0). Qed.

    Lemma mv_merge_samples L extracted sort : mv arrays shape L (p_merge_blocks_along_samples p kbs extracted sort) anything.
    Proof.
      unfold p_merge_blocks_along_samples. unfold kbs at 1. cbv zeta.
      assert (Hv0 : wf_basic (see_basic s (tb_values b0))) by exact (proj1 (group_wf k0 b0 (or_introl eq_refl))).
      destruct (wf_basic_axes _ Hv0) as (Hs0 & Hc0 & Hp0). cbn [see_basic bb_samples bb_components bb_properties] in Hs0, Hc0, Hp0.
      assert (Ha0 : In (data_of (tb_values b0)) arrays) by (eapply values_array; [exact Hin|left; reflexivity]).
      apply mv_pure. intros [] Hchk. rewrite <- (see_check_samples s) in Hchk. apply (check_same_samples_ok _ _ Hv0 Hwf) in Hchk.
      rewrite Forall_forall in Hchk. apply mv_pure. intros [merged maps] Hms.
      apply group_mappings in Hms as (Hl & Hlen & Hms); [|intros E; apply app_eq_nil in E as [E _]; exact (proj2 Hs0 E)].
      eapply mv_or_drop; [apply mv_shape; exact Ha0|]. cbv beta. intros L1 sh [-> ->]. rewrite (group_values_shape k0 b0 (or_introl eq_refl)).
      apply mv_pure. intros n_samples Hn. apply mv_pure. intros new_shape Hns. apply set_slice_first in Hns. subst new_shape.
      assert (Hn' : n_samples = length (rows merged)).
      { rewrite (is_labels_count _ _ _ Hl) in Hn; [congruence|]. intros E. apply app_eq_nil in E as [E _]. exact (proj2 Hs0 E). }
      subst n_samples.
      eapply mv_or_drop; [apply mv_create; exact Ha0|]. cbv beta. intros L1 o ->.
      apply mv_pure. intros P HP. rewrite (labels_count_axis _ Hp0) in HP. inversion HP; subst P. clear HP.
      eapply mv_or_drop.
      { apply mv_each. intros [[k b] ms] Hkm. destruct (Hms k b ms Hkm) as (Hkb & H1 & H2 & H3).
        destruct (Hchk _ (see_in _ _ _ Hkb)) as [Hcc [_ Hpp]]. cbn in Hcc, Hpp.
        apply mv_move; [eapply values_array; [exact Hin|exact Hkb]|]. split; [|exact H3]. rewrite (group_values_shape k b Hkb).
        do 5 eexists. split; [reflexivity|]. split; [unfold counts; rewrite (Forall2_same_counts _ _ Hcc); reflexivity|].
        split; [rewrite Hpp; reflexivity|]. split; [apply Nat.le_refl|]. auto. }
      intros L1 u _. eapply mv_or_drop; [apply mv_expect; apply mv_block_new|]. intros L2 nb _.
      apply mv_each_gradient. intros L3 nb' [q g0] Hg0. apply mv_pure. intros new_samples Hnew.
      destruct (group_gradient_shape k0 b0 q g0 (or_introl eq_refl) Hg0) as [Hgs Hgc].
      eapply mv_or_drop; [apply mv_shape; eapply gradient_in; [exact Hin|left; reflexivity|exact Hg0]|]. cbv beta. intros L4 sh [-> ->]. rewrite Hgs.
      apply mv_pure. intros n_grad Hng. apply mv_pure. intros gshape Hns. apply set_slice_first in Hns. subst gshape.
      destruct (gradient_labels q maps new_samples n_grad Hlen Hnew Hng) as [Hwn En].
      eapply mv_or_drop; [apply mv_create; exact Ha0|]. cbv beta. intros L4 og ->. cbv zeta.
      eapply mv_or_drop; [|intros; apply mv_add_merged].
      apply mv_each. intros [[k b] ms] Hkm. destruct (Hms k b ms Hkm) as (Hkb & H1 & H2 & H3).
      destruct (Hchk _ (see_in _ _ _ Hkb)) as [_ [_ Hpp]]. cbn in Hpp.
      apply mv_move_gradient; try assumption.
      - exact (group_wf k b Hkb).
      - intros q' g'. eapply gradient_in; [exact Hin|exact Hkb].
      - eapply group_components; eassumption.
      - rewrite Hpp. reflexivity.
      - apply Nat.le_refl.
    Qed.

    Lemma mv_merge_properties L (keys : option Labels) extracted sort n :
      NoDup (map fst kbs) -> (forall k b, In (k, b) kbs -> length k = n) ->
      match keys with Some l => axis_labels l /\ length (labels_names l) = n | None => True end ->
      mv arrays shape L (p_merge_blocks_along_properties p kbs keys extracted sort) anything.
    Proof.
      intros Hnd Hklen Hkeys.
      unfold p_merge_blocks_along_properties. unfold kbs at 1. cbv zeta.
      assert (Hv0 : wf_basic (see_basic s (tb_values b0))) by exact (proj1 (group_wf k0 b0 (or_introl eq_refl))).
      destruct (wf_basic_axes _ Hv0) as (Hs0 & Hc0 & Hp0). cbn [see_basic bb_samples bb_components bb_properties] in Hs0, Hc0, Hp0.
      assert (Ha0 : In (data_of (tb_values b0)) arrays) by (eapply values_array; [exact Hin|left; reflexivity]).
      set (seen := map (see_kb s) kbs) in *.
      assert (Hnd' : NoDup (map fst seen)).
      { unfold seen. rewrite map_map. exact Hnd. }
      assert (Hklen' : forall k b, In (k, b) seen -> length k = n).
      { intros k b H. unfold seen in H. apply in_map_iff in H as ([k' b'] & E & H). inversion E; subst. exact (Hklen _ _ H). }
      apply mv_pure. intros [] Hchk. rewrite <- (see_check_properties s) in Hchk. apply (check_same_properties_ok _ _ _ Hv0 Hwf) in Hchk.
      rewrite Forall_forall in Hchk. fold seen in Hchk.
      assert (Hk : match keys with
        | Some l => axis_labels l /\ length (labels_names l) = n /\ (forall k b, In (k, b) seen -> block_properties b = block_properties (see_block s b0))
        | None => True end).
      { destruct keys as [l|]; [|exact I]. split; [apply Hkeys|]. split; [apply Hkeys|]. intros k b H. apply Hchk in H as [_ H]. apply (H eq_refl). }
      apply mv_pure. intros [merged maps] Hms.
      apply group_mappings in Hms as (Hl & Hlen & Hms); [|exact (proj2 Hs0)].
      apply mv_pure. intros nprows Hnp. rewrite <- (see_merged_properties s) in Hnp.
      apply (merged_properties_ok keys k0 (see_block s b0) (map (see_kb s) others) n) in Hnp;
        [|exact Hwf|exact Hnd'|exact Hklen'|destruct keys; [split; apply Hk|exact I]].
      change ((k0, see_block s b0) :: map (see_kb s) others) with seen in Hnp.
      apply mv_pure. intros newp Hbuild.
      assert (Hnewp : wf_labels newp) by (eapply labels_build_wf; exact Hbuild).
      assert (Hnames : extracted ++ labels_names (bb_properties (tb_values b0)) <> []).
      { intros E; apply app_eq_nil in E as [_ E]; apply (proj2 Hp0 E). }
      apply labels_build_is_labels in Hbuild; [|exact Hnames].
      assert (Hnewrows : rows newp = new_properties (option_map rows keys) seen (see_block s b0)) by (rewrite (is_labels_rows _ _ _ Hbuild); exact Hnp).
      assert (Hnewax : axis_labels newp).
      { split; [exact Hnewp|]. rewrite (is_labels_names _ _ _ Hbuild). exact Hnames. }
      apply mv_pure. intros P HP. rewrite (labels_count_axis _ Hnewax) in HP. inversion HP as [EP]. rewrite EP in *. clear HP.
      eapply mv_or_drop; [apply mv_shape; exact Ha0|]. cbv beta. intros L1 sh [-> ->]. rewrite (group_values_shape k0 b0 (or_introl eq_refl)).
      apply mv_pure. intros n_samples Hn. apply mv_pure. intros new_shape Hns. apply set_slice_first in Hns. subst new_shape.
      apply mv_pure. intros new_shape Hns. apply set_slice_last in Hns. subst new_shape.
      assert (Hn' : n_samples = length (rows merged)).
      { rewrite (is_labels_count _ _ _ Hl) in Hn; [congruence|]. exact (proj2 Hs0). }
      subst n_samples.
      eapply mv_or_drop; [apply mv_create; exact Ha0|]. cbv beta. intros L1 o ->.
      apply mv_pure. intros ranges Hranges. rewrite <- (see_property_range s), mapM_ok in Hranges.
      assert (Hrange : forall k b ms start stop, In (((k, b), ms), Some (start, stop)) (combine (combine kbs maps) ranges) ->
         In ((k, b), ms) (combine kbs maps) /\ stop = start + length (rows (bb_properties (tb_values b))) /\ stop <= P).
      { intros k b ms start stop Hx. split; [eapply in_combine_l; exact Hx|].
        apply In_nth_error in Hx as [i Hi]. apply nth_error_combine in Hi as [Hi1 Hi2].
        apply nth_error_combine in Hi1 as [Hi1 _]. apply (map_nth_error (see_kb s)) in Hi1. fold seen in Hi1.
        assert (Hkb : In (k, see_block s b) seen) by (eapply nth_error_In; exact Hi1).
        destruct (Forall2_nth_error_l _ _ _ _ _ Hranges Hi1) as (rg & Hrg & E). rewrite Hi2 in Hrg. inversion Hrg; subst rg.
        destruct (property_range_ok keys k0 (see_block s b0) (map (see_kb s) others) n newp k (see_block s b) (Some (start, stop))) as (Hne & _ & Hrr);
          [exact Hwf|exact Hklen'|exact Hk|exact Hnewp|exact Hnewrows|exact Hkb|exact E|].
        destruct (Hrr _ _ eq_refl) as [E' Hn']. change (block_properties (see_block s b)) with (rows (bb_properties (tb_values b))) in *.
        split; [exact E'|].
        destruct (length (rows (bb_properties (tb_values b)))) as [|m] eqn:El.
        { apply length_zero_iff_nil in El. contradiction. }
        destruct (nth_error (rows (bb_properties (tb_values b))) m) as [r|] eqn:Em; [|apply nth_error_None in Em; lia].
        apply Hn' in Em. assert (start + m < length (rows newp)) by (apply nth_error_Some; congruence). lia. }
      eapply mv_or_drop.
      { apply mv_each. intros [[[k b] ms] [[start stop]|]] Hx; [|apply mv_ret; auto].
        destruct (Hrange _ _ _ _ _ Hx) as (Hkm & Hstop & Hle). destruct (Hms k b ms Hkm) as (Hkb & H1 & H2 & H3).
        destruct (Hchk _ (see_in _ _ _ Hkb)) as [Hcc _]. cbn in Hcc.
        apply mv_move; [eapply values_array; [exact Hin|exact Hkb]|]. split; [|exact H3]. rewrite (group_values_shape k b Hkb).
        do 5 eexists. split; [reflexivity|]. split; [unfold counts; rewrite (Forall2_same_counts _ _ Hcc); reflexivity|].
        split; [exact Hstop|]. split; [exact Hle|]. auto. }
      intros L1 u _. eapply mv_or_drop; [apply mv_expect; apply mv_block_new|]. intros L2 nb _.
      apply mv_each_gradient. intros L3 nb' [q g0] Hg0. apply mv_pure. intros new_samples Hnew.
      destruct (group_gradient_shape k0 b0 q g0 (or_introl eq_refl) Hg0) as [Hgs Hgc].
      eapply mv_or_drop; [apply mv_shape; eapply gradient_in; [exact Hin|left; reflexivity|exact Hg0]|]. cbv beta. intros L4 sh [-> ->]. rewrite Hgs.
      apply mv_pure. intros n_grad Hng. apply mv_pure. intros gshape Hns. apply set_slice_first in Hns. subst gshape.
      apply mv_pure. intros gshape Hns. apply set_slice_last in Hns. subst gshape.
      destruct (gradient_labels q maps new_samples n_grad Hlen Hnew Hng) as [Hwn En].
      eapply mv_or_drop; [apply mv_create; exact Ha0|]. cbv beta. intros L4 og ->. cbv zeta.
      eapply mv_or_drop; [|intros; apply mv_add_merged].
      apply mv_each. intros [[[k b] ms] [[start stop]|]] Hx; [|apply mv_ret; auto].
      destruct (Hrange _ _ _ _ _ Hx) as (Hkm & Hstop & Hle). destruct (Hms k b ms Hkm) as (Hkb & H1 & H2 & H3).
      apply mv_move_gradient; try assumption.
      - exact (group_wf k b Hkb).
      - intros q' g'. eapply gradient_in; [exact Hin|exact Hkb].
      - eapply group_components; eassumption.
    Qed.
  End Group.
End Merge.

(** * Tensor maps *)

Section Tensor.
  Context (s : store) (t : TensorMap) (p : profile) (keys : Labels).
  Context (Ht : wf_tensor (see s t)).
  Context (Hp : p = Debug \/ agreeing_groups (see s t) (labels_names keys)).
  Let shape a := shape_of (s_array s a).
  Let arrays := tensor_arrays t.

  (* what is true for the blocks to merge *)
  Definition merged_group (kbs : list KeyAndBlock) : Prop :=
    blocks_in arrays kbs /\ exists e, map (see_kb s) kbs = group (see s t) (labels_names keys) e.

  Lemma group_wf_all kbs : merged_group kbs -> Forall (fun kb : KeyAndBlock => wf_block (snd kb)) (map (see_kb s) kbs).
  Proof.
    intros [_ [e ->]]. apply Forall_forall. intros [k b] Hin. apply group_blocks in Hin. exact (wf_tensor_block _ b Ht Hin).
  Qed.

  Lemma merged_group_agrees k0 b0 others : merged_group ((k0, b0) :: others) ->
    p = Debug \/ forall k b, In (k, b) ((k0, b0) :: others) -> agreeing_gradients b b0.
  Proof.
    intros [_ [e E]]. cbn [map] in E. symmetry in E. destruct (group_agrees p (see s t) keys Hp e _ _ _ E) as [->|H]; [left; reflexivity|right].
    intros k b Hin q g1 g2 H1 H2. apply (H k (see_block s b) (see_in s ((k0, b0) :: others) k b Hin) q (see_basic s g1) (see_basic s g2));
      apply see_gradient_in; assumption.
  Qed.

  Lemma mv_merged_blocks L new_keys positions merge :
    remove_variables_from_keys (tm_keys t) (labels_names keys) = Ok (new_keys, positions) ->
    (forall L kbs, merged_group kbs -> mv arrays shape L (merge kbs) anything) ->
    mv arrays shape L (p_merged_blocks t new_keys positions merge) anything.
  Proof.
    intros Hrem Hm. pose proof Ht as ([Hk Hn] & _). cbn [see tm_keys] in Hk, Hn.
    destruct (remove_variables_ok _ _ _ _ (conj Hk Hn) Hrem) as (Hv & Hl & Hproj). set (variables := labels_names keys) in *.
    unfold p_merged_blocks. apply mv_pure. intros n Hcount. rewrite (is_labels_count _ _ _ Hl) in Hcount by apply new_key_names_nonempty.
    inversion Hcount; subst n. destruct (Nat.eqb_spec (length (new_keys_rows (tm_keys t) variables)) 1) as [E|E].
    - apply mv_pure. intros kbs Hkbs. eapply mv_or_drop; [apply Hm|intros; apply mv_ret; intros; exact I].
      split; [intros k b; eapply given_in; eapply all_given; exact Hkbs|].
      destruct (new_keys_rows (tm_keys t) variables) as [|e [|e' es]] eqn:Ee; try discriminate. exists e.
      pose proof (see_all_blocks s t positions) as Hs. rewrite Hkbs in Hs. cbn [bind] in Hs.
      rewrite (all_blocks_group (see s t) variables positions e Ht Hproj) in Hs; [inversion Hs; reflexivity|].
      intros key Hkey. cbn [see tm_keys] in *. unfold new_keys_rows in Ee.
      destruct (kept_names variables (labels_names (tm_keys t))) as [|nm ns] eqn:En.
      * inversion Ee. unfold new_key. rewrite En. reflexivity.
      * assert (Hin : In (new_key variables (labels_names (tm_keys t)) key)
                        (nub (map (new_key variables (labels_names (tm_keys t))) (rows (tm_keys t))))).
        { apply nub_In. apply in_map. assumption. }
        rewrite Ee in Hin. destruct Hin as [|[]]; congruence.
    - apply mv_pure. intros entries Hentries. rewrite (is_labels_iter _ _ _ Hl) in Hentries by apply new_key_names_nonempty.
      inversion Hentries; subst entries. rewrite (is_labels_names _ _ _ Hl).
      assert (Hkn : kept_names variables (labels_names (tm_keys t)) <> []).
      { intros En. apply E. unfold new_keys_rows. rewrite En. reflexivity. }
      replace (new_key_names variables (labels_names (tm_keys t))) with (kept_names variables (labels_names (tm_keys t))).
      2:{ unfold new_key_names. destruct (kept_names variables (labels_names (tm_keys t))); [contradiction|reflexivity]. }
      apply mv_each_block. intros L1 e He. apply mv_pure. intros kbs Hkbs. apply Hm.
      split; [intros k b; eapply given_in; eapply some_given; exact Hkbs|]. exists e.
      pose proof (see_some_blocks s t positions (kept_names variables (labels_names (tm_keys t))) e) as Hs. rewrite Hkbs in Hs. cbn [bind] in Hs.
      pose proof (blocks_to_merge_group (see s t) variables positions e Ht Hkn) as Hg. cbn [see tm_keys] in Hg, Hs.
      rewrite Hg in Hs; [inversion Hs; reflexivity| |exact Hproj].
      unfold new_keys_rows in He. destruct (kept_names variables (labels_names (tm_keys t))) as [|nm ns] eqn:En; [contradiction|].
      rewrite nub_In in He. apply in_map_iff in He as (k & <- & Hkin).
      rewrite new_key_length by (apply wf_rows_length; assumption).
      unfold new_key_names. rewrite En. reflexivity.
  Qed.

  Lemma replace_good m tr t' r : mv arrays shape None m anything -> runs (p_replace t m) tr (t', r) -> honest arrays shape tr -> good_moves arrays shape tr.
  Proof.
    intros Hm H Hh. unfold p_replace in H. apply runs_bindp in H as (tr1 & x & tr2 & H1 & H2 & ->). apply honest_app in Hh as [Hh1 Hh2].
    destruct (Hm _ _ H1 Hh1) as [Hg _]. apply good_good_moves. rewrite good_app. split; [exact Hg|].
    destruct x as [[nk nb]|e|e|e].
    - apply runs_bindp in H2 as (tr3 & u & tr4 & H3 & H4 & ->). apply runs_ret_inv in H4 as [-> _]. rewrite app_nil_r. eapply drop_good; exact H3.
    - apply runs_ret_inv in H2 as [-> _]. exact I.
    - apply runs_ret_inv in H2 as [-> _]. exact I.
    - apply runs_ret_inv in H2 as [-> _]. exact I.
  Qed.

  Lemma samples_moves sort tr t' r : honest arrays shape tr -> runs (p_keys_to_samples p t keys sort) tr (t', r) -> good_moves arrays shape tr.
  Proof.
    intros Hh H. eapply replace_good; [|exact H|exact Hh]. unfold p_keys_to_samples_compute.
    apply mv_pure. intros count _. destruct (0 <? count); [apply mv_ret; discriminate|]. cbv zeta.
    apply mv_pure. intros [nk pos] Hrem. eapply mv_or_drop; [|intros; apply mv_ret; intros; exact I].
    apply mv_merged_blocks; [exact Hrem|]. intros L kbs Hkbs. destruct kbs as [|[k0 b0] others].
    - apply mv_ret. discriminate.
    - apply mv_merge_samples; [apply Hkbs|apply group_wf_all; exact Hkbs|apply merged_group_agrees; exact Hkbs].
  Qed.

  Lemma properties_moves sort tr t' r : wf_labels keys -> honest arrays shape tr -> runs (p_keys_to_properties p t keys sort) tr (t', r) ->
    good_moves arrays shape tr.
  Proof.
    intros Hkeys Hh H. eapply replace_good; [|exact H|exact Hh]. unfold p_keys_to_properties_compute. cbv zeta.
    apply mv_pure. intros [nk pos] Hrem. apply mv_pure. intros count Hcount.
    eapply mv_or_drop; [|intros; apply mv_ret; intros; exact I].
    destruct (remove_variables_ok _ _ _ _ (proj1 Ht) Hrem) as (Hv & _).
    assert (Hlen : length (filter (is_moved (labels_names keys)) (labels_names (tm_keys t))) = length (labels_names keys)).
    { apply moved_names_length; [apply Ht|apply (wf_labels_good_names _ Hkeys)|exact Hv]. }
    apply mv_merged_blocks; [exact Hrem|]. intros L kbs Hkbs. destruct kbs as [|[k0 b0] others].
    - apply mv_ret. discriminate.
    - destruct Hkbs as [Hb [e He]].
      assert (Hf : map fst (group (see s t) (labels_names keys) e) = map fst ((k0, b0) :: others)).
      { rewrite <- He, map_map. reflexivity. }
      apply mv_merge_properties with (n := length (labels_names keys)).
      + exact Hb.
      + apply group_wf_all. split; [exact Hb|exists e; exact He].
      + apply merged_group_agrees. split; [exact Hb|exists e; exact He].
      + rewrite <- Hf. exact (group_keys_distinct (see s t) (labels_names keys) e Ht).
      + intros k b Hin. assert (Hin' : In (k, see_block s b) (group (see s t) (labels_names keys) e)) by (rewrite <- He; exact (see_in s _ k b Hin)).
        rewrite (group_keys_length (see s t) (labels_names keys) e k _ Ht Hin'). exact Hlen.
      + destruct (count =? 0) eqn:E0; [exact I|]. split; [|reflexivity]. split; [exact Hkeys|].
        intros E. unfold labels_count in Hcount. destruct keys as [ns vs ps]. cbn in *. subst. cbn in Hcount. discriminate Hcount.
  Qed.
End Tensor.
