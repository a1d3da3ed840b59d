(* Proofs about PyErrors.v *)
From Verif Require Import Base BaseFacts Labels Array Block Tensor Callbacks SpecCallbacks CallbacksFacts CallbacksOwnFacts CallbacksFailFacts PyErrors SpecPyErrors.
From Verif Require CApi.
Local Open Scope string_scope.
Local Open Scope list_scope.
Local Open Scope nat_scope.

Lemma tensor_new_first keys blocks tr x : runs (p_tensor_new keys blocks) tr x -> first_failure (blocks_arrays blocks) tr x.
Proof.
  intros H. eapply (gff_first _ []); [|apply fresh_nil|exact H]. unfold p_tensor_new. apply gff_pure. intros t _. apply (gff_ret _ _ _ any). intros; exact I.
Qed.

Lemma first_no_value {A} given tr (x : outcome A) : first_failure given tr x -> first_failure given tr (no_value x).
Proof.
  intros [W|(before & c & an & after & E & B1 & B2 & B3 & B4 & [R1 R2])]; [left; exact W|right].
  exists before, c, an, after. repeat (split; [assumption|]). split; intros P.
  - destruct (R1 P) as (m & ->). exists m. reflexivity.
  - rewrite (R2 P). reflexivity.
Qed.

Lemma call_first c tr r : NoDup (call_given c) -> new_arrays (call_given c) tr -> call_runs c tr r -> first_failure (call_given c) tr r.
Proof.
  intros Hn Hf H. destruct c; cbn [call_runs call_given] in *.
  - destruct H as (x & H & ->). apply first_no_value. eapply block_new_first; eauto.
  - destruct H as (b' & H). eapply add_gradient_first; eauto.
  - destruct H as (x & H & ->). apply first_no_value. eapply block_clone_first; eauto.
  - destruct H as (x & H & ->). apply first_no_value. eapply tensor_new_first; eauto.
  - destruct H as (t' & H). eapply components_first; eauto.
  - destruct H as (t' & H). eapply keys_to_samples_first; eauto.
  - destruct H as (t' & H). eapply keys_to_properties_first; eauto.
Qed.

(* no exception *)
Lemma no_save tr : only_exceptions tr -> all_work (answers tr) -> saved tr = [] /\ raised tr = None.
Proof.
  induction tr as [|[c q] tr IH]; intros Ho Hw; [auto|]. inversion Ho as [|? ? H1 H2]; subst. cbn [answers map] in Hw. inversion Hw as [|? ? W1 W2]; subst.
  destruct (IH H2 W2) as [E1 E2]. unfold saved. cbn [flat_map]. fold (saved tr). destruct q as [an|e|an]; cbn in H1, W1.
  - cbn [raised]. auto.
  - rewrite H1 in W1. destruct W1 as [W1|W1]; discriminate W1.
  - destruct H1.
Qed.

Lemma destroys_save tr : only_exceptions tr -> Forall (fun e => is_destroy (fst e) = true) (answers tr) -> saved tr = [] /\ raised tr = None.
Proof. intros Ho Hd. apply no_save; [exact Ho|]. apply destroys_work. exact Hd. Qed.

Lemma raised_app tr1 tr2 : raised tr1 = None -> raised (tr1 ++ tr2) = raised tr2.
Proof.
  induction tr1 as [|[c q] tr1 IH]; cbn [app raised]; [reflexivity|]. destruct q; [exact IH| |exact IH].
  destruct (is_destroy c); [exact IH|discriminate].
Qed.

Lemma answers_split before c an after : forall tr, answers tr = before ++ (c, an) :: after ->
  exists tr1 q tr2, tr = tr1 ++ (c, q) :: tr2 /\ answers tr1 = before /\ reply_answer q = an /\ answers tr2 = after.
Proof.
  intros tr H. unfold answers in H. apply map_eq_app in H as (tr1 & tr2 & -> & E1 & E2). destruct tr2 as [|[c' q] tr2]; [discriminate E2|].
  cbn [map] in E2. injection E2 as E3 E4 E5. subst. exists tr1, q, tr2. auto.
Qed.

Lemma one_call c tr r : possible (c, tr, r) -> only_exceptions tr -> kept_status c tr ->
  (saved tr = [] /\ raised tr = None) \/
  (exists e, saved tr = [Save e] /\ raised tr = Some e /\ (code_of r = (-1)%Z \/ (by_pointer c = true /\ code_of r = 255%Z))).
Proof.
  intros (Hn & Hf & Hr) Ho Hk. pose proof (call_first c (answers tr) r Hn Hf Hr) as [W|(before & x & an & after & E & B1 & B2 & B3 & B4 & [R1 R2])].
  - left. apply no_save; assumption.
  - right. apply answers_split in E as (tr1 & q & tr2 & -> & <- & <- & <-). apply Forall_app in Ho as [O1 O2]. inversion O2 as [|? ? O3 O4]; subst.
    destruct (no_save tr1 O1 B1) as [S1 T1]. destruct (destroys_save tr2 O4 B4) as [S2 T2].
    destruct q as [a|e|a]; [cbn in B2; discriminate B2| |destruct O3]. exists e. split; [|split].
    + unfold saved in *. rewrite flat_map_app. cbn [flat_map]. rewrite S1, S2. reflexivity.
    + rewrite raised_app by exact T1. cbn [raised]. rewrite B3. reflexivity.
    + destruct Hk as [Hp|Hk].
      * assert (Hd : panics_for (call_given c) x (reply_answer (Raises e)) \/ ~ panics_for (call_given c) x (reply_answer (Raises e))).
        { unfold panics_for. cbn [reply_answer an_null]. destruct x; try (right; intros [Q|Q]; [discriminate Q|exact Q]).
          - destruct (in_dec Nat.eq_dec a (call_given c)); [right; intros [Q|Q]; [discriminate Q|contradiction]|left; right; assumption].
          - destruct (in_dec Nat.eq_dec a (call_given c)); [right; intros [Q|Q]; [discriminate Q|contradiction]|left; right; assumption].
          - left. right. exact I. }
        destruct Hd as [Hd|Hd]; [right; split; [exact Hp|]; destruct (R1 Hd) as (m & ->); reflexivity|left; rewrite (R2 Hd); reflexivity].
      * left. apply Forall_app in Hk as [_ Hk]. inversion Hk as [|? ? K _]; subst. cbn beta iota in K.
        rewrite R2; [reflexivity|]. intros [Q|Q]; [discriminate Q|]. destruct x; try exact Q; contradiction.
Qed.

Lemma results_saved thread last events rest : (forall e, In e events -> exists x, e = Save x) ->
  exists last', py_results last (map (pair thread) events ++ rest) = py_results last' rest /\ (events = [] -> last' = last) /\
    (forall e, events = [Save e] -> last' = Some e).
Proof.
  intros H. revert last H. induction events as [|ev events IH]; intros last H; [exists last; repeat split; discriminate|].
  assert (H' : forall e, In e events -> exists x, e = Save x) by (intros e He; apply H; right; exact He).
  destruct (H ev (or_introl eq_refl)) as (x & E0). rewrite E0. cbn [map app py_results].
  destruct (IH (Some x) H') as (last' & E & N & O). exists last'. split; [exact E|]. split; [discriminate|].
  intros e E1. injection E1 as <- ->. apply N. reflexivity.
Qed.

Lemma saved_saves tr e : In e (saved tr) -> exists x, e = Save x.
Proof.
  unfold saved. intros H. apply in_flat_map in H as ([c q] & _ & H). destruct q; cbn in H; [contradiction| |contradiction].
  destruct H as [<-|[]]. eexists; reflexivity.
Qed.

Lemma single_thread thread program : Forall possible program ->
  Forall (fun '(c, tr, _) => only_exceptions tr /\ kept_status c tr) program ->
  py_results None (all_events thread program) = map (fun d => (thread, expected d)) program.
Proof.
  induction program as [|[[c tr] r] program IH]; intros Hp Ho; [reflexivity|].
  inversion Hp as [|? ? P1 P2]; subst. inversion Ho as [|? ? O0 O3]; subst. cbn beta iota in O0. destruct O0 as [O1 O2].
  unfold all_events. cbn [flat_map]. fold (all_events thread program). unfold call_events. rewrite map_app, <- app_assoc.
  destruct (results_saved thread None (saved tr) (map (pair thread) [Check (by_pointer c) (code_of r)] ++ all_events thread program) (saved_saves tr)) as (last & -> & N & O).
  cbn [map app py_results expected]. specialize (IH P2 O3).
  destruct (one_call c tr r P1 O1 O2) as [[S R]|(e & S & R & C)].
  - rewrite (N S), R. unfold check. destruct (by_pointer c), (code_of r =? 0)%Z; cbn; try (rewrite IH; reflexivity).
    destruct (0 <? code_of r)%Z; rewrite IH; reflexivity.
  - rewrite (O e S), R. unfold check. destruct C as [C|[Hb C]]; rewrite C; [|rewrite Hb; cbn; rewrite IH; reflexivity].
    destruct (by_pointer c); cbn; rewrite IH; reflexivity.
Qed.
