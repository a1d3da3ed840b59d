(* Accounting of arrays in programs which call the functions of eqs_array_t *)
From Verif Require Import Base Labels Array Block Tensor Callbacks SpecCallbacks.
From Coq Require Import Permutation.
Local Open Scope string_scope.
Local Open Scope list_scope.
Local Open Scope nat_scope.

Lemma runs_ret_inv {A} (a : A) tr r : runs (Ret a) tr r -> tr = [] /\ r = a.
Proof. intros H; inversion H; auto. Qed.

Lemma runs_ask_inv {A} c (k : answer -> prog A) tr r : runs (Ask c k) tr r -> exists an tr', tr = (c, an) :: tr' /\ runs (k an) tr' r.
Proof. intros H; inversion H; subst. eauto. Qed.

Lemma runs_bindp {A B} (m : prog A) (k : A -> prog B) : forall tr b, runs (bindp m k) tr b ->
  exists tr1 a tr2, runs m tr1 a /\ runs (k a) tr2 b /\ tr = tr1 ++ tr2.
Proof.
  induction m as [a|c m IH]; intros tr b H; cbn [bindp] in H.
  - exists [], a, tr. split; [constructor|auto].
  - apply runs_ask_inv in H as (an & tr' & -> & H). apply IH in H as (tr1 & a & tr2 & H1 & H2 & ->).
    exists ((c, an) :: tr1), a, tr2. split; [constructor; exact H1|auto].
Qed.

Lemma forget_in a b alive : In b (forget a alive) <-> In b alive /\ b <> a.
Proof. unfold forget. rewrite filter_In. destruct (Nat.eqb_spec a b); cbn; split; intros []; split; auto; try discriminate; congruence. Qed.

Lemma forget_perm a l1 l2 : Permutation l1 l2 -> Permutation (forget a l1) (forget a l2).
Proof.
  unfold forget. induction 1 as [|x l1 l2 H IH|x y l|l1 l2 l3 H1 IH1 H2 IH2]; cbn [filter].
  - constructor.
  - destruct (negb (a =? x)); [constructor|]; exact IH.
  - destruct (negb (a =? x)), (negb (a =? y)); try apply Permutation_refl. constructor.
  - eapply perm_trans; eauto.
Qed.

Lemma forget_notin a l : ~ In a l -> forget a l = l.
Proof.
  induction l as [|x l IH]; intros H; [reflexivity|]. unfold forget in *. cbn [filter]. destruct (Nat.eqb_spec a x) as [->|]; cbn.
  - exfalso. apply H. left. reflexivity.
  - f_equal. apply IH. intros Hin. apply H. right. exact Hin.
Qed.

Lemma forget_head a l : ~ In a l -> forget a (a :: l) = l.
Proof. intros H. unfold forget. cbn [filter]. rewrite Nat.eqb_refl. apply forget_notin. exact H. Qed.

Lemma lives_perm alive tr alive' : lives alive tr alive' -> forall l, Permutation alive l ->
  exists l', lives l tr l' /\ Permutation alive' l'.
Proof.
  induction 1 as [alive|c an alive tr alive' Hu Hd Hc H IH|c an a alive tr alive' Hu Hc H IH|a an alive tr alive' Hin H IH]; intros l Hp.
  - exists l. split; [constructor|exact Hp].
  - destruct (IH l Hp) as (l' & H1 & H2). exists l'. split; [|exact H2]. apply lives_use; auto.
    intros x Hx. eapply Permutation_in; [exact Hp|]. apply Hu, Hx.
  - destruct (IH (a :: l)) as (l' & H1 & H2); [constructor; exact Hp|]. exists l'. split; [|exact H2]. apply (lives_create _ _ a); auto.
    intros x Hx. eapply Permutation_in; [exact Hp|]. apply Hu, Hx.
  - destruct (IH (forget a l)) as (l' & H1 & H2); [apply forget_perm; exact Hp|]. exists l'. split; [|exact H2].
    constructor; [|exact H1]. eapply Permutation_in; eauto.
Qed.

Lemma lives_app a tr1 b tr2 c : lives a tr1 b -> lives b tr2 c -> lives a (tr1 ++ tr2) c.
Proof. intros H H2. induction H; cbn [app]; [exact H2|apply lives_use|eapply lives_create|apply lives_destroy]; eauto. Qed.

Lemma new_arrays_incl tr : forall l1 l2, (forall x, In x l1 <-> In x l2) -> new_arrays l1 tr -> new_arrays l2 tr.
Proof.
  induction tr as [|[c an] tr IH]; intros l1 l2 E; [exact (fun H => H)|].
  assert (Hc : match created c an with Some a => ~ In a l1 /\ new_arrays (a :: l1) tr | None => new_arrays l1 tr end ->
               match created c an with Some a => ~ In a l2 /\ new_arrays (a :: l2) tr | None => new_arrays l2 tr end).
  { destruct (created c an) as [a|]; [|apply IH; exact E]. intros [H1 H2]. split; [rewrite <- E; exact H1|].
    revert H2. apply IH. intros x. cbn [In]. rewrite E. reflexivity. }
  destruct c; cbn [new_arrays]; try exact Hc. apply IH. intros x. rewrite !forget_in, E. reflexivity.
Qed.

Lemma new_arrays_app tr1 : forall alive tr2 alive1, lives alive tr1 alive1 -> new_arrays alive (tr1 ++ tr2) ->
  new_arrays alive tr1 /\ new_arrays alive1 tr2.
Proof.
  intros alive tr2 alive1 H. induction H as [alive|c an alive tr alive' Hu Hd Hc H IH|c an a alive tr alive' Hu Hc H IH|a an alive tr alive' Hin H IH];
    cbn [app]; intros Hn.
  - split; [exact I|exact Hn].
  - assert (E : new_arrays alive (tr ++ tr2)) by (destruct c; cbn [new_arrays] in Hn; rewrite ?Hc in Hn; try exact Hn; exfalso; eapply Hd; reflexivity).
    destruct (IH E) as [H1 H2]. split; [|exact H2]. destruct c; cbn [new_arrays]; rewrite ?Hc; try exact H1. exfalso; eapply Hd; reflexivity.
  - assert (E : ~ In a alive /\ new_arrays (a :: alive) (tr ++ tr2)).
    { destruct c; try discriminate Hc; cbn [new_arrays] in Hn; rewrite Hc in Hn; exact Hn. }
    destruct E as [E1 E2]. destruct (IH E2) as [H1 H2]. split; [|exact H2].
    destruct c; try discriminate Hc; cbn [new_arrays]; rewrite Hc; auto.
  - destruct (IH Hn) as [H1 H2]. split; [exact H1|exact H2].
Qed.

Lemma lives_nodup alive tr alive' : lives alive tr alive' -> NoDup alive -> new_arrays alive tr -> NoDup alive'.
Proof.
  induction 1 as [alive|c an alive tr alive' Hu Hd Hc H IH|c an a alive tr alive' Hu Hc H IH|a an alive tr alive' Hin H IH]; intros Hn Hf.
  - exact Hn.
  - apply IH; [exact Hn|]. destruct c; cbn [new_arrays] in Hf; rewrite ?Hc in Hf; try exact Hf. exfalso; eapply Hd; reflexivity.
  - assert (E : ~ In a alive /\ new_arrays (a :: alive) tr).
    { destruct c; try discriminate Hc; cbn [new_arrays] in Hf; rewrite Hc in Hf; exact Hf. }
    destruct E as [E1 E2]. apply IH; [constructor; assumption|exact E2].
  - apply IH; [|exact Hf]. apply NoDup_filter. exact Hn.
Qed.

(** * Rules *)

Definition triple {A} (refs own : list nat) (m : prog A) (Q : A -> list nat) : Prop :=
  forall tr a, runs m tr a -> forall others, NoDup (own ++ others) -> incl refs others -> new_arrays (own ++ others) tr ->
    accounts others own tr (Q a).

Lemma triple_ret {A} refs own (a : A) Q : Permutation own (Q a) -> triple refs own (Ret a) Q.
Proof.
  intros Hp tr r H others Hn Hr Hf. apply runs_ret_inv in H as [-> ->]. exists (own ++ others). split; [constructor|split; [|constructor]].
  apply Permutation_app_tail. exact Hp.
Qed.

Lemma triple_bind {A B} refs own (m : prog A) (k : A -> prog B) R Q :
  triple refs own m R -> (forall a, triple refs (R a) (k a) Q) -> triple refs own (bindp m k) Q.
Proof.
  intros Hm Hk tr b H others Hn Hr Hf. apply runs_bindp in H as (tr1 & a & tr2 & H1 & H2 & ->).
  (* new_arrays for the first part does not depend on the second one *)
  assert (Hf1 : new_arrays (own ++ others) tr1).
  { clear - Hf. revert Hf. generalize (own ++ others). induction tr1 as [|[c an] tr1 IH]; intros l Hf; [exact I|].
    assert (Hc : match created c an with Some a => ~ In a l /\ new_arrays (a :: l) (tr1 ++ tr2) | None => new_arrays l (tr1 ++ tr2) end ->
                 match created c an with Some a => ~ In a l /\ new_arrays (a :: l) tr1 | None => new_arrays l tr1 end).
    { destruct (created c an); [intros [H1 H2]; split; [exact H1|apply IH; exact H2]|apply IH]. }
    destruct c; cbn [new_arrays app] in *; try (apply Hc; exact Hf). apply IH; exact Hf. }
  destruct (Hm tr1 a H1 others Hn Hr Hf1) as (alive1 & L1 & P1 & C1).
  destruct (new_arrays_app _ _ _ _ L1 Hf) as [_ Hf2].
  assert (N1 : NoDup alive1) by (eapply lives_nodup; eauto).
  assert (N2 : NoDup (R a ++ others)) by (eapply Permutation_NoDup; eauto).
  assert (Hf2' : new_arrays (R a ++ others) tr2).
  { eapply new_arrays_incl; [|exact Hf2]. intros x. split; apply Permutation_in; [|apply Permutation_sym]; exact P1. }
  destruct (Hk a tr2 b H2 others N2 Hr Hf2') as (alive2 & L2 & P2 & C2).
  destruct (lives_perm _ _ _ L2 alive1) as (l' & L3 & P3); [apply Permutation_sym; exact P1|].
  exists l'. split; [eapply lives_app; eauto|split]; [|apply Forall_app; split; assumption].
  eapply perm_trans; [apply Permutation_sym; exact P3|exact P2].
Qed.

Lemma triple_perm {A} refs own own2 (m : prog A) Q Q2 :
  triple refs own m Q -> Permutation own own2 -> (forall a, Permutation (Q a) (Q2 a)) -> triple refs own2 m Q2.
Proof.
  intros Hm Hp Hq tr a H others Hn Hr Hf.
  assert (Hp' : Permutation (own ++ others) (own2 ++ others)) by (apply Permutation_app_tail; exact Hp).
  destruct (Hm tr a H others) as (alive & L & P & C).
  - eapply Permutation_NoDup; [apply Permutation_sym; exact Hp'|exact Hn].
  - exact Hr.
  - eapply new_arrays_incl; [|exact Hf]. intros x. split; apply Permutation_in; [apply Permutation_sym|]; exact Hp'.
  - destruct (lives_perm _ _ _ L _ Hp') as (l' & L' & P'). exists l'. split; [exact L'|split; [|exact C]].
    eapply perm_trans; [apply Permutation_sym; exact P'|]. eapply perm_trans; [exact P|]. apply Permutation_app_tail. apply Hq.
Qed.

Lemma triple_refs {A} refs refs2 own (m : prog A) Q : incl refs refs2 -> triple refs own m Q -> triple refs2 own m Q.
Proof. intros Hi Hm tr a H others Hn Hr Hf. apply Hm; auto. intros x Hx. apply Hr, Hi, Hx. Qed.

(* arrays which belong to the caller can be used *)
Lemma triple_frame {A} refs refs2 own frame (m : prog A) Q : incl refs (refs2 ++ frame) -> triple refs own m Q ->
  triple refs2 (own ++ frame) m (fun a => Q a ++ frame).
Proof.
  intros Hi Hm tr a H others Hn Hr Hf. rewrite <- app_assoc in *.
  destruct (Hm tr a H (frame ++ others) Hn) as (alive & L & P & C); [|exact Hf|].
  - intros x Hx. apply Hi in Hx. apply in_app_iff in Hx as [Hx|Hx]; apply in_app_iff; [right; apply Hr, Hx|left; exact Hx].
  - exists alive. rewrite <- !app_assoc. split; [exact L|split; [exact P|]]. eapply Forall_impl; [|exact C].
    intros [c an] Hc x Hx Hin. apply (Hc x Hx). apply in_app_iff. right. exact Hin.
Qed.

Lemma triple_drop refs own : triple refs own (drop_arrays own) (fun _ => []).
Proof.
  induction own as [|a own IH].
  - apply triple_ret. constructor.
  - intros tr r H others Hn Hr Hf. cbn [drop_arrays] in H. apply runs_ask_inv in H as (an & tr' & -> & H).
    cbn [app] in Hn. inversion Hn as [|? ? Ha Hn']; subst. cbn [new_arrays app] in Hf. rewrite (forget_head _ _ Ha) in Hf.
    destruct (IH tr' r H others Hn' Hr Hf) as (alive & L & P & C). exists alive. split; [|split; [exact P|]].
    + constructor; [left; reflexivity|]. cbn [app]. rewrite forget_head; assumption.
    + constructor; [|exact C]. intros x [<-|[]]. cbn. intros Hx. apply Ha. apply in_app_iff. right. exact Hx.
Qed.

(** * Programs which can fail *)

Definition after {A} (R : A -> list nat) (F : list nat) (r : outcome A) : list nat :=
  match r with Ok a => R a | _ => F end.
Definition ftriple {A} (refs own : list nat) (m : prog (outcome A)) (R : A -> list nat) (F : list nat) : Prop :=
  triple refs own m (after R F).

Lemma ftriple_then_fail {A} refs own owned F (R : A -> list nat) failure : Permutation own (owned ++ F) ->
  (forall a, failure <> Ok a) -> ftriple refs own (then_fail owned failure) R F.
Proof.
  intros Hp Hf. unfold ftriple, then_fail. eapply triple_perm; [|apply Permutation_sym; exact Hp|intros; apply Permutation_refl].
  eapply (triple_bind _ _ _ _ (fun _ => [] ++ F)).
  - apply (triple_frame refs); [|apply triple_drop]. intros x Hx; apply in_app_iff; left; exact Hx.
  - intros _. apply triple_ret. cbn [app]. destruct failure; try apply Permutation_refl. exfalso; eapply Hf; reflexivity.
Qed.

Lemma ftriple_or_drop {A B} refs own owned (m : prog (outcome A)) (k : A -> prog (outcome B)) R Q F F' :
  ftriple refs own m R F' -> Permutation F' (owned ++ F) -> (forall a, ftriple refs (R a) (k a) Q F) ->
  ftriple refs own (or_drop owned m k) Q F.
Proof.
  intros Hm Hp Hk. unfold ftriple, or_drop. eapply triple_bind; [exact Hm|]. intros [a|e|message|reason]; cbn [after].
  - apply Hk.
  - apply ftriple_then_fail; [exact Hp|discriminate].
  - apply ftriple_then_fail; [exact Hp|discriminate].
  - apply ftriple_then_fail; [exact Hp|discriminate].
Qed.

Lemma ftriple_ret {A} refs own (o : outcome A) Q F : (forall a, o = Ok a -> Permutation own (Q a)) ->
  ((forall a, o <> Ok a) -> Permutation own F) -> ftriple refs own (Ret o) Q F.
Proof. intros H1 H2. apply triple_ret. destruct o as [a|e|message|reason]; cbn [after]; [apply H1; reflexivity|..]; apply H2; discriminate. Qed.

Lemma ftriple_pure {A B} refs own owned (o : outcome A) (k : A -> prog (outcome B)) Q F :
  Permutation own (owned ++ F) -> (forall a, o = Ok a -> ftriple refs own (k a) Q F) -> ftriple refs own (or_drop owned (Ret o) k) Q F.
Proof.
  intros Hp Hk. unfold or_drop. cbn [bindp]. destruct o as [a|e|message|reason]; [apply Hk; reflexivity|..];
    (apply ftriple_then_fail; [exact Hp|discriminate]).
Qed.

Lemma ftriple_expectp {A} refs own message (m : prog (outcome A)) R F : ftriple refs own m R F -> ftriple refs own (expectp message m) R F.
Proof. intros Hm. eapply triple_bind; [exact Hm|]. intros r. apply triple_ret. destruct r; apply Permutation_refl. Qed.

Lemma ftriple_frame {A} refs refs2 own frame (m : prog (outcome A)) R F : incl refs (refs2 ++ frame) -> ftriple refs own m R F ->
  ftriple refs2 (own ++ frame) m (fun a => R a ++ frame) (F ++ frame).
Proof.
  intros Hi Hm. eapply triple_perm; [eapply triple_frame; [exact Hi|exact Hm]|apply Permutation_refl|].
  intros [a|e|message|reason]; apply Permutation_refl.
Qed.

Lemma ftriple_perm {A} refs own own2 (m : prog (outcome A)) R R2 F F2 : ftriple refs own m R F -> Permutation own own2 ->
  (forall a, Permutation (R a) (R2 a)) -> Permutation F F2 -> ftriple refs own2 m R2 F2.
Proof. intros Hm Hp Hr Hf. eapply triple_perm; [exact Hm|exact Hp|]. intros [a|e|message|reason]; cbn [after]; auto. Qed.

(* calls *)
Lemma in_used (a : nat) refs own others : incl refs others -> In a (own ++ refs) -> In a (own ++ others).
Proof. intros Hr Ha. apply in_app_iff in Ha as [Ha|Ha]; apply in_app_iff; [left|right; apply Hr]; exact Ha. Qed.

Lemma ask_look {A} refs own c op (value : answer -> A) : incl (used c) (own ++ refs) -> (forall a, c <> QDestroy a) ->
  (forall an, created c an = None) -> incl (changed c) own -> ftriple refs own (ask c op value) (fun _ => own) own.
Proof.
  intros Hu Hd Hc Hch tr r H others Hn Hr Hf. unfold ask in H. apply runs_ask_inv in H as (an & tr' & -> & H).
  apply runs_ret_inv in H as [-> ->]. exists (own ++ others). split; [|split].
  - apply lives_use; auto; [|constructor]. intros x Hx. eapply in_used; eauto.
  - destruct (if an_null an then _ else _); apply Permutation_refl.
  - constructor; [|constructor]. intros x Hx Hin. apply Hch in Hx. clear - Hx Hin Hn.
    induction own as [|y own IH]; [destruct Hx|]. cbn [app] in Hn. inversion Hn; subst. destruct Hx as [->|Hx]; [|auto].
    apply H1. apply in_app_iff. right. exact Hin.
Qed.

Lemma shape_ok refs own a : In a (own ++ refs) -> ftriple refs own (p_shape a) (fun _ => own) own.
Proof. intros H. apply ask_look; try discriminate; try reflexivity; intros x Hx; cbn in Hx; first [destruct Hx as [<-|[]]; exact H|destruct Hx]. Qed.
Lemma origin_ok refs own a : In a (own ++ refs) -> ftriple refs own (p_origin a) (fun _ => own) own.
Proof. intros H. apply ask_look; try discriminate; try reflexivity; intros x Hx; cbn in Hx; first [destruct Hx as [<-|[]]; exact H|destruct Hx]. Qed.
Lemma reshape_ok refs own a shape : In a own -> ftriple refs own (p_reshape a shape) (fun _ => own) own.
Proof.
  intros H. apply ask_look; try discriminate; try reflexivity; intros x Hx; cbn in Hx; destruct Hx as [<-|[]]; [apply in_app_iff; left|]; exact H.
Qed.
Lemma swap_ok refs own a i j : In a own -> ftriple refs own (p_swap_axes a i j) (fun _ => own) own.
Proof.
  intros H. apply ask_look; try discriminate; try reflexivity; intros x Hx; cbn in Hx; destruct Hx as [<-|[]]; [apply in_app_iff; left|]; exact H.
Qed.
Lemma move_ok refs own a b l i j : In a own -> In b (own ++ refs) -> ftriple refs own (p_move a b l i j) (fun _ => own) own.
Proof.
  intros H H'. apply ask_look; try discriminate; try reflexivity.
  - intros x [<-|[<-|[]]]; [apply in_app_iff; left; exact H|exact H'].
  - intros x [<-|[]]. exact H.
Qed.

Lemma ask_new refs own c (r : answer -> outcome nat) : incl (used c) (own ++ refs) -> (forall a, c <> QDestroy a) -> changed c = [] ->
  (forall an, created c an = if works an then Some (an_new an) else None) ->
  (forall an, if works an then r an = Ok (an_new an) else forall n, r an <> Ok n) ->
  ftriple refs own (Ask c (fun an => Ret (r an))) (fun n => n :: own) own.
Proof.
  intros Hu Hd Hch Hc Hw tr x H others Hn Hr Hf. apply runs_ask_inv in H as (an & tr' & -> & H). apply runs_ret_inv in H as [-> ->].
  specialize (Hc an). specialize (Hw an).
  assert (Hi : incl (used c) (own ++ others)) by (intros y Hy; eapply in_used; eauto).
  destruct (works an).
  - rewrite Hw. exists (an_new an :: own ++ others). split; [|split]; [|apply Permutation_refl|].
    + eapply lives_create; eauto. constructor.
    + constructor; [|constructor]. intros y Hy. rewrite Hch in Hy. destruct Hy.
  - exists (own ++ others). split; [|split].
    + apply lives_use; auto. constructor.
    + destruct (r an) as [n|e|message|reason]; try apply Permutation_refl. exfalso; eapply Hw; reflexivity.
    + constructor; [|constructor]. intros y Hy. rewrite Hch in Hy. destruct Hy.
Qed.

Lemma create_ok refs own a shape : In a (own ++ refs) -> ftriple refs own (p_create a shape) (fun n => n :: own) own.
Proof.
  intros H. unfold p_create, ask. apply (ask_new refs own (QCreate a shape)); try discriminate; try reflexivity.
  - intros x [<-|[]]. exact H.
  - intros an. unfold works. destruct (an_null an); cbn; [discriminate|]. destruct (an_status an =? 0)%Z; [reflexivity|discriminate].
Qed.

Lemma copy_ok refs own a : In a (own ++ refs) -> ftriple refs own (p_copy a) (fun n => n :: own) own.
Proof.
  intros H. unfold p_copy. apply (ask_new refs own (QCopy a)); try discriminate; try reflexivity.
  - intros x [<-|[]]. exact H.
  - intros an. unfold works. destruct (an_null an); cbn; [discriminate|]. destruct (an_status an =? 0)%Z; [reflexivity|discriminate].
Qed.
