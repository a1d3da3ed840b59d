(* With the arrays of Array.v, the programs of Callbacks.v give the results of Block.v
   and Tensor.v *)
From Verif Require Import Base BaseFacts Labels Array Block Tensor Callbacks SpecCallbacks CallbacksFacts CallbacksOwnFacts CallbacksStore BlocksFacts IoFacts.
Local Open Scope string_scope.
Local Open Scope list_scope.
Local Open Scope nat_scope.

Lemma play_runs {A} (m : prog A) : forall s, runs m (played s m) (snd (play s m)).
Proof.
  induction m as [a|c k IH]; intros s; cbn [play played snd]; [constructor|].
  destruct (respond s c) as [s' an]. constructor. apply IH.
Qed.

Lemma play_bindp {A B} (m : prog A) (k : A -> prog B) : forall s, play s (bindp m k) = let '(s', a) := play s m in play s' (k a).
Proof. induction m as [a|c m IH]; intros s; cbn [bindp play]; [reflexivity|]. destruct (respond s c). apply IH. Qed.

Lemma play_drop l : forall s, play s (drop_arrays l) = (s, tt).
Proof. induction l as [|a l IH]; intros s; cbn [drop_arrays play respond]; [reflexivity|apply IH]. Qed.

Lemma play_then_fail {A} l (f : outcome A) s : play s (then_fail l f) = (s, f).
Proof. unfold then_fail. rewrite play_bindp, play_drop. reflexivity. Qed.

(* arrays before [n] are the same *)
Definition grows (n : nat) (s s' : store) : Prop := s_next s <= s_next s' /\ forall a, a < n -> s_array s' a = s_array s a.

Lemma grows_refl n s : grows n s s.
Proof. split; auto. Qed.
Lemma grows_trans n s1 s2 s3 : grows n s1 s2 -> grows n s2 s3 -> grows n s1 s3.
Proof. intros [L1 H1] [L2 H2]. split; [lia|]. intros a Ha. rewrite H2, H1 by exact Ha. reflexivity. Qed.
Lemma grows_less n n' s s' : n' <= n -> grows n s s' -> grows n' s s'.
Proof. intros Hn [L H]. split; [exact L|]. intros a Ha. apply H. lia. Qed.

Definition agree {X Y} (R : X -> Y -> Prop) (r : outcome X) (o : outcome Y) : Prop :=
  match o with
  | Ok y => exists x, r = Ok x /\ R x y
  | Err e => r = Err e
  | Panic message => r = Panic message
  | Undefined _ => True
  end.

Definition defined_outcome {A} (o : outcome A) : Prop := match o with Undefined _ => False | _ => True end.

(* the program follows [o]: [R] is for the last store *)
Definition sim {X Y} (n : nat) (s : store) (m : prog (outcome X)) (o : outcome Y) (R : store -> X -> Y -> Prop) : Prop :=
  defined_outcome o -> grows n s (fst (play s m)) /\ agree (R (fst (play s m))) (snd (play s m)) o.

Lemma sim_ret {X Y} n s (r : outcome X) (o : outcome Y) (R : store -> X -> Y -> Prop) : agree (R s) r o -> sim n s (Ret r) o R.
Proof. intros H _. split; [apply grows_refl|exact H]. Qed.

Lemma sim_or_drop {X Y X' Y'} n s own (m : prog (outcome X)) (o : outcome Y) (k : X -> prog (outcome X')) (k' : Y -> outcome Y')
    (R : store -> X -> Y -> Prop) (Q : store -> X' -> Y' -> Prop) :
  sim n s m o R -> (forall s' x y, grows n s s' -> o = Ok y -> R s' x y -> sim n s' (k x) (k' y) Q) -> sim n s (or_drop own m k) (bind o k') Q.
Proof.
  intros Hm Hk Hd. unfold or_drop. rewrite play_bindp. unfold sim in Hm. destruct (play s m) as [s' r]. cbn [fst snd] in Hm.
  destruct o as [y|e|message|reason]; cbn [bind] in *; [|..|destruct Hd]; destruct Hm as [Hg Ha]; try exact I; cbn [agree] in Ha.
  - destruct Ha as (x & -> & HR). destruct (Hk s' x y Hg eq_refl HR Hd) as [Hg' Ha']. split; [|exact Ha']. eapply grows_trans; eauto.
  - subst r. rewrite play_then_fail. split; [exact Hg|reflexivity].
  - subst r. rewrite play_then_fail. split; [exact Hg|reflexivity].
Qed.

Lemma sim_pure {X X' Y'} n s own (o : outcome X) (k : X -> prog (outcome X')) (k' : X -> outcome Y') (Q : store -> X' -> Y' -> Prop) :
  (forall x, o = Ok x -> sim n s (k x) (k' x) Q) -> sim n s (or_drop own (Ret o) k) (bind o k') Q.
Proof.
  intros Hk Hd. unfold or_drop. cbn [bindp]. destruct o as [y|e|message|reason]; cbn [bind] in *; [apply Hk; auto|..|destruct Hd];
    rewrite play_then_fail; (split; [apply grows_refl|reflexivity]).
Qed.

(* the same outcome, computed with the arrays themselves *)
Lemma sim_eq {X Y} n s (m : prog (outcome X)) (o o' : outcome Y) R : o = o' -> sim n s m o R -> sim n s m o' R.
Proof. intros ->. auto. Qed.

Lemma sim_weaken {X Y} n s (m : prog (outcome X)) (o : outcome Y) (R Q : store -> X -> Y -> Prop) :
  (forall s' x y, grows n s s' -> R s' x y -> Q s' x y) -> sim n s m o R -> sim n s m o Q.
Proof.
  intros H Hm Hd. destruct (Hm Hd) as [Hg Ha]. split; [exact Hg|]. destruct o; cbn [agree] in *; try exact Ha.
  destruct Ha as (x & E & HR). exists x. split; [exact E|]. apply H; assumption.
Qed.

Lemma sim_expect {X Y} n s message (m : prog (outcome X)) (o : outcome Y) R : sim n s m o R -> sim n s (expectp message m) (expect message o) R.
Proof.
  intros Hm Hd. unfold expectp. rewrite play_bindp. unfold sim in Hm. destruct (play s m) as [s' r]. cbn [fst snd play] in *.
  destruct o as [y|e|m'|reason]; cbn [expect] in *; [|..|destruct Hd]; destruct (Hm I) as [Hg Ha]; cbn [agree] in Ha.
  - destruct Ha as (x & -> & HR). split; [exact Hg|]. exists x. auto.
  - subst r. split; [exact Hg|]. reflexivity.
  - subst r. split; [exact Hg|]. reflexivity.
Qed.

(** * Calls *)

(* what the functions of Array.v can answer *)
Definition proper {A} (op : array_op) (o : outcome A) : Prop :=
  match o with
  | Ok _ | Undefined _ => True
  | Err e => exists status, (status =? 0)%Z = false /\ Err (A := A) e = callback_error op status
  | Panic message => message = "eqs_array_t." +++ op_name op +++ " function is NULL"
  end.

Lemma proper_call {A} a op (body : outcome A) : proper op body -> proper op (Array.call a op body).
Proof.
  intros H. unfold Array.call. destruct (a_kind a); try exact H. destruct (a_callbacks a op) as [| |status]; [exact H|reflexivity|].
  destruct (status =? 0)%Z eqn:E; [exact H|]. exists status. auto.
Qed.

Lemma proper_error {A} op status : (status =? 0)%Z = false -> proper op (callback_error (A := A) op status).
Proof. intros H. exists status. auto. Qed.

Ltac proper_tac := repeat first
  [ exact I | reflexivity | apply proper_call | apply proper_error; reflexivity
  | match goal with |- proper _ (match ?x with _ => _ end) => destruct x eqn:? end
  | match goal with |- proper _ (if ?x then _ else _) => destruct x eqn:? end ].

Lemma proper_origin a : proper OpOrigin (array_origin a).
Proof. unfold array_origin. proper_tac. Qed.
Lemma proper_shape a : proper OpShape (array_shape a).
Proof. unfold array_shape. proper_tac. Qed.
Lemma proper_create a shape : proper OpCreate (array_create a shape).
Proof. unfold array_create. proper_tac. Qed.
Lemma proper_move output input samples start stop : proper OpMoveSamples (array_move_samples_from output input samples start stop).
Proof. unfold array_move_samples_from. proper_tac. Qed.

Lemma sim_ask {X Y} n s c op (value : answer -> X) (o : outcome Y) R :
  proper op o ->
  (forall y, o = Ok y -> let '(s', an) := respond s c in grows n s s' /\ an_null an = false /\ an_status an = 0%Z /\ R s' (value an) y) ->
  ((forall y, o <> Ok y) -> respond s c = (s, answer_of o)) ->
  sim n s (ask c op value) o R.
Proof.
  intros Hp Hok Hko Hd. unfold ask. cbn [play].
  destruct o as [y|e|message|reason]; cbn [proper agree] in *.
  - specialize (Hok y eq_refl). destruct (respond s c) as [s' an]. destruct Hok as (Hg & -> & -> & HR). cbn. split; [exact Hg|]. eauto.
  - rewrite Hko by discriminate. destruct Hp as (status & Hs & E). injection E as ->. cbn. rewrite Hs. split; [apply grows_refl|reflexivity].
  - rewrite Hko by discriminate. cbn. rewrite Hp. split; [apply grows_refl|reflexivity].
  - destruct Hd.
Qed.

Lemma sim_shape n s a : sim n s (p_shape a) (array_shape (s_array s a)) (fun s' x y => s' = s /\ x = y).
Proof.
  apply sim_ask; [apply proper_shape| |].
  - intros y E. cbn [respond]. rewrite E. split; [apply grows_refl|auto].
  - intros H. cbn [respond]. destruct (array_shape (s_array s a)); [exfalso; eapply H; reflexivity|reflexivity..].
Qed.

Lemma sim_origin n s a : sim n s (p_origin a) (array_origin (s_array s a)) (fun s' x y => s' = s /\ x = origin_of y).
Proof.
  apply sim_ask; [apply proper_origin| |].
  - intros y E. cbn [respond]. rewrite E. split; [apply grows_refl|auto].
  - intros H. cbn [respond]. destruct (array_origin (s_array s a)); [exfalso; eapply H; reflexivity|reflexivity..].
Qed.

Lemma sim_create n s a shape : n <= s_next s ->
  sim n s (p_create a shape) (array_create (s_array s a) shape) (fun s' x y => x = s_next s /\ s_array s' x = y /\ s_next s' = S x /\ grows (s_next s) s s').
Proof.
  intros Hn. apply sim_ask; [apply proper_create| |].
  - intros y E. cbn [respond]. rewrite E. cbn. rewrite Nat.eqb_refl.
    assert (Hg : grows (s_next s) s {| s_array := fun b : nat => if s_next s =? b then y else s_array s b; s_next := S (s_next s) |}).
    { split; cbn; [lia|]. intros b Hb. destruct (Nat.eqb_spec (s_next s) b); [lia|reflexivity]. }
    split; [eapply grows_less; eauto|]. repeat (split; [reflexivity|]). exact Hg.
  - intros H. cbn [respond]. destruct (array_create (s_array s a) shape); [exfalso; eapply H; reflexivity|reflexivity..].
Qed.

Lemma sim_move n s output input samples start stop : n <= output ->
  sim n s (p_move output input samples start stop) (array_move_samples_from (s_array s output) (s_array s input) samples start stop)
    (fun s' _ y => s_array s' output = y /\ (forall b, b <> output -> s_array s' b = s_array s b) /\ s_next s' = s_next s).
Proof.
  intros Hn. apply sim_ask; [apply proper_move| |].
  - intros y E. cbn [respond]. rewrite E. cbn. rewrite Nat.eqb_refl. split; [split; cbn; [lia|]|split; [reflexivity|split; [reflexivity|split; [reflexivity|split; [|reflexivity]]]]].
    + intros b Hb. destruct (Nat.eqb_spec output b); [lia|reflexivity].
    + intros b Hb. destruct (Nat.eqb_spec output b); [congruence|reflexivity].
  - intros H. cbn [respond]. destruct (array_move_samples_from _ _ _ _ _); [exfalso; eapply H; reflexivity|reflexivity..].
Qed.

(** * Blocks *)

Lemma check_shaped context a samples components properties :
  check_data_and_labels context a samples components properties
  = (let? shape := array_shape a in check_data_and_labels context (shaped shape) samples components properties).
Proof. unfold check_data_and_labels. destruct (array_shape a); reflexivity. Qed.

Definition anything {X Y} (_ : store) (_ : X) (_ : Y) : Prop := True.

Lemma agree_refl {X} (R : X -> X -> Prop) o : (forall x, R x x) -> agree R o o.
Proof. intros H. destruct o; cbn; eauto. Qed.

Definition still {X Y} (s0 s : store) (_ : X) (_ : Y) : Prop := s = s0.

Lemma sim_check n s context a samples components properties :
  sim n s (p_check context a samples components properties) (check_data_and_labels context (s_array s a) samples components properties) (still s).
Proof.
  rewrite check_shaped. unfold p_check. unfold p_shape, ask, or_drop. cbn [bindp respond]. intros Hd. cbn [play respond].
  pose proof (proper_shape (s_array s a)) as Hp.
  destruct (array_shape (s_array s a)) as [shape|e|message|reason]; cbn [bind proper] in *.
  - cbn. split; [apply grows_refl|]. apply agree_refl. reflexivity.
  - destruct Hp as (status & Hs & E). injection E as ->. cbn [play answer_of an_null an_status]. rewrite Hs. cbn. split; [apply grows_refl|reflexivity].
  - cbn. rewrite Hp. split; [apply grows_refl|reflexivity].
  - destruct Hd.
Qed.

Lemma see_new s a samples components properties :
  see_block s (mk_block (mk_basic (pointer a) samples components properties) [] []) = mk_block (mk_basic (s_array s a) samples components properties) [] [].
Proof. reflexivity. Qed.

Lemma sim_block_new n s a samples components properties :
  sim n s (p_block_new a samples components properties) (tensor_block_new (s_array s a) samples components properties)
    (fun s' x y => s' = s /\ see_block s x = y /\ block_arrays x = [a]).
Proof.
  unfold p_block_new, tensor_block_new, basic_block_new. rewrite bind_assoc.
  eapply sim_or_drop; [apply sim_check|]. intros s' [] [] _ _ ->. rewrite bind_assoc. apply sim_pure. intros [] _.
  cbn [bind]. apply sim_ret. cbn. eexists. split; [reflexivity|]. auto.
Qed.

Lemma see_contains s b parameter : hm_contains String.eqb (tb_gradients (see_block s b)) parameter = hm_contains String.eqb (tb_gradients b) parameter.
Proof.
  unfold hm_contains. cbn [see_block tb_gradients]. rewrite (hm_get_map String.eqb). destruct (hm_get _ _ _); reflexivity.
Qed.

Lemma origin_eqb k1 k2 : (origin_of k1 =? origin_of k2) = kind_eqb k1 k2.
Proof. destruct k1, k2; cbn; try reflexivity; apply Nat.eqb_neq; discriminate. Qed.

Lemma sim_same_origin n s b a : sim n s (p_same_origin b a)
  (let? origin := array_origin (s_array s a) in
   let? values_origin := array_origin (s_array s (data_of (tb_values b))) in
   if negb (kind_eqb origin values_origin) then
     Err (InvalidParameter "the gradient array has a different origin than the value array")
   else Ok tt) (still s).
Proof.
  unfold p_same_origin. eapply sim_or_drop; [apply sim_origin|]. intros s1 o1 k1 _ E1 [-> ->].
  eapply sim_or_drop; [apply sim_origin|]. intros s2 o2 k2 _ E2 [-> ->]. rewrite origin_eqb. destruct (negb _); [|apply sim_ret; cbn; eexists; split; reflexivity].
  match goal with |- sim _ _ _ ?o _ => apply (sim_eq _ _ _ (let? _ := array_origin (s_array s a) in let? _ := array_origin (s_array s (data_of (tb_values b))) in o)) end.
  { rewrite E1, E2. reflexivity. }
  eapply sim_or_drop; [apply sim_origin|]. intros s1 o1 k1' _ _ [-> _].
  eapply sim_or_drop; [apply sim_origin|]. intros s2 o2 k2' _ _ [-> _]. apply sim_ret. reflexivity.
Qed.

Lemma sim_check_gradient n s b parameter a samples components :
  sim n s (p_check_gradient b parameter a samples components) (check_gradient (see_block s b) parameter (s_array s a) samples components) (still s).
Proof.
  unfold p_check_gradient, check_gradient. rewrite see_contains. destruct (hm_contains _ _ _); [apply sim_ret; reflexivity|].
  cbn [see_block tb_values see_basic bb_data bb_components bb_properties].
  match goal with |- sim _ _ _ (let? o1 := _ in let? o2 := _ in if _ then ?e else ?rest) _ =>
    apply (sim_eq _ _ _ (let? _ := (let? origin := array_origin (s_array s a) in
      let? values_origin := array_origin (s_array s (data_of (tb_values b))) in if negb (kind_eqb origin values_origin) then e else Ok tt) in rest)) end.
  { destruct (array_origin (s_array s a)) as [k1| | |]; cbn [bind]; try reflexivity.
    destruct (array_origin (s_array s (data_of (tb_values b)))) as [k2| | |]; cbn [bind]; try reflexivity. destruct (negb _); reflexivity. }
  eapply sim_or_drop; [apply sim_same_origin|]. intros s1 [] [] _ _ ->.
  destruct (String.eqb parameter "values"); [apply sim_ret; reflexivity|].
  destruct (_ || _)%bool; [apply sim_ret; reflexivity|].
  apply sim_pure. intros [] _. cbv zeta. destruct (_ <? _); [apply sim_ret; reflexivity|].
  apply sim_pure. intros [] _. apply sim_check.
Qed.

Lemma see_inserted s b parameter a samples components properties parameters :
  see_block s (mk_block (tb_values b) (hm_insert_new (tb_gradients b) parameter (mk_basic (pointer a) samples components properties)) parameters)
  = mk_block (see_basic s (tb_values b)) (hm_insert_new (tb_gradients (see_block s b)) parameter (mk_basic (s_array s a) samples components properties)) parameters.
Proof. unfold see_block, hm_insert_new. cbn [tb_values tb_gradients tb_gradient_parameters]. rewrite map_app. reflexivity. Qed.

Lemma sim_add_merged n s b parameter a samples components :
  sim n s (p_add_merged_gradient b parameter a samples components) (add_merged_gradient (see_block s b) parameter (s_array s a) samples components)
    (fun s' x y => s' = s /\ see_block s x = y /\ incl (block_arrays x) (a :: block_arrays b)).
Proof.
  intros Hd. unfold p_add_merged_gradient, add_merged_gradient, p_add_gradient, tensor_block_add_gradient in *.
  rewrite !play_bindp. pose proof (sim_check_gradient n s b parameter a samples components) as Hc. unfold sim in Hc.
  destruct (play s (p_check_gradient b parameter a samples components)) as [s1 r]. cbn [fst snd] in Hc.
  destruct (check_gradient (see_block s b) parameter (s_array s a) samples components) as [[]|e|message|reason]; cbn [bind expect] in Hd; [|..|destruct Hd];
    destruct (Hc I) as [Hg Ha]; cbn [agree] in Ha.
  - destruct Ha as (x & -> & Hs). unfold still in Hs. subst s1. cbv zeta. destruct (cstring_new parameter) as [c|]; cbn [play].
    + unfold or_drop. cbn [expect bindp play fst snd]. split; [apply grows_refl|]. cbn [bind agree]. eexists. split; [reflexivity|].
      split; [reflexivity|]. split; [rewrite see_inserted; reflexivity|].
      intros x' Hx. eapply Permutation.Permutation_in; [apply Permutation.Permutation_sym; apply (inserted_arrays b parameter a)|exact Hx].
    + unfold or_drop. cbn [expect bindp]. rewrite play_then_fail. cbn [fst snd]. split; [apply grows_refl|]. reflexivity.
  - subst r. rewrite play_bindp, play_drop. cbn [play]. unfold or_drop. cbn [expect bindp]. rewrite play_then_fail. cbn [fst snd]. split; [exact Hg|]. reflexivity.
  - subst r. rewrite play_bindp, play_drop. cbn [play]. unfold or_drop. cbn [expect bindp]. rewrite play_then_fail. cbn [fst snd]. split; [exact Hg|]. reflexivity.
Qed.

(** * Loops *)

Definition only (out : nat) (s s' : store) : Prop := (forall b, b <> out -> s_array s' b = s_array s b) /\ s_next s' = s_next s.

Lemma only_refl out s : only out s s.
Proof. split; auto. Qed.
Lemma only_trans out s1 s2 s3 : only out s1 s2 -> only out s2 s3 -> only out s1 s3.
Proof. intros [H1 N1] [H2 N2]. split; [|congruence]. intros b Hb. rewrite H2, H1 by exact Hb. reflexivity. Qed.

Lemma sim_each {A} n out (f : A -> prog (outcome unit)) (g : eqs_array -> A -> outcome eqs_array) l : forall s,
  (forall s' x, In x l -> only out s s' -> grows n s s' -> sim n s' (f x) (g (s_array s' out) x) (fun s'' _ y => s_array s'' out = y /\ only out s' s'')) ->
  sim n s (each f l) (foldM g l (s_array s out)) (fun s'' _ y => s_array s'' out = y /\ only out s s'').
Proof.
  induction l as [|x l IH]; intros s H; cbn [each foldM].
  - apply sim_ret. cbn. exists tt. split; [reflexivity|]. split; [reflexivity|apply only_refl].
  - eapply sim_or_drop; [apply H; [left; reflexivity|apply only_refl|apply grows_refl]|]. intros s' [] y Hg _ [<- Ho].
    eapply sim_weaken; [|apply IH].
    + intros s'' u y' _ [E Ho']. split; [exact E|]. eapply only_trans; eauto.
    + intros s'' x' Hin Ho' Hg'. apply H; [right; exact Hin|eapply only_trans; eauto|eapply grows_trans; eauto].
Qed.

Definition inside (s : store) (b : TensorBlock) : Prop := Forall (fun a => a < s_next s) (block_arrays b).

Lemma see_basic_same s s' b : s_array s' (data_of b) = s_array s (data_of b) -> see_basic s' b = see_basic s b.
Proof. intros H. unfold see_basic. rewrite H. reflexivity. Qed.

Lemma see_same n s s' b : grows n s s' -> Forall (fun a => a < n) (block_arrays b) -> see_block s' b = see_block s b.
Proof.
  intros [_ H] Hb. unfold block_arrays in Hb. inversion Hb as [|? ? H1 H2]; subst. unfold see_block. f_equal.
  - apply see_basic_same. apply H, H1.
  - apply map_ext_in. intros [q g] Hin. cbn [fst snd]. f_equal. apply see_basic_same. apply H.
    rewrite Forall_forall in H2. apply (H2 (data_of g)). apply (in_map (fun pg => data_of (snd pg)) _ _ Hin).
Qed.

Lemma sim_each_gradient {A} n (f : TensorBlock -> A -> prog (outcome TensorBlock)) (g : TensorBlock -> A -> outcome TensorBlock) l : forall s b,
  inside s b ->
  (forall s' b x, In x l -> grows n s s' -> inside s' b ->
     sim n s' (f b x) (g (see_block s' b) x) (fun s'' b' y => see_block s'' b' = y /\ inside s'' b')) ->
  sim n s (each_gradient f l b) (foldM g l (see_block s b)) (fun s'' b' y => see_block s'' b' = y /\ inside s'' b').
Proof.
  induction l as [|x l IH]; intros s b Hb H; cbn [each_gradient foldM].
  - apply sim_ret. cbn. exists b. auto.
  - eapply sim_or_drop; [apply H; [left; reflexivity|apply grows_refl|exact Hb]|]. intros s' b' y Hg _ [<- Hb'].
    apply IH; [exact Hb'|]. intros s'' b2 x' Hin Hg' Hb2. apply H; [right; exact Hin|eapply grows_trans; eauto|exact Hb2].
Qed.

(** * Only labels are used *)

Definition see_kb (s : store) (kb : KeyAndBlock) : KeyAndBlock := (fst kb, see_block s (snd kb)).

Lemma combine_see {B} s (blocks : list KeyAndBlock) : forall (l : list B),
  combine (map (see_kb s) blocks) l = map (fun x => (see_kb s (fst x), snd x)) (combine blocks l).
Proof. induction blocks as [|kb blocks IH]; intros [|y l]; cbn [map combine]; try reflexivity. rewrite IH. reflexivity. Qed.

Lemma combine_seen {B C} (f : B -> B) (l : list (B * C)) : forall (l2 : list (option (nat * nat))),
  combine (map (fun x => (f (fst x), snd x)) l) l2 = map (fun x => ((f (fst (fst x)), snd (fst x)), snd x)) (combine l l2).
Proof. induction l as [|x l IH]; intros [|y l2]; cbn [map combine]; try reflexivity. rewrite IH. reflexivity. Qed.

Lemma see_check_samples s first blocks :
  check_same_labels_for_samples (see_basic s first) (map (see_kb s) blocks) = check_same_labels_for_samples first blocks.
Proof. induction blocks as [|[k b] blocks IH]; cbn [map see_kb fst snd check_same_labels_for_samples]; [reflexivity|]. rewrite IH. reflexivity. Qed.

Lemma see_check_properties s first has blocks :
  check_same_labels_for_properties (see_basic s first) has (map (see_kb s) blocks) = check_same_labels_for_properties first has blocks.
Proof. induction blocks as [|[k b] blocks IH]; cbn [map see_kb fst snd check_same_labels_for_properties]; [reflexivity|]. rewrite IH. reflexivity. Qed.

Lemma mapM_see {B} s (f : KeyAndBlock -> outcome B) blocks : (forall kb, f (see_kb s kb) = f kb) -> mapM f (map (see_kb s) blocks) = mapM f blocks.
Proof. intros H. induction blocks as [|kb blocks IH]; cbn [map mapM]; [reflexivity|]. rewrite H, IH. reflexivity. Qed.

Lemma see_merge_samples s blocks names sort : merge_samples (map (see_kb s) blocks) names sort = merge_samples blocks names sort.
Proof.
  destruct blocks as [|kb blocks]; [reflexivity|]. unfold merge_samples. cbn [map]. cbn [index_slice nth_error]. cbn [bind].
  change (mapM ?f (see_kb s kb :: map (see_kb s) blocks)) with (mapM f (map (see_kb s) (kb :: blocks))).
  cbn [see_kb snd see_block tb_values see_basic bb_samples]. rewrite mapM_see; [reflexivity|]. intros [k b]. reflexivity.
Qed.

Lemma see_gradient s b parameter : tensor_block_gradient (see_block s b) parameter = option_map (see_basic s) (tensor_block_gradient b parameter).
Proof. unfold tensor_block_gradient. cbn [see_block tb_gradients]. apply (hm_get_map String.eqb). Qed.

Lemma see_merge_gradient_samples s p blocks name mappings :
  merge_gradient_samples p (map (see_kb s) blocks) name mappings = merge_gradient_samples p blocks name mappings.
Proof.
  unfold merge_gradient_samples. rewrite combine_see, foldM_map. f_equal. apply foldM_ext. intros [names set] [[k b] mapping] _.
  cbn [fst snd see_kb]. rewrite see_gradient. destruct (tensor_block_gradient b name); reflexivity.
Qed.

Lemma see_merged_properties s first keys blocks : merged_properties (see_basic s first) keys (map (see_kb s) blocks) = merged_properties first keys blocks.
Proof. unfold merged_properties, blocks_properties. rewrite mapM_see; [reflexivity|]. intros [k b]. reflexivity. Qed.

Lemma see_property_range s properties blocks : mapM (property_range properties) (map (see_kb s) blocks) = mapM (property_range properties) blocks.
Proof. apply mapM_see. intros [k b]. reflexivity. Qed.

(** * Merging *)

Definition below (n : nat) (blocks : list KeyAndBlock) : Prop := Forall (fun kb => Forall (fun a => a < n) (block_arrays (snd kb))) blocks.

Lemma below_values n blocks k b : below n blocks -> In (k, b) blocks -> data_of (tb_values b) < n.
Proof. unfold below. rewrite Forall_forall. intros H Hin. specialize (H _ Hin). inversion H; assumption. Qed.

Lemma below_gradient n blocks k b parameter g : below n blocks -> In (k, b) blocks -> tensor_block_gradient b parameter = Some g -> data_of g < n.
Proof.
  unfold below. rewrite Forall_forall. intros H Hin Hg. specialize (H _ Hin). rewrite Forall_forall in H. apply H. eapply gradient_array; eauto.
Qed.

Lemma sim_move_gradient n s s0 p parameter components samples b mapping start stop out : n <= out -> grows n s0 s ->
  (forall g, tensor_block_gradient b parameter = Some g -> data_of g < n) ->
  sim n s (p_move_gradient p parameter components samples b mapping start stop out)
    (move_gradient p parameter components samples (see_block s0 b) mapping start stop (s_array s out))
    (fun s'' _ y => s_array s'' out = y /\ only out s s'').
Proof.
  intros Hn Hg Hb. unfold p_move_gradient, move_gradient. rewrite see_gradient.
  destruct (tensor_block_gradient b parameter) as [g|]; [|unfold or_drop; cbn; apply sim_ret; reflexivity].
  cbn [option_map expect_some]. specialize (Hb g eq_refl). cbn [bind]. unfold or_drop at 1. cbn [bindp].
  cbn [see_basic bb_components bb_samples bb_data]. do 3 (apply sim_pure; intros ? _).
  rewrite <- (proj2 Hg _ Hb). eapply sim_weaken; [|apply sim_move; exact Hn]. cbv beta. intros s'' u y _ (E & H1 & H2). split; [exact E|split; assumption].
Qed.

Lemma sim_less {X Y} n n' s (m : prog (outcome X)) (o : outcome Y) R : n' <= n -> sim n s m o R -> sim n' s m o R.
Proof. intros Hn H Hd. destruct (H Hd) as [Hg Ha]. split; [eapply grows_less; eauto|exact Ha]. Qed.

Lemma only_grows out n s s' : n <= out -> only out s s' -> grows n s s'.
Proof. intros Hn [H1 H2]. split; [lia|]. intros a Ha. apply H1. lia. Qed.

Definition merged_to (s' : store) (x y : TensorBlock) : Prop := see_block s' x = y /\ inside s' x.

Lemma inside_grows s s' b : s_next s <= s_next s' -> inside s b -> inside s' b.
Proof. intros Hn. apply Forall_impl. intros a Ha. lia. Qed.

(* the last steps for a gradient: create, move, and add it to the block *)
Lemma sim_finish_gradient {A} n s s0 first nb parameter samples components shape (f : nat -> A -> prog (outcome unit)) g l :
  n <= s_next s -> grows n s0 s -> first < n -> inside s nb ->
  (forall s' out x, In x l -> n <= out -> grows n s0 s' -> sim n s' (f out x) (g (s_array s' out) x) (fun s'' _ y => s_array s'' out = y /\ only out s' s'')) ->
  sim n s
    (let! new_gradient := p_create first shape dropping block_arrays nb in
     let! _ := each (f new_gradient) l dropping new_gradient :: block_arrays nb in
     p_add_merged_gradient nb parameter new_gradient samples components)
    (let? new_gradient := array_create (s_array s0 first) shape in
     let? new_gradient := foldM g l new_gradient in
     add_merged_gradient (see_block s nb) parameter new_gradient samples components) merged_to.
Proof.
  intros Hn Hg Hf Hnb Hm. rewrite <- (proj2 Hg _ Hf).
  eapply sim_or_drop; [apply sim_create; exact Hn|]. intros s1 x y Hg1 _ (-> & <- & Hnext & Hg1').
  eapply sim_or_drop; [apply sim_each|].
  { intros s' y Hin Ho Hg'. apply Hm; [exact Hin|lia|eapply grows_trans; [exact Hg|]; eapply grows_trans; eauto]. }
  intros s2 [] y Hg2 _ [<- Ho].
  assert (E : see_block s2 nb = see_block s nb).
  { apply (see_same (s_next s)); [|exact Hnb]. eapply grows_trans; [exact Hg1'|]. apply (only_grows (s_next s)); [lia|exact Ho]. }
  rewrite <- E. eapply sim_weaken; [|apply sim_add_merged]. intros s3 x y _ (-> & Hs & Hi). split; [exact Hs|].
  apply Forall_forall. intros a Ha. apply Hi in Ha. destruct Ho as [_ Ho]. rewrite Ho, Hnext. destruct Ha as [<-|Ha]; [lia|].
  unfold inside in Hnb. rewrite Forall_forall in Hnb. specialize (Hnb _ Ha). lia.
Qed.

Lemma sim_merge_samples n s p blocks names sort : below n blocks -> n <= s_next s ->
  sim n s (p_merge_blocks_along_samples p blocks names sort) (merge_blocks_along_samples p (map (see_kb s) blocks) names sort) merged_to.
Proof.
  intros Hb Hn. destruct blocks as [|[key first] blocks]; [apply sim_ret; reflexivity|].
  unfold p_merge_blocks_along_samples, merge_blocks_along_samples. cbn [map see_kb fst snd].
  assert (Hin : In (key, first) ((key, first) :: blocks)) by (left; reflexivity).
  remember (see_kb s (key, first) :: map (see_kb s) blocks) as seen eqn:Es.
  change (see_kb s (key, first) :: map (see_kb s) blocks) with (map (see_kb s) ((key, first) :: blocks)) in Es.
  pose (all := ((key, first) :: blocks) : list KeyAndBlock). change ((key, first) :: blocks) with all in Hb, Hin, Es |- *. clearbody all. subst seen. cbv zeta. cbn [see_block tb_values tb_gradients].
  assert (Hv := below_values _ _ _ _ Hb Hin).
  rewrite see_check_samples, see_merge_samples. cbn [see_basic bb_data bb_components bb_properties bb_samples].
  apply sim_pure. intros _ _. apply sim_pure. intros [merged mappings] _.
  eapply sim_or_drop; [apply sim_shape|]. intros s1 shape ? _ _ [-> <-].
  do 2 (apply sim_pure; intros ? _).
  eapply sim_or_drop; [apply sim_create; exact Hn|]. intros s1 new y Hg1 _ (-> & <- & Hnext & Hg1').
  apply sim_pure. intros n_properties _. rewrite combine_see, foldM_map.
  eapply sim_or_drop; [apply sim_each|].
  { intros s' [[k b] mapping] Hin' Ho Hg'. cbn [fst snd see_kb see_block tb_values see_basic bb_data]. apply in_combine_l in Hin'.
    assert (Hv' := below_values _ _ _ _ Hb Hin').
    assert (Hgs : grows n s s') by (eapply grows_trans; eauto).
    rewrite <- (proj2 Hgs _ Hv'). eapply sim_weaken; [|apply sim_move; exact Hn].
    cbv beta. intros s'' u y _ (E & H1 & H2). split; [exact E|split; assumption]. }
  intros s2 [] y Hg2 _ [<- Ho].
  eapply sim_or_drop; [apply sim_expect; apply sim_block_new|]. intros s3 nb y _ _ (-> & <- & Hnb).
  assert (Hg : grows n s s2) by (eapply grows_trans; eauto).
  rewrite foldM_map. apply sim_each_gradient.
  { unfold inside. rewrite Hnb. constructor; [|constructor]. destruct Ho as [_ Ho]. lia. }
  clear nb Hnb. intros s3 nb [parameter g] Hing Hg3 Hnb. cbn [fst snd]. rewrite see_merge_gradient_samples.
  cbn [see_basic bb_data bb_components].
  assert (Hgs : grows n s s3) by (eapply grows_trans; eauto).
  assert (Hgr : data_of g < n).
  { unfold below in Hb. rewrite Forall_forall in Hb. specialize (Hb _ Hin). rewrite Forall_forall in Hb. apply Hb. right.
    apply (in_map (fun pg => data_of (snd pg)) _ _ Hing). }
  apply sim_pure. intros samples _. rewrite <- (proj2 Hgs _ Hgr).
  eapply sim_or_drop; [apply sim_shape|]. intros s4 shape2 ? _ _ [-> <-].
  apply sim_pure. intros n_g _. apply sim_pure. intros gshape _.
  match goal with |- sim n s3 (or_drop _ _ (fun ng => or_drop _ (each _ ?l) _)) (let? x := _ in let? y := foldM ?f (map ?h _) x in _) _ =>
    apply (sim_eq _ _ _ (let? ng := array_create (s_array s (data_of (tb_values first))) gshape in
       let? ng := foldM (fun o kbm => f o (h kbm)) l ng in add_merged_gradient (see_block s3 nb) parameter ng samples (bb_components g))) end.
  { destruct (array_create _ _); cbn [bind]; [|reflexivity..]. rewrite foldM_map. reflexivity. }
  apply (sim_finish_gradient n s3 s (data_of (tb_values first)) nb parameter samples (bb_components g) gshape
    (fun ng kbm => let '((_, block), samples_mapping) := kbm in
       p_move_gradient p parameter (bb_components g) samples block samples_mapping 0 n_properties ng)); try assumption.
  { destruct Hgs as [Hgs _]. lia. }
  intros s' out [[k b] mapping] Hin' Hout Hg'. cbn [fst snd see_kb]. apply in_combine_l in Hin'.
  apply sim_move_gradient; [exact Hout|exact Hg'|]. intros g' Hg''. eapply below_gradient; eauto.
Qed.

Lemma sim_merge_properties n s p blocks keys names sort : below n blocks -> n <= s_next s ->
  sim n s (p_merge_blocks_along_properties p blocks keys names sort) (merge_blocks_along_properties p (map (see_kb s) blocks) keys names sort) merged_to.
Proof.
  intros Hb Hn. destruct blocks as [|[key first] blocks]; [apply sim_ret; reflexivity|].
  unfold p_merge_blocks_along_properties, merge_blocks_along_properties. cbn [map see_kb fst snd].
  assert (Hin : In (key, first) ((key, first) :: blocks)) by (left; reflexivity).
  remember (see_kb s (key, first) :: map (see_kb s) blocks) as seen eqn:Es.
  change (see_kb s (key, first) :: map (see_kb s) blocks) with (map (see_kb s) ((key, first) :: blocks)) in Es.
  pose (all := ((key, first) :: blocks) : list KeyAndBlock). change ((key, first) :: blocks) with all in Hb, Hin, Es |- *. clearbody all. subst seen. cbv zeta. cbn [see_block tb_values tb_gradients].
  assert (Hv := below_values _ _ _ _ Hb Hin).
  rewrite see_check_properties, see_merge_samples, see_merged_properties. cbn [see_basic bb_data bb_components bb_properties bb_samples].
  apply sim_pure. intros _ _. apply sim_pure. intros [merged mappings] _.
  apply sim_pure. intros rows _. apply sim_pure. intros new_properties _. apply sim_pure. intros count _.
  eapply sim_or_drop; [apply sim_shape|]. intros s1 shape ? _ _ [-> <-].
  do 3 (apply sim_pure; intros ? _).
  eapply sim_or_drop; [apply sim_create; exact Hn|]. intros s1 new y Hg1 _ (-> & <- & Hnext & Hg1').
  rewrite see_property_range. apply sim_pure. intros ranges _. rewrite combine_see, combine_seen, foldM_map.
  eapply sim_or_drop; [apply sim_each|].
  { intros s' [[[k b] mapping] range] Hin' Ho Hg'. cbn [fst snd see_kb see_block tb_values see_basic bb_data]. apply in_combine_l in Hin'. apply in_combine_l in Hin'.
    destruct range as [[start stop]|]; [|apply sim_ret; cbn; exists tt; split; [reflexivity|]; split; [reflexivity|apply only_refl]].
    assert (Hv' := below_values _ _ _ _ Hb Hin').
    assert (Hgs : grows n s s') by (eapply grows_trans; eauto).
    rewrite <- (proj2 Hgs _ Hv'). eapply sim_weaken; [|apply sim_move; exact Hn].
    cbv beta. intros s'' u y _ (E & H1 & H2). split; [exact E|split; assumption]. }
  intros s2 [] y Hg2 _ [<- Ho].
  eapply sim_or_drop; [apply sim_expect; apply sim_block_new|]. intros s3 nb y _ _ (-> & <- & Hnb).
  assert (Hg : grows n s s2) by (eapply grows_trans; eauto).
  rewrite foldM_map. apply sim_each_gradient.
  { unfold inside. rewrite Hnb. constructor; [|constructor]. destruct Ho as [_ Ho]. lia. }
  clear nb Hnb. intros s3 nb [parameter g] Hing Hg3 Hnb. cbn [fst snd]. rewrite see_merge_gradient_samples.
  cbn [see_basic bb_data bb_components].
  assert (Hgs : grows n s s3) by (eapply grows_trans; eauto).
  assert (Hgr : data_of g < n).
  { unfold below in Hb. rewrite Forall_forall in Hb. specialize (Hb _ Hin). rewrite Forall_forall in Hb. apply Hb. right.
    apply (in_map (fun pg => data_of (snd pg)) _ _ Hing). }
  apply sim_pure. intros samples _. rewrite <- (proj2 Hgs _ Hgr).
  eapply sim_or_drop; [apply sim_shape|]. intros s4 shape2 ? _ _ [-> <-].
  apply sim_pure. intros n_g _. apply sim_pure. intros gshape0 _. apply sim_pure. intros gshape _.
  match goal with |- sim n s3 (or_drop _ _ (fun ng => or_drop _ (each _ ?l) _)) (let? x := _ in let? y := foldM ?f (map ?h _) x in _) _ =>
    apply (sim_eq _ _ _ (let? ng := array_create (s_array s (data_of (tb_values first))) gshape in
       let? ng := foldM (fun o kbm => f o (h kbm)) l ng in add_merged_gradient (see_block s3 nb) parameter ng samples (bb_components g))) end.
  { destruct (array_create _ _); cbn [bind]; [|reflexivity..]. rewrite foldM_map. reflexivity. }
  apply (sim_finish_gradient n s3 s (data_of (tb_values first)) nb parameter samples (bb_components g) gshape
    (fun ng kbm => let '(((_, block), samples_mapping), range) := kbm in
       match range with
       | Some (start, stop) => p_move_gradient p parameter (bb_components g) samples block samples_mapping start stop ng
       | None => Ret (Ok tt)
       end)); try assumption.
  { destruct Hgs as [Hgs _]. lia. }
  intros s' out [[[k b] mapping] range] Hin' Hout Hg'. cbn [fst snd see_kb]. apply in_combine_l in Hin'. apply in_combine_l in Hin'.
  destruct range as [[start stop]|]; [|apply sim_ret; cbn; exists tt; split; [reflexivity|]; split; [reflexivity|apply only_refl]].
  apply sim_move_gradient; [exact Hout|exact Hg'|]. intros g' Hg''. eapply below_gradient; eauto.
Qed.

(** * The new blocks *)

Lemma mapM_map_see {A B} (f : A -> outcome KeyAndBlock) (g : B -> outcome KeyAndBlock) (h : A -> B) s l :
  (forall x, In x l -> g (h x) = let? kb := f x in Ok (see_kb s kb)) ->
  mapM g (map h l) = let? kbs := mapM f l in Ok (map (see_kb s) kbs).
Proof.
  induction l as [|x l IH]; intros H; cbn [map mapM]; [reflexivity|]. rewrite H by (left; reflexivity).
  destruct (f x) as [kb| | |]; cbn [bind]; try reflexivity. rewrite IH by (intros; apply H; right; assumption).
  destruct (mapM f l); reflexivity.
Qed.

Lemma combine_map_r {A B C} (f : B -> C) (l1 : list A) : forall l2, combine l1 (map f l2) = map (fun x => (fst x, f (snd x))) (combine l1 l2).
Proof. induction l1 as [|x l1 IH]; intros [|y l2]; cbn [map combine]; try reflexivity. rewrite IH. reflexivity. Qed.

Lemma see_all_blocks s t positions : all_blocks_to_merge (see s t) positions = let? kbs := all_blocks_to_merge t positions in Ok (map (see_kb s) kbs).
Proof.
  unfold all_blocks_to_merge. cbn [see tm_keys tm_blocks]. destruct (labels_iter (tm_keys t)) as [keys| | |]; cbn [bind]; try reflexivity.
  rewrite combine_map_r. apply mapM_map_see. intros [key b] _. cbn [fst snd]. destruct (project key positions); reflexivity.
Qed.

Lemma see_index s (blocks : list TensorBlock) i : index_slice (map (see_block s) blocks) i = let? b := index_slice blocks i in Ok (see_block s b).
Proof. unfold index_slice. rewrite nth_error_map. destruct (nth_error blocks i); reflexivity. Qed.

Lemma see_blocks_matching s t selection : blocks_matching (see s t) selection = blocks_matching t selection.
Proof. unfold blocks_matching; cbn [see tm_keys tm_blocks]; rewrite ?map_length; reflexivity. Qed.

Lemma see_some_blocks s t positions names entry :
  blocks_to_merge_for (see s t) positions names entry = let? kbs := blocks_to_merge_for t positions names entry in Ok (map (see_kb s) kbs).
Proof.
  unfold blocks_to_merge_for. destruct (labels_build names [entry]) as [selection| | |]; cbn [bind]; try reflexivity.
  rewrite see_blocks_matching. destruct (blocks_matching t selection) as [matching| | |]; cbn [bind]; try reflexivity.
  rewrite <- (map_id matching) at 1. apply mapM_map_see. intros i _. cbn [see tm_blocks tm_keys]. rewrite see_index.
  destruct (index_slice (tm_blocks t) i) as [b| | |]; cbn [bind]; try reflexivity.
  destruct (labels_index (tm_keys t) i) as [key| | |]; cbn [bind]; try reflexivity. destruct (project key positions); reflexivity.
Qed.

Definition tensor_below (n : nat) (t : TensorMap) : Prop := Forall (fun a => a < n) (tensor_arrays t).

Lemma given_below n t blocks : tensor_below n t -> given (tensor_arrays t) blocks -> below n blocks.
Proof.
  unfold tensor_below, given, below. rewrite Forall_forall. intros Ht. apply Forall_impl. intros kb Hi.
  apply Forall_forall. intros a Ha. apply Ht, Hi, Ha.
Qed.

Lemma see_kbs_same n s s' blocks : grows n s s' -> below n blocks -> map (see_kb s') blocks = map (see_kb s) blocks.
Proof.
  intros Hg Hb. apply map_ext_in. intros kb Hin. unfold below in Hb. rewrite Forall_forall in Hb. unfold see_kb. f_equal.
  eapply see_same; eauto.
Qed.

(* the merging function follows the one of Tensor.v *)
Definition follows (t : TensorMap) (pm : list KeyAndBlock -> prog (outcome TensorBlock)) (m : list KeyAndBlock -> outcome TensorBlock) : Prop :=
  forall n s blocks, below n blocks -> n <= s_next s -> sim n s (pm blocks) (m (map (see_kb s) blocks)) merged_to.

Definition blocks_merged_to (s' : store) (x y : list TensorBlock) : Prop := map (see_block s') x = y /\ Forall (inside s') x.

Lemma sim_each_block {A} n (f : A -> prog (outcome TensorBlock)) (g : A -> outcome TensorBlock) l : forall s done,
  n <= s_next s -> Forall (inside s) done ->
  (forall s' x, In x l -> grows n s s' -> sim (s_next s') s' (f x) (g x) merged_to) ->
  sim n s (each_block f done l) (let? ys := mapM g l in Ok (map (see_block s) done ++ ys)) blocks_merged_to.
Proof.
  induction l as [|x l IH]; intros s done Hn Hdone H; cbn [each_block mapM].
  - cbn [bind]. rewrite app_nil_r. apply sim_ret. cbn. exists done. split; [reflexivity|]. split; [reflexivity|exact Hdone].
  - apply (sim_eq _ _ _ (let? y := g x in let? ys := mapM g l in Ok (map (see_block s) done ++ y :: ys))).
    { destruct (g x); cbn [bind]; try reflexivity. destruct (mapM g l); reflexivity. }
    eapply (sim_or_drop _ _ _ _ _ _ _ (fun s' b y => merged_to s' b y /\ grows (s_next s) s s')).
    { intros Hd. destruct (H s x (or_introl eq_refl) (grows_refl _ _) Hd) as [Hg Ha]. split; [eapply grows_less; eauto|].
      destruct (g x); cbn [agree] in *; try exact Ha. destruct Ha as (b & E & HR). exists b. auto. }
    intros s' b y Hg _ [[<- Hb] Hg'].
    assert (Hdone' : Forall (inside s') (done ++ [b])).
    { apply Forall_app. split; [|constructor; [exact Hb|constructor]]. eapply Forall_impl; [|exact Hdone]. intros b'. apply inside_grows. apply Hg. }
    apply (sim_eq _ _ _ (let? ys := mapM g l in Ok (map (see_block s') (done ++ [b]) ++ ys))).
    { destruct (mapM g l); cbn [bind]; try reflexivity. rewrite map_app, <- app_assoc. cbn [map app]. f_equal. f_equal.
      apply map_ext_in. intros b' Hin. rewrite Forall_forall in Hdone. eapply see_same; [exact Hg'|]. apply Hdone, Hin. }
    apply IH; [destruct Hg; lia|exact Hdone'|]. intros s'' x' Hin Hg''. apply H; [right; exact Hin|eapply grows_trans; eauto].
Qed.

Lemma sim_merged_blocks n s t new_keys positions pm m : tensor_below n t -> n <= s_next s -> follows t pm m ->
  sim n s (p_merged_blocks t new_keys positions pm) (merged_blocks (see s t) new_keys positions m) blocks_merged_to.
Proof.
  intros Ht Hn Hm. unfold p_merged_blocks, merged_blocks. apply sim_pure. intros n_keys _. destruct (n_keys =? 1).
  - rewrite see_all_blocks, bind_assoc. apply sim_pure. intros blocks E. cbn [bind].
    eapply sim_or_drop; [apply Hm; [eapply given_below; [exact Ht|]; eapply all_given; eauto|exact Hn]|].
    intros s' b y Hg _ [<- Hb]. apply sim_ret. cbn. eexists. split; [reflexivity|]. split; [reflexivity|]. constructor; [exact Hb|constructor].
  - apply sim_pure. intros entries _.
    match goal with |- sim _ _ _ (mapM ?g entries) _ => apply (sim_eq _ _ _ (let? ys := mapM g entries in Ok (map (see_block s) [] ++ ys))) end.
    { destruct (mapM _ entries); reflexivity. }
    apply sim_each_block; [exact Hn|constructor|]. intros s' entry _ Hg. rewrite see_some_blocks, bind_assoc.
    apply sim_pure. intros blocks E. cbn [bind].
    assert (Hb : below n blocks) by (eapply given_below; [exact Ht|]; eapply some_given; eauto).
    rewrite <- (see_kbs_same n s s') by assumption. apply Hm; [|lia].
    unfold below in *. eapply Forall_impl; [|exact Hb]. intros kb. apply Forall_impl. intros a Ha. destruct Hg. lia.
Qed.

Definition computed_to (s' : store) (x y : Labels * list TensorBlock) : Prop := fst x = fst y /\ blocks_merged_to s' (snd x) (snd y).

Lemma sim_samples_compute n s p t keys sort : tensor_below n t -> n <= s_next s ->
  sim n s (p_keys_to_samples_compute p t keys sort) (keys_to_samples_compute p (see s t) keys sort) computed_to.
Proof.
  intros Ht Hn. unfold p_keys_to_samples_compute, keys_to_samples_compute. apply sim_pure. intros count _.
  destruct (0 <? count); [apply sim_ret; reflexivity|]. cbv zeta. cbn [see tm_keys]. apply sim_pure. intros [new_keys positions] _.
  eapply sim_or_drop; [apply sim_merged_blocks; [exact Ht|exact Hn|]|].
  - intros n' s' blocks Hb Hn'. apply sim_merge_samples; assumption.
  - intros s' blocks y Hg _ Hb. apply sim_ret. cbn. eexists. split; [reflexivity|]. split; [reflexivity|exact Hb].
Qed.

Lemma sim_properties_compute n s p t keys sort : tensor_below n t -> n <= s_next s ->
  sim n s (p_keys_to_properties_compute p t keys sort) (keys_to_properties_compute p (see s t) keys sort) computed_to.
Proof.
  intros Ht Hn. unfold p_keys_to_properties_compute, keys_to_properties_compute. cbv zeta. cbn [see tm_keys]. apply sim_pure. intros [new_keys positions] _.
  apply sim_pure. intros count _.
  eapply sim_or_drop; [apply sim_merged_blocks; [exact Ht|exact Hn|]|].
  - intros n' s' blocks Hb Hn'. apply sim_merge_properties; assumption.
  - intros s' blocks y Hg _ Hb. apply sim_ret. cbn. eexists. split; [reflexivity|]. split; [reflexivity|exact Hb].
Qed.

Lemma see_tensor_same n s s' t : grows n s s' -> tensor_below n t -> see s' t = see s t.
Proof.
  intros Hg Ht. unfold see. f_equal. apply map_ext_in. intros b Hin. eapply see_same; [exact Hg|].
  apply Forall_forall. intros a Ha. unfold tensor_below in Ht. rewrite Forall_forall in Ht. apply Ht. eapply tensor_block_given; eauto.
Qed.

Lemma play_replace s t (m : prog (outcome (Labels * list TensorBlock))) o : tensor_below (s_next s) t ->
  sim (s_next s) s m o computed_to -> defined_outcome o ->
  let '(s', (t', r)) := play s (p_replace t m) in
  (see s' t', r) = match o with
    | Ok (new_keys, new_blocks) => (mk_tensor new_keys new_blocks, Ok tt)
    | Err e => (see s t, Err e)
    | Panic m => (see s t, Panic m)
    | Undefined r => (see s t, Undefined r)
    end.
Proof.
  intros Ht Hm Hd. unfold p_replace. rewrite play_bindp. unfold sim in Hm. destruct (play s m) as [s1 r1]. cbn [fst snd] in Hm.
  destruct (Hm Hd) as [Hg Ha]. destruct o as [[keys blocks]|e|message|reason]; cbn [agree] in Ha; [|..|destruct Hd].
  - destruct Ha as ([keys' blocks'] & -> & Hk & Hb & _). cbn [fst snd] in Hk, Hb. subst keys'. rewrite play_bindp, play_drop. cbn [play].
    unfold see. cbn [tm_keys tm_blocks]. rewrite Hb. reflexivity.
  - subst r1. cbn [play]. rewrite (see_tensor_same (s_next s) s) by assumption. reflexivity.
  - subst r1. cbn [play]. rewrite (see_tensor_same (s_next s) s) by assumption. reflexivity.
Qed.

Lemma play_keys_to_samples s p t keys sort : tensor_below (s_next s) t ->
  defined_outcome (snd (keys_to_samples p (see s t) keys sort)) ->
  let '(s', (t', r)) := play s (p_keys_to_samples p t keys sort) in
  (see s' t', r) = keys_to_samples p (see s t) keys sort.
Proof.
  intros Ht Hd. unfold p_keys_to_samples, keys_to_samples in *.
  apply (play_replace s t _ (keys_to_samples_compute p (see s t) keys sort)); [exact Ht|apply sim_samples_compute; [exact Ht|lia]|].
  destruct (keys_to_samples_compute p (see s t) keys sort) as [[]| | |]; exact Hd.
Qed.

Lemma play_keys_to_properties s p t keys sort : tensor_below (s_next s) t ->
  defined_outcome (snd (keys_to_properties p (see s t) keys sort)) ->
  let '(s', (t', r)) := play s (p_keys_to_properties p t keys sort) in
  (see s' t', r) = keys_to_properties p (see s t) keys sort.
Proof.
  intros Ht Hd. unfold p_keys_to_properties, keys_to_properties in *.
  apply (play_replace s t _ (keys_to_properties_compute p (see s t) keys sort)); [exact Ht|apply sim_properties_compute; [exact Ht|lia]|].
  destruct (keys_to_properties_compute p (see s t) keys sort) as [[]| | |]; exact Hd.
Qed.

(** * components_to_properties *)

Lemma play_or_drop {A B} s own (m : prog (outcome A)) (k : A -> prog (outcome B)) : play s (or_drop own m k) =
  let '(s', r) := play s m in
  match r with
  | Ok a => play s' (k a)
  | Err e => (s', Err e)
  | Panic message => (s', Panic message)
  | Undefined reason => (s', Undefined reason)
  end.
Proof.
  unfold or_drop. rewrite play_bindp. destruct (play s m) as [s' [a|e|message|reason]]; [reflexivity|..]; apply play_then_fail.
Qed.

Lemma play_ask {A} s c op (value : answer -> A) s' (o : outcome A) : proper op o -> defined_outcome o ->
  (forall y, o = Ok y -> exists an, respond s c = (s', an) /\ an_null an = false /\ an_status an = 0%Z /\ value an = y) ->
  ((forall y, o <> Ok y) -> respond s c = (s', answer_of o)) ->
  play s (ask c op value) = (s', o).
Proof.
  intros Hp Hd Hok Hko. unfold ask. cbn [play]. destruct o as [y|e|message|reason]; cbn [proper] in *.
  - destruct (Hok y eq_refl) as (an & -> & -> & -> & <-). reflexivity.
  - rewrite Hko by discriminate. destruct Hp as (status & Hs & E). injection E as ->. cbn. rewrite Hs. reflexivity.
  - rewrite Hko by discriminate. cbn. rewrite Hp. reflexivity.
  - destruct Hd.
Qed.

Lemma defined_call {A} a op (body : outcome A) : defined_outcome body -> defined_outcome (Array.call a op body).
Proof.
  intros H. unfold Array.call. destruct (a_kind a); try exact H. destruct (a_callbacks a op) as [| |status]; [exact H|exact I|].
  destruct (status =? 0)%Z; [exact H|exact I].
Qed.

Lemma play_shape s a : play s (p_shape a) = (s, array_shape (s_array s a)).
Proof.
  apply play_ask; [apply proper_shape|apply defined_call; exact I| |].
  - intros y E. eexists. cbn [respond]. rewrite E. split; [reflexivity|auto].
  - intros H. cbn [respond]. destruct (array_shape (s_array s a)); [exfalso; eapply H; reflexivity|reflexivity..].
Qed.

Lemma swap_proper a i j : proper OpSwapAxes (snd (array_swap_axes a i j)) /\ defined_outcome (snd (array_swap_axes a i j)).
Proof.
  unfold array_swap_axes. destruct (a_kind a) as [| |o].
  - destruct (nd_swap_axes i j (a_nd a)); cbn [snd]; split; try exact I. apply proper_error. reflexivity.
  - destruct (_ && _)%bool; cbn [snd]; split; try exact I. apply proper_error. reflexivity.
  - pose proof (proper_call a OpSwapAxes (Ok tt) I) as Hp. pose proof (defined_call a OpSwapAxes (Ok tt) I) as Hd.
    destruct (Array.call a OpSwapAxes (Ok tt)); [|split; assumption..].
    destruct (nd_swap_axes i j (a_nd a)); cbn [snd]; split; try exact I. apply proper_error. reflexivity.
Qed.

Lemma reshape_proper a shape : proper OpReshape (snd (array_reshape a shape)) /\ defined_outcome (snd (array_reshape a shape)).
Proof.
  unfold array_reshape. destruct (a_kind a) as [| |o].
  - destruct (nd_to_shape shape (a_nd a)); cbn [snd]; split; try exact I. apply proper_error. reflexivity.
  - cbn [snd]; split; exact I.
  - pose proof (proper_call a OpReshape (Ok tt) I) as Hp. pose proof (defined_call a OpReshape (Ok tt) I) as Hd.
    destruct (Array.call a OpReshape (Ok tt)); [|split; assumption..].
    destruct (nd_to_shape shape (a_nd a)); cbn [snd]; split; try exact I. apply proper_error. reflexivity.
Qed.

Lemma play_swap s a i j : play s (p_swap_axes a i j) = let '(array, r) := array_swap_axes (s_array s a) i j in (put s a array, r).
Proof.
  destruct (swap_proper (s_array s a) i j) as [Hp Hd]. destruct (array_swap_axes (s_array s a) i j) as [array r] eqn:E. cbn [snd] in *.
  apply play_ask; [exact Hp|exact Hd| |].
  - intros [] ->. eexists. cbn [respond]. rewrite E. split; [reflexivity|auto].
  - intros H. cbn [respond]. rewrite E. reflexivity.
Qed.

Lemma play_reshape s a shape : play s (p_reshape a shape) = let '(array, r) := array_reshape (s_array s a) shape in (put s a array, r).
Proof.
  destruct (reshape_proper (s_array s a) shape) as [Hp Hd]. destruct (array_reshape (s_array s a) shape) as [array r] eqn:E. cbn [snd] in *.
  apply play_ask; [exact Hp|exact Hd| |].
  - intros [] ->. eexists. cbn [respond]. rewrite E. split; [reflexivity|auto].
  - intros H. cbn [respond]. rewrite E. reflexivity.
Qed.

Lemma put_same s a array : s_array (put s a array) a = array.
Proof. cbn. rewrite Nat.eqb_refl. reflexivity. Qed.
Lemma put_only s a array : only a s (put s a array).
Proof. split; [|reflexivity]. intros b Hb. cbn. destruct (Nat.eqb_spec a b); [congruence|reflexivity]. Qed.

Lemma play_basic_components s b variables :
  let '(s', (b', r)) := play s (p_basic_components_to_properties b variables) in
  (see_basic s' b', r) = basic_block_components_to_properties (see_basic s b) variables /\ only (data_of b) s s'.
Proof.
  unfold p_basic_components_to_properties, basic_block_components_to_properties. cbn [see_basic bb_components bb_properties bb_samples bb_data].
  destruct (find_component _ _) as [axis|]; [|cbn [play]; split; [reflexivity|apply only_refl]].
  destruct (nth_error _ _) as [moved|]; [|cbn [play]; split; [reflexivity|apply only_refl]].
  cbv zeta. rewrite play_bindp.
  do 5 (rewrite play_or_drop; cbn [play];
        match goal with |- context [bind ?x _] => destruct x; cbn [bind]; [|cbn [play]; split; [reflexivity|apply only_refl]..] end).
  rewrite play_or_drop, play_shape.
  match goal with |- context [bind ?x _] => destruct x as [shape| | |]; cbn [bind]; [|cbn [play]; split; [reflexivity|apply only_refl]..] end.
  do 3 (rewrite play_or_drop; cbn [play];
        match goal with |- context [bind ?x _] => destruct x; cbn [bind]; [|cbn [play]; split; [reflexivity|apply only_refl]..] end).
  rewrite play_or_drop; cbn [play]. destruct (axis + 1 <? _); [|cbn [play]; split; [reflexivity|apply only_refl]].
  rewrite play_or_drop, play_swap. destruct (array_swap_axes _ _ _) as [data1 r1].
  destruct r1 as [[]|e|message|reason]; [|cbn [play]; (split; [|apply put_only]); unfold see_basic; cbn [data_of bb_data bb_samples bb_components bb_properties];
    fold (data_of b); rewrite put_same; reflexivity..].
  rewrite play_or_drop, play_reshape, put_same. destruct (array_reshape _ _) as [data2 r2].
  assert (Ho : only (data_of b) s (put (put s (data_of b) data1) (data_of b) data2)) by (eapply only_trans; apply put_only).
  destruct r2 as [[]|e|message|reason]; cbn [play]; (split; [|exact Ho]); unfold see_basic; cbn [data_of bb_data bb_samples bb_components bb_properties];
    fold (data_of b); rewrite put_same; reflexivity.
Qed.

(* only these arrays changed *)
Definition only_in (l : list nat) (s s' : store) : Prop := forall a, ~ In a l -> s_array s' a = s_array s a.

Lemma only_only_in a l s s' : In a l -> only a s s' -> only_in l s s'.
Proof. intros Hin [H _] b Hb. apply H. intros ->. contradiction. Qed.
Lemma only_in_refl l s : only_in l s s.
Proof. intros a _. reflexivity. Qed.
Lemma only_in_trans l s1 s2 s3 : only_in l s1 s2 -> only_in l s2 s3 -> only_in l s1 s3.
Proof. intros H1 H2 a Ha. rewrite H2, H1 by exact Ha. reflexivity. Qed.
Lemma only_in_incl l l' s s' : incl l l' -> only_in l s s' -> only_in l' s s'.
Proof. intros Hi H a Ha. apply H. intros Hin. apply Ha, Hi, Hin. Qed.

Definition see_gradients (s : store) (l : list (string * BasicBlock)) : list (string * BasicBlock) :=
  map (fun pg => (fst pg, see_basic s (snd pg))) l.

Lemma see_gradients_same l0 s s' l : only_in l0 s s' -> (forall a, In a (gradients_arrays l) -> ~ In a l0) -> see_gradients s' l = see_gradients s l.
Proof.
  intros Ho Hl. apply map_ext_in. intros [q g] Hin. cbn [fst snd]. f_equal. apply see_basic_same. apply Ho. apply Hl.
  apply (in_map (fun pg => data_of (snd pg)) _ _ Hin).
Qed.

Lemma play_gradients_components variables l : NoDup (gradients_arrays l) -> forall s,
  let '(s', (l', r)) := play s (p_gradients_components_to_properties variables l) in
  (see_gradients s' l', r) = gradients_components_to_properties variables (see_gradients s l) /\ only_in (gradients_arrays l) s s'.
Proof.
  induction l as [|[q g] l IH]; intros Hn s; cbn [p_gradients_components_to_properties gradients_components_to_properties see_gradients map].
  - cbn [play]. split; [reflexivity|apply only_in_refl].
  - cbn [gradients_arrays map snd] in Hn. inversion Hn as [|? ? Hq Hn']; subst. rewrite play_bindp.
    pose proof (play_basic_components s g variables) as Hb. pose proof (play_runs (p_basic_components_to_properties g variables) s) as Hr.
    destruct (play s (p_basic_components_to_properties g variables)) as [s1 [g' r1]]. destruct Hb as [E Ho]. apply basic_components_same in Hr.
    cbn [fst snd]. rewrite <- E.
    assert (Hrest : see_gradients s1 l = see_gradients s l).
    { apply (see_gradients_same [data_of g]); [eapply only_only_in; [left; reflexivity|exact Ho]|]. intros a Ha [<-|[]]. apply Hq. exact Ha. }
    destruct r1 as [[]|e|message|reason].
    2-4: cbn [play see_gradients map fst snd]; fold (see_gradients s1 l); rewrite Hrest; split; [reflexivity|eapply only_only_in; [left; reflexivity|exact Ho]].
    rewrite play_bindp. specialize (IH Hn' s1). destruct (play s1 (p_gradients_components_to_properties variables l)) as [s2 [l' r2]].
    destruct IH as [E2 Ho2]. fold (see_gradients s l). rewrite <- Hrest, <- E2. cbn [play see_gradients map fst snd].
    assert (Hs2 : see_basic s2 g' = see_basic s1 g').
    { apply see_basic_same. rewrite Hr. apply Ho2. exact Hq. }
    rewrite Hs2. split; [reflexivity|]. eapply only_in_trans; [eapply only_only_in; [left; reflexivity|exact Ho]|].
    eapply only_in_incl; [|exact Ho2]. intros a Ha. right. exact Ha.
Qed.

Lemma play_block_components variables b s : NoDup (block_arrays b) ->
  let '(s', (b', r)) := play s (p_block_components_to_properties b variables) in
  (see_block s' b', r) = tensor_block_components_to_properties (see_block s b) variables /\ only_in (block_arrays b) s s'.
Proof.
  intros Hn. unfold p_block_components_to_properties, tensor_block_components_to_properties.
  destruct variables as [|v variables]; [cbn [play]; split; [reflexivity|apply only_in_refl]|].
  unfold block_arrays in Hn. inversion Hn as [|? ? Hq Hn']; subst. rewrite play_bindp.
  pose proof (play_basic_components s (tb_values b) (v :: variables)) as Hb. pose proof (play_runs (p_basic_components_to_properties (tb_values b) (v :: variables)) s) as Hr.
  destruct (play s (p_basic_components_to_properties (tb_values b) (v :: variables))) as [s1 [g' r1]]. destruct Hb as [E Ho]. apply basic_components_same in Hr.
  cbn [see_block tb_values tb_gradients tb_gradient_parameters]. rewrite <- E.
  assert (Hrest : see_gradients s1 (tb_gradients b) = see_gradients s (tb_gradients b)).
  { apply (see_gradients_same [data_of (tb_values b)]); [eapply only_only_in; [left; reflexivity|exact Ho]|]. intros a Ha [<-|[]]. apply Hq. exact Ha. }
  unfold see_gradients in Hrest.
  destruct r1 as [[]|e|message|reason].
  2-4: cbn [play see_block tb_values tb_gradients tb_gradient_parameters]; unfold see_block; cbn [tb_values tb_gradients tb_gradient_parameters]; rewrite Hrest;
    split; [reflexivity|eapply only_only_in; [left; reflexivity|exact Ho]].
  rewrite play_bindp. pose proof (play_gradients_components (v :: variables) (tb_gradients b) Hn' s1) as IH.
  destruct (play s1 (p_gradients_components_to_properties (v :: variables) (tb_gradients b))) as [s2 [l' r2]].
  destruct IH as [E2 Ho2]. unfold see_gradients in E2. rewrite <- Hrest, <- E2. cbn [play]. unfold see_block; cbn [tb_values tb_gradients tb_gradient_parameters].
  assert (Hs2 : see_basic s2 g' = see_basic s1 g').
  { apply see_basic_same. rewrite Hr. apply Ho2. exact Hq. }
  rewrite Hs2. split; [reflexivity|]. eapply only_in_trans; [eapply only_only_in; [left; reflexivity|exact Ho]|].
  eapply only_in_incl; [|exact Ho2]. intros a Ha. right. exact Ha.
Qed.

Lemma see_blocks_only l0 s s' bs : only_in l0 s s' -> (forall a, In a (blocks_arrays bs) -> ~ In a l0) -> map (see_block s') bs = map (see_block s) bs.
Proof.
  intros Ho Hl. apply map_ext_in. intros b Hin.
  assert (Hb : forall a, In a (block_arrays b) -> s_array s' a = s_array s a).
  { intros a Ha. apply Ho. apply Hl. apply in_flat_map. exists b. auto. }
  unfold see_block. f_equal; [apply see_basic_same; apply Hb; left; reflexivity|]. apply map_ext_in. intros [q g] Hg. cbn [fst snd]. f_equal.
  apply see_basic_same. apply Hb. right. apply (in_map (fun pg => data_of (snd pg)) _ _ Hg).
Qed.

Lemma NoDup_app_parts {A} (l1 l2 : list A) : NoDup (l1 ++ l2) -> NoDup l1 /\ NoDup l2 /\ forall a, In a l1 -> ~ In a l2.
Proof.
  induction l1 as [|x l1 IH]; cbn [app]; intros H; [split; [constructor|split; [exact H|intros a []]]|].
  inversion H as [|? ? Hx H']; subst. destruct (IH H') as (H1 & H2 & H3). split; [constructor; [|exact H1]|split; [exact H2|]].
  - intros Hin. apply Hx. apply in_app_iff. left. exact Hin.
  - intros a [<-|Ha]; [intros Hin; apply Hx; apply in_app_iff; right; exact Hin|apply H3; exact Ha].
Qed.

Lemma play_blocks_components variables bs : NoDup (blocks_arrays bs) -> forall s,
  let '(s', (bs', r)) := play s (p_blocks_components_to_properties variables bs) in
  (map (see_block s') bs', r) = blocks_components_to_properties variables (map (see_block s) bs) /\ only_in (blocks_arrays bs) s s'.
Proof.
  induction bs as [|b bs IH]; intros Hn s; cbn [p_blocks_components_to_properties blocks_components_to_properties map].
  - cbn [play]. split; [reflexivity|apply only_in_refl].
  - unfold blocks_arrays in Hn |- *. cbn [flat_map] in Hn |- *. fold (blocks_arrays bs) in Hn |- *. apply NoDup_app_parts in Hn as (Hn1 & Hn2 & Hdis).
    rewrite play_bindp. pose proof (play_block_components variables b s Hn1) as Hb. pose proof (play_runs (p_block_components_to_properties b variables) s) as Hr.
    destruct (play s (p_block_components_to_properties b variables)) as [s1 [b' r1]]. destruct Hb as [E Ho]. apply block_components_same in Hr.
    rewrite <- E.
    assert (Hrest : map (see_block s1) bs = map (see_block s) bs).
    { apply (see_blocks_only (block_arrays b)); [exact Ho|]. intros a Ha Hin. exact (Hdis a Hin Ha). }
    assert (Ho' : only_in (block_arrays b ++ blocks_arrays bs) s s1) by (eapply only_in_incl; [|exact Ho]; intros a Ha; apply in_app_iff; left; exact Ha).
    destruct r1 as [[]|e|message|reason].
    2-4: cbn [play map]; rewrite Hrest; split; [reflexivity|exact Ho'].
    rewrite play_bindp. specialize (IH Hn2 s1). destruct (play s1 (p_blocks_components_to_properties variables bs)) as [s2 [l' r2]].
    destruct IH as [E2 Ho2]. rewrite <- Hrest, <- E2. cbn [play map].
    assert (Hs2 : map (see_block s2) [b'] = map (see_block s1) [b']).
    { apply (see_blocks_only (blocks_arrays bs)); [exact Ho2|]. unfold blocks_arrays at 1. cbn [flat_map]. rewrite app_nil_r, Hr. exact Hdis. }
    assert (Hs3 : see_block s2 b' = see_block s1 b') by exact (f_equal (hd (see_block s2 b')) Hs2). rewrite Hs3. split; [reflexivity|]. eapply only_in_trans; [exact Ho'|].
    eapply only_in_incl; [|exact Ho2]. intros a Ha. apply in_app_iff. right. exact Ha.
Qed.

Lemma play_components s t variables : NoDup (tensor_arrays t) ->
  let '(s', (t', r)) := play s (p_components_to_properties t variables) in
  (see s' t', r) = components_to_properties (see s t) variables.
Proof.
  intros Hn. unfold p_components_to_properties, components_to_properties. destruct variables as [|v variables]; [reflexivity|].
  rewrite play_bindp. pose proof (play_blocks_components (v :: variables) (tm_blocks t) Hn s) as H.
  destruct (play s (p_blocks_components_to_properties (v :: variables) (tm_blocks t))) as [s1 [bs r]]. destruct H as [E _].
  cbn [see tm_blocks tm_keys]. rewrite <- E. reflexivity.
Qed.

(** * Blocks *)

Lemma play_block_new s a samples components properties : defined_outcome (tensor_block_new (s_array s a) samples components properties) ->
  let '(s', r) := play s (p_block_new a samples components properties) in
  (let? b := r in Ok (see_block s' b)) = tensor_block_new (s_array s a) samples components properties.
Proof.
  intros Hd. destruct (sim_block_new 0 s a samples components properties Hd) as [_ Ha].
  destruct (play s (p_block_new a samples components properties)) as [s' r]. cbn [fst snd] in Ha.
  destruct (tensor_block_new (s_array s a) samples components properties); cbn [agree] in Ha; [|subst r; reflexivity..|destruct Hd].
  destruct Ha as (x & -> & -> & <- & _). reflexivity.
Qed.

Lemma play_add_gradient s b parameter a samples components : defined_outcome (snd (tensor_block_add_gradient (see_block s b) parameter (s_array s a) samples components)) ->
  let '(s', (b', r)) := play s (p_add_gradient b parameter a samples components) in
  (see_block s' b', r) = tensor_block_add_gradient (see_block s b) parameter (s_array s a) samples components.
Proof.
  intros Hd. unfold p_add_gradient, tensor_block_add_gradient in *. rewrite play_bindp.
  pose proof (sim_check_gradient (S (Nat.max a (list_max (block_arrays b)))) s b parameter a samples components) as Hc. unfold sim in Hc.
  destruct (play s (p_check_gradient b parameter a samples components)) as [s1 r]. cbn [fst snd] in Hc.
  destruct (check_gradient (see_block s b) parameter (s_array s a) samples components) as [[]|e|message|reason]; [|..|destruct Hd];
    destruct (Hc I) as [Hg Ha]; cbn [agree] in Ha.
  - destruct Ha as (x & -> & Hs). unfold still in Hs. subst s1. cbv zeta. destruct (cstring_new parameter) as [c|]; cbn [play]; rewrite see_inserted; reflexivity.
  - subst r. rewrite play_bindp, play_drop. cbn [play]. f_equal. eapply see_same; [exact Hg|].
    pose proof (list_max_le (block_arrays b) (list_max (block_arrays b))) as [Hm _]. eapply Forall_impl; [|apply Hm; lia]. cbv beta. intros x Hx. lia.
  - subst r. rewrite play_bindp, play_drop. cbn [play]. f_equal. eapply see_same; [exact Hg|].
    pose proof (list_max_le (block_arrays b) (list_max (block_arrays b))) as [Hm _]. eapply Forall_impl; [|apply Hm; lia]. cbv beta. intros x Hx. lia.
Qed.

(** * All functions *)

Lemma not_undefined {A} (r : outcome A) : (forall reason, r <> Undefined reason) -> defined_outcome r.
Proof. intros H. destruct r; try exact I. exfalso. eapply H. reflexivity. Qed.

Lemma same_keys_to_samples s p t keys sort : Forall (fun a => a < s_next s) (tensor_arrays t) ->
  (forall reason, snd (keys_to_samples p (see s t) keys sort) <> Undefined reason) ->
  let '(s', (t', r)) := play s (p_keys_to_samples p t keys sort) in
  (see s' t', r) = keys_to_samples p (see s t) keys sort.
Proof. intros Ht Hd. apply play_keys_to_samples; [exact Ht|apply not_undefined; exact Hd]. Qed.

Lemma same_keys_to_properties s p t keys sort : Forall (fun a => a < s_next s) (tensor_arrays t) ->
  (forall reason, snd (keys_to_properties p (see s t) keys sort) <> Undefined reason) ->
  let '(s', (t', r)) := play s (p_keys_to_properties p t keys sort) in
  (see s' t', r) = keys_to_properties p (see s t) keys sort.
Proof. intros Ht Hd. apply play_keys_to_properties; [exact Ht|apply not_undefined; exact Hd]. Qed.

Lemma same_block_new s a samples components properties : (forall reason, tensor_block_new (s_array s a) samples components properties <> Undefined reason) ->
  let '(s', r) := play s (p_block_new a samples components properties) in
  (let? b := r in Ok (see_block s' b)) = tensor_block_new (s_array s a) samples components properties.
Proof. intros Hd. apply play_block_new. apply not_undefined. exact Hd. Qed.

Lemma same_add_gradient s b parameter a samples components :
  (forall reason, snd (tensor_block_add_gradient (see_block s b) parameter (s_array s a) samples components) <> Undefined reason) ->
  let '(s', (b', r)) := play s (p_add_gradient b parameter a samples components) in
  (see_block s' b', r) = tensor_block_add_gradient (see_block s b) parameter (s_array s a) samples components.
Proof. intros Hd. apply play_add_gradient. apply not_undefined. exact Hd. Qed.
