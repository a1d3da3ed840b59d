(* The first call which fails is the last one, and is reported *)
From Verif Require Import Base BaseFacts Labels Array Block Tensor Callbacks SpecCallbacks CallbacksFacts CallbacksOwnFacts.
From Coq Require Import Permutation.
Local Open Scope string_scope.
Local Open Scope list_scope.
Local Open Scope nat_scope.

Definition erase {A} (r : outcome A) : outcome unit :=
  match r with Ok _ => Ok tt | Err e => Err e | Panic message => Panic message | Undefined reason => Undefined reason end.

Definition report := call -> answer -> outcome unit -> Prop.

Definition failed_with (rep : report) (tr : trace) (r : outcome unit) : Prop :=
  exists before c an after, tr = before ++ (c, an) :: after /\ all_work before /\ works an = false /\ is_destroy c = false
    /\ Forall (fun e => is_destroy (fst e) = true) after /\ rep c an r.

Definition fresh (refs : list nat) (tr : trace) : Prop :=
  Forall (fun '(c, an) => forall a, created c an = Some a -> ~ In a refs) tr.

Definition gff {A} (refs : list nat) (rep : report) (m : prog (outcome A)) (R : A -> Prop) : Prop :=
  forall tr r, runs m tr r -> fresh refs tr ->
    (all_work tr /\ (forall a, r = Ok a -> R a)) \/ (failed_with rep tr (erase r) /\ forall a, r <> Ok a).

Lemma destroys_work tr : Forall (fun e : call * answer => is_destroy (fst e) = true) tr -> all_work tr.
Proof. unfold all_work. apply Forall_impl. intros [c an] H. left. exact H. Qed.

Lemma drop_destroys own : forall tr r, runs (drop_arrays own) tr r -> Forall (fun e => is_destroy (fst e) = true) tr.
Proof.
  induction own as [|a own IH]; intros tr r H; cbn [drop_arrays] in H.
  - apply runs_ret_inv in H as [-> _]. constructor.
  - apply runs_ask_inv in H as (an & tr' & -> & H). constructor; [reflexivity|]. eapply IH; eauto.
Qed.

Lemma then_fail_runs {A} own (failure : outcome A) tr r : runs (then_fail own failure) tr r ->
  r = failure /\ Forall (fun e => is_destroy (fst e) = true) tr.
Proof.
  intros H. apply runs_bindp in H as (tr1 & u & tr2 & H1 & H2 & ->). apply runs_ret_inv in H2 as [-> ->]. rewrite app_nil_r.
  split; [reflexivity|]. eapply drop_destroys; eauto.
Qed.

Lemma failed_after rep tr1 tr2 r : failed_with rep tr1 r -> Forall (fun e => is_destroy (fst e) = true) tr2 -> failed_with rep (tr1 ++ tr2) r.
Proof.
  intros (before & c & an & aft & -> & H1 & H2 & H3 & H4 & H5) Hd. exists before, c, an, (aft ++ tr2).
  rewrite <- app_assoc. cbn [app]. split; [reflexivity|]. split; [exact H1|]. split; [exact H2|]. split; [exact H3|].
  split; [apply Forall_app; split; assumption|exact H5].
Qed.

Lemma failed_before rep tr1 tr2 r : all_work tr1 -> failed_with rep tr2 r -> failed_with rep (tr1 ++ tr2) r.
Proof.
  intros Hw (before & c & an & aft & -> & H1 & H2 & H3 & H4 & H5). exists (tr1 ++ before), c, an, aft.
  rewrite <- app_assoc. split; [reflexivity|]. split; [apply Forall_app; split; assumption|]. auto.
Qed.

Lemma gff_ret {A} refs rep (o : outcome A) (R : A -> Prop) : (forall a, o = Ok a -> R a) -> gff refs rep (Ret o) R.
Proof. intros H tr r Hr _. apply runs_ret_inv in Hr as [-> ->]. left. split; [constructor|exact H]. Qed.

Lemma gff_or_drop {A B} refs rep own (m : prog (outcome A)) (k : A -> prog (outcome B)) (R : A -> Prop) (Q : B -> Prop) :
  gff refs rep m R -> (forall a, R a -> gff refs rep (k a) Q) -> gff refs rep (or_drop own m k) Q.
Proof.
  intros Hm Hk tr r H Hf. apply runs_bindp in H as (tr1 & x & tr2 & H1 & H2 & ->). apply Forall_app in Hf as [F1 F2].
  destruct (Hm tr1 x H1 F1) as [[W HR]|[Fl HR]].
  - destruct x as [a|e|message|reason].
    + destruct (Hk a (HR a eq_refl) tr2 r H2 F2) as [[W2 HQ]|[Fl2 HQ]].
      * left. split; [apply Forall_app; split; assumption|exact HQ].
      * right. split; [apply failed_before; assumption|exact HQ].
    + apply then_fail_runs in H2 as [-> D]. left. split; [apply Forall_app; split; [exact W|apply destroys_work; exact D]|discriminate].
    + apply then_fail_runs in H2 as [-> D]. left. split; [apply Forall_app; split; [exact W|apply destroys_work; exact D]|discriminate].
    + apply then_fail_runs in H2 as [-> D]. left. split; [apply Forall_app; split; [exact W|apply destroys_work; exact D]|discriminate].
  - destruct x as [a|e|message|reason].
    + exfalso. eapply HR. reflexivity.
    + apply then_fail_runs in H2 as [-> D]. right. split; [apply failed_after; assumption|discriminate].
    + apply then_fail_runs in H2 as [-> D]. right. split; [apply failed_after; assumption|discriminate].
    + apply then_fail_runs in H2 as [-> D]. right. split; [apply failed_after; assumption|discriminate].
Qed.

Lemma gff_pure {A B} refs rep own (o : outcome A) (k : A -> prog (outcome B)) (Q : B -> Prop) :
  (forall a, o = Ok a -> gff refs rep (k a) Q) -> gff refs rep (or_drop own (Ret o) k) Q.
Proof. intros H. eapply (gff_or_drop _ _ _ _ _ (fun a => o = Ok a)); [apply gff_ret; auto|exact H]. Qed.

Lemma gff_weaken {A} refs rep (m : prog (outcome A)) (R Q : A -> Prop) : (forall a, R a -> Q a) -> gff refs rep m R -> gff refs rep m Q.
Proof. intros H Hm tr r Hr Hf. destruct (Hm tr r Hr Hf) as [[W HR]|F]; [left; split; [exact W|]; intros a E; apply H, HR, E|right; exact F]. Qed.

Definition any {A} (_ : A) : Prop := True.

(* the report of a call *)
Definition covers (rep : report) (c : call) (op : array_op) : Prop :=
  forall an, works an = false ->
    rep c an (if an_null an then Panic ("eqs_array_t." +++ op_name op +++ " function is NULL") else callback_error op (an_status an)).

Lemma gff_ask {A} refs rep c op (value : answer -> A) (R : A -> Prop) : is_destroy c = false -> covers rep c op ->
  (forall an, works an = true -> (forall a, created c an = Some a -> ~ In a refs) -> R (value an)) -> gff refs rep (ask c op value) R.
Proof.
  intros Hd Hc HR tr r H Hf. unfold ask in H. apply runs_ask_inv in H as (an & tr' & -> & H). apply runs_ret_inv in H as [-> ->].
  inversion Hf as [|? ? F1 _]; subst. specialize (Hc an). specialize (HR an).
  destruct (works an) eqn:W.
  - left. split; [constructor; [right; exact W|constructor]|]. unfold works in W. destruct (an_null an); [discriminate W|].
    cbn in W. rewrite W. intros a E. injection E as <-. apply HR; auto.
  - right. specialize (Hc eq_refl). unfold works in W. destruct (an_null an) eqn:N.
    + split; [|discriminate]. exists [], c, an, []. repeat (split; [try reflexivity; try constructor; auto|]); [unfold works; rewrite N; reflexivity|].
      cbn [erase]. exact Hc.
    + cbn in W. rewrite W. split; [|discriminate]. exists [], c, an, []. repeat (split; [try reflexivity; try constructor; auto|]); [unfold works; rewrite N; exact W|].
      cbn [erase callback_error]. exact Hc.
Qed.

Lemma gff_expectp {A} refs (rep rep' : report) message (m : prog (outcome A)) (R : A -> Prop) : (forall c an r, r <> Ok tt -> rep c an r -> rep' c an (expect message r)) ->
  gff refs rep m R -> gff refs rep' (expectp message m) R.
Proof.
  intros Hrep Hm tr r H Hf. apply runs_bindp in H as (tr1 & x & tr2 & H1 & H2 & ->). apply runs_ret_inv in H2 as [-> ->].
  rewrite app_nil_r in *. destruct (Hm tr1 x H1 Hf) as [[W HR]|[(before & c & an & aft & -> & B1 & B2 & B3 & B4 & B5) HR]].
  - left. split; [exact W|]. intros a E. apply HR. destruct x; cbn in E; try discriminate E. exact E.
  - right. split.
    + exists before, c, an, aft. repeat (split; [assumption || reflexivity|]).
      apply Hrep in B5; [|destruct x; try discriminate; exfalso; eapply HR; reflexivity]. destruct x; exact B5.
    + intros a E. destruct x; cbn in E; try discriminate E. eapply HR; reflexivity.
Qed.

(** * Blocks *)

(* looking at arrays which were just made *)
Definition inner (refs : list nat) : report := fun c an r =>
  (exists a, (c = QShape a \/ c = QOrigin a) /\ ~ In a refs) /\ r <> Ok tt /\ forall reason, r <> Undefined reason.
Definition outer (refs : list nat) : report := fun c an r => reports refs c an r.

Lemma inner_covers refs a c op : ~ In a refs -> c = QShape a \/ c = QOrigin a -> covers (inner refs) c op.
Proof. intros Ha Hc an W. split; [exists a; auto|]. split; [|intros]; destruct (an_null an); discriminate. Qed.

Lemma outer_covers refs c op : (match c with QCopy _ => False | QShape a | QOrigin a => In a refs | _ => True end) -> op_name op = name_of c ->
  covers (outer refs) c op.
Proof.
  intros Hc Ho an W. split.
  - intros [N|Hp]; [rewrite N; eexists; reflexivity|]. exfalso. destruct c; try contradiction.
  - intros Hn. destruct (an_null an) eqn:N; [exfalso; apply Hn; left; exact N|]. unfold callback_error. rewrite Ho. reflexivity.
Qed.

Lemma inner_outer refs message c an r : r <> Ok tt -> inner refs c an r -> outer refs c an (expect message r).
Proof.
  intros Hr ((a & Hc & Ha) & _ & Hu). assert (P : panics_for refs c an) by (right; destruct Hc as [-> | ->]; exact Ha).
  split; [intros _|intros H; exfalso; apply H, P].
  destruct r as [[]|e|m|reason]; cbn; [exfalso; apply Hr; reflexivity|eexists; reflexivity|eexists; reflexivity|exfalso; eapply Hu; reflexivity].
Qed.

Lemma check_fails refs rep context a samples components properties : covers rep (QShape a) OpShape ->
  gff refs rep (p_check context a samples components properties) any.
Proof.
  intros Hc. unfold p_check. eapply gff_or_drop; [apply (gff_ask _ _ _ _ _ any); [reflexivity|exact Hc|intros; exact I]|].
  intros shape _. apply gff_ret. intros; exact I.
Qed.

Lemma block_new_fails refs rep a samples components properties : covers rep (QShape a) OpShape ->
  gff refs rep (p_block_new a samples components properties) (fun b => data_of (tb_values b) = a).
Proof.
  intros Hc. unfold p_block_new. eapply gff_or_drop; [apply check_fails; exact Hc|]. intros _ _.
  apply gff_pure. intros _ _. apply gff_ret. intros b E. injection E as <-. reflexivity.
Qed.

Lemma check_gradient_fails refs rep b parameter a samples components : covers rep (QShape a) OpShape -> covers rep (QOrigin a) OpOrigin ->
  covers rep (QOrigin (data_of (tb_values b))) OpOrigin -> gff refs rep (p_check_gradient b parameter a samples components) any.
Proof.
  intros H1 H2 H3. unfold p_check_gradient. destruct (hm_contains _ _ _); [apply gff_ret; intros; exact I|].
  eapply (gff_or_drop _ _ _ _ _ any).
  { unfold p_same_origin.
    eapply gff_or_drop; [apply (gff_ask _ _ _ _ _ any); [reflexivity|exact H2|intros; exact I]|]. intros o1 _.
    eapply gff_or_drop; [apply (gff_ask _ _ _ _ _ any); [reflexivity|exact H3|intros; exact I]|]. intros o2 _.
    destruct (negb _); [|apply gff_ret; intros; exact I].
    eapply gff_or_drop; [apply (gff_ask _ _ _ _ _ any); [reflexivity|exact H2|intros; exact I]|]. intros _ _.
    eapply gff_or_drop; [apply (gff_ask _ _ _ _ _ any); [reflexivity|exact H3|intros; exact I]|]. intros _ _.
    apply gff_ret; intros; exact I. }
  intros _ _. destruct (String.eqb parameter "values"); [apply gff_ret; intros; exact I|].
  destruct (_ || _)%bool; [apply gff_ret; intros; exact I|].
  apply gff_pure. intros _ _. destruct (_ <? _); [apply gff_ret; intros; exact I|]. cbv zeta.
  apply gff_pure. intros _ _. apply check_fails. exact H1.
Qed.

Definition pff {X} (refs : list nat) (rep : report) (m : prog (X * outcome unit)) (R : X -> Prop) : Prop :=
  forall tr x r, runs m tr (x, r) -> fresh refs tr -> (all_work tr /\ (r = Ok tt -> R x)) \/ (failed_with rep tr r /\ r <> Ok tt).

Lemma add_gradient_fails refs rep b parameter a samples components : covers rep (QShape a) OpShape -> covers rep (QOrigin a) OpOrigin ->
  covers rep (QOrigin (data_of (tb_values b))) OpOrigin ->
  pff refs rep (p_add_gradient b parameter a samples components) (fun b' => tb_values b' = tb_values b).
Proof.
  intros H1 H2 H3 tr b' r H Hf. unfold p_add_gradient in H. apply runs_bindp in H as (tr1 & x & tr2 & R1 & R2 & ->).
  apply Forall_app in Hf as [F1 _]. pose proof (check_gradient_fails refs rep b parameter a samples components H1 H2 H3 tr1 x R1 F1) as HG.
  assert (Hdrop : forall failure : outcome unit, runs (bindp (drop_arrays [a]) (fun _ => Ret (b, failure))) tr2 (b', r) ->
    r = failure /\ Forall (fun e => is_destroy (fst e) = true) tr2).
  { intros failure H. apply runs_bindp in H as (t1 & u & t2 & D1 & D2 & ->). apply runs_ret_inv in D2 as [-> E]. injection E as _ ->.
    rewrite app_nil_r. split; [reflexivity|]. eapply drop_destroys; eauto. }
  destruct x as [u|e|message|reason].
  - destruct HG as [[W _]|[_ HR]]; [|exfalso; eapply HR; reflexivity]. left. cbv zeta in R2.
    destruct (cstring_new parameter); apply runs_ret_inv in R2 as [-> E]; rewrite app_nil_r; split; try exact W; injection E as -> ->; reflexivity || discriminate.
  - apply Hdrop in R2 as [-> D]. destruct HG as [[W _]|[Fl HR]]; [left|right].
    + split; [apply Forall_app; split; [exact W|apply destroys_work; exact D]|discriminate].
    + split; [apply failed_after; assumption|discriminate].
  - apply Hdrop in R2 as [-> D]. destruct HG as [[W _]|[Fl HR]]; [left|right].
    + split; [apply Forall_app; split; [exact W|apply destroys_work; exact D]|discriminate].
    + split; [apply failed_after; assumption|discriminate].
  - apply Hdrop in R2 as [-> D]. destruct HG as [[W _]|[Fl HR]]; [left|right].
    + split; [apply Forall_app; split; [exact W|apply destroys_work; exact D]|discriminate].
    + split; [apply failed_after; assumption|discriminate].
Qed.

Definition made (refs : list nat) (b : TensorBlock) : Prop := ~ In (data_of (tb_values b)) refs.

Lemma add_merged_gradient_fails refs b parameter a samples components : made refs b -> ~ In a refs ->
  gff refs (outer refs) (p_add_merged_gradient b parameter a samples components) (made refs).
Proof.
  intros Hb Ha tr r H Hf. unfold p_add_merged_gradient in H. apply runs_bindp in H as (tr1 & [b' x] & tr2 & R1 & R2 & ->).
  apply Forall_app in Hf as [F1 _].
  pose proof (add_gradient_fails refs (inner refs) b parameter a samples components
    (inner_covers refs a _ _ Ha (or_introl eq_refl)) (inner_covers refs a _ _ Ha (or_intror eq_refl))
    (inner_covers refs _ _ _ Hb (or_intror eq_refl)) tr1 b' x R1 F1) as HG.
  unfold or_drop in R2. cbn [bindp] in R2. destruct HG as [[W HR]|[(before & c & an & aft & -> & B1 & B2 & B3 & B4 & B5) HR]].
  - left. destruct x as [[]|e|message|reason]; cbn [expect] in R2;
      [|apply then_fail_runs in R2 as [-> D]; split; [apply Forall_app; split; [exact W|apply destroys_work; exact D]|discriminate]..].
    apply runs_ret_inv in R2 as [-> ->]. rewrite app_nil_r. split; [exact W|]. intros y E. injection E as <-.
    unfold made. rewrite HR by reflexivity. exact Hb.
  - right. apply (inner_outer _ "created invalid gradients") in B5; [|exact HR].
    assert (Fl : failed_with (outer refs) (before ++ (c, an) :: aft) (expect "created invalid gradients" x)).
    { exists before, c, an, aft. repeat (split; [assumption || reflexivity|]). exact B5. }
    destruct x as [[]|e|message|reason]; cbn [expect] in R2, Fl; [exfalso; apply HR; reflexivity|..];
      apply then_fail_runs in R2 as [-> D]; (split; [apply failed_after; assumption|discriminate]).
Qed.

(** * components_to_properties *)

Lemma basic_components_fails refs b variables : In (data_of b) refs ->
  pff [] (outer refs) (p_basic_components_to_properties b variables) any.
Proof.
  intros H tr x r Hr Hf. unfold p_basic_components_to_properties in Hr.
  destruct (find_component _ _) as [axis|]; [|apply runs_ret_inv in Hr as [-> E]; injection E as -> ->; left; split; [constructor|discriminate]].
  destruct (nth_error _ _) as [moved|]; [|apply runs_ret_inv in Hr as [-> E]; injection E as -> ->; left; split; [constructor|discriminate]].
  cbv zeta in Hr. apply runs_bindp in Hr as (tr1 & y & tr2 & H1 & H2 & ->). apply Forall_app in Hf as [F1 _].
  match type of H1 with runs ?m _ _ => assert (Hm : gff [] (outer refs) m any) end.
  { do 5 (apply gff_pure; intros ? _).
    eapply gff_or_drop; [apply (gff_ask _ _ _ _ _ any); [reflexivity|apply outer_covers; [exact H|reflexivity]|intros; exact I]|]. intros shape _.
    do 4 (apply gff_pure; intros ? _).
    eapply gff_or_drop; [apply (gff_ask _ _ _ _ _ any); [reflexivity|apply outer_covers; [exact I|reflexivity]|intros; exact I]|]. intros _ _.
    eapply gff_or_drop; [apply (gff_ask _ _ _ _ _ any); [reflexivity|apply outer_covers; [exact I|reflexivity]|intros; exact I]|]. intros _ _.
    apply gff_ret; intros; exact I. }
  destruct (Hm tr1 y H1 F1) as [[W _]|[Fl HR]].
  - left. destruct y; apply runs_ret_inv in H2 as [-> E]; rewrite app_nil_r; (split; [exact W|intros; exact I]).
  - right. destruct y; [exfalso; eapply HR; reflexivity|..]; apply runs_ret_inv in H2 as [-> E]; rewrite app_nil_r; injection E as -> ->;
      (split; [exact Fl|discriminate]).
Qed.

(* a step which can fail, and then another one *)
Lemma pff_seq {X Y Z} refs rep (m : prog (X * outcome unit)) (m2 : X -> prog (Y * outcome unit)) (ok : X -> Y -> Z) (ko : X -> Z) :
  pff refs rep m any -> (forall x, pff refs rep (m2 x) any) ->
  pff refs rep (bindp m (fun '(x, r) => match r with
    | Ok _ => bindp (m2 x) (fun '(y, r') => Ret (ok x y, r'))
    | failure => Ret (ko x, failure)
    end)) any.
Proof.
  intros Hm Hm2 tr z r H Hf. apply runs_bindp in H as (tr1 & [x r1] & tr2 & R1 & R2 & ->). apply Forall_app in Hf as [F1 F2].
  destruct (Hm tr1 x r1 R1 F1) as [[W _]|[Fl HR]].
  - destruct r1 as [[]|e|message|reason];
      [|apply runs_ret_inv in R2 as [-> E]; injection E as -> ->; left; rewrite app_nil_r; split; [exact W|discriminate]..].
    apply runs_bindp in R2 as (tr3 & [y r'] & tr4 & R3 & R4 & ->). apply runs_ret_inv in R4 as [-> E]. injection E as -> ->.
    rewrite app_nil_r in *. destruct (Hm2 x tr3 y r' R3 F2) as [[W2 _]|[Fl2 HR2]].
    + left. split; [apply Forall_app; split; assumption|intros; exact I].
    + right. split; [apply failed_before; assumption|exact HR2].
  - destruct r1 as [[]|e|message|reason]; [exfalso; apply HR; reflexivity|..];
      apply runs_ret_inv in R2 as [-> E]; injection E as -> ->; right; rewrite app_nil_r; (split; [exact Fl|discriminate]).
Qed.

Lemma pff_ret {X} refs rep (x : X) r : pff refs rep (Ret (x, r)) any.
Proof. intros tr y r' H _. apply runs_ret_inv in H as [-> _]. left. split; [constructor|intros; exact I]. Qed.

Lemma gradients_components_fails refs variables gradients : incl (gradients_arrays gradients) refs ->
  pff [] (outer refs) (p_gradients_components_to_properties variables gradients) any.
Proof.
  induction gradients as [|[parameter gradient] rest IH]; intros Hi; cbn [p_gradients_components_to_properties]; [apply pff_ret|].
  apply (pff_seq [] _ _ (fun _ => p_gradients_components_to_properties variables rest)
           (fun g rest' => (parameter, g) :: rest') (fun g => (parameter, g) :: rest)).
  - apply basic_components_fails. apply Hi. left. reflexivity.
  - intros _. apply IH. intros y Hy. apply Hi. right. exact Hy.
Qed.

Lemma block_components_fails refs b variables : incl (block_arrays b) refs ->
  pff [] (outer refs) (p_block_components_to_properties b variables) any.
Proof.
  intros Hi. unfold p_block_components_to_properties. destruct variables as [|v variables]; [apply pff_ret|].
  apply (pff_seq [] _ _ (fun _ => p_gradients_components_to_properties (v :: variables) (tb_gradients b))
           (fun values gradients => mk_block values gradients (tb_gradient_parameters b))
           (fun values => mk_block values (tb_gradients b) (tb_gradient_parameters b))).
  - apply basic_components_fails. apply Hi. left. reflexivity.
  - intros _. apply gradients_components_fails. intros y Hy. apply Hi. right. exact Hy.
Qed.

Lemma blocks_components_fails refs variables blocks : incl (blocks_arrays blocks) refs ->
  pff [] (outer refs) (p_blocks_components_to_properties variables blocks) any.
Proof.
  induction blocks as [|b rest IH]; intros Hi; cbn [p_blocks_components_to_properties]; [apply pff_ret|].
  unfold blocks_arrays in Hi. cbn [flat_map] in Hi.
  apply (pff_seq [] _ _ (fun _ => p_blocks_components_to_properties variables rest) (fun b rest' => b :: rest') (fun b => b :: rest)).
  - apply block_components_fails. intros y Hy. apply Hi. apply in_app_iff. left. exact Hy.
  - intros _. apply IH. intros y Hy. apply Hi. apply in_app_iff. right. exact Hy.
Qed.

Lemma components_fails t variables : pff [] (outer (tensor_arrays t)) (p_components_to_properties t variables) any.
Proof.
  unfold p_components_to_properties. destruct variables as [|v variables]; [apply pff_ret|].
  intros tr t' r H Hf. apply runs_bindp in H as (tr1 & [blocks x] & tr2 & H1 & H2 & ->). apply runs_ret_inv in H2 as [-> E]. injection E as -> ->.
  rewrite app_nil_r in *. destruct (blocks_components_fails (tensor_arrays t) (v :: variables) (tm_blocks t) (fun y Hy => Hy) tr1 blocks x H1 Hf) as [[W _]|F].
  - left. split; [exact W|intros; exact I].
  - right. exact F.
Qed.

(** * keys_to_samples and keys_to_properties *)

Lemma each_fails {A} refs rep (f : A -> prog (outcome unit)) l : (forall x, In x l -> gff refs rep (f x) any) -> gff refs rep (each f l) any.
Proof.
  induction l as [|x l IH]; intros H; cbn [each]; [apply gff_ret; intros; exact I|].
  eapply gff_or_drop; [apply H; left; reflexivity|]. intros _ _. apply IH. intros y Hy. apply H. right. exact Hy.
Qed.

Lemma each_gradient_fails {A} refs rep (f : TensorBlock -> A -> prog (outcome TensorBlock)) l (R : TensorBlock -> Prop) :
  (forall b x, In x l -> R b -> gff refs rep (f b x) R) -> forall b, R b -> gff refs rep (each_gradient f l b) R.
Proof.
  induction l as [|x l IH]; intros H b Hb; cbn [each_gradient].
  - apply gff_ret. intros y E. injection E as <-. exact Hb.
  - eapply gff_or_drop; [apply H; [left; reflexivity|exact Hb]|]. intros b' Hb'. apply IH; [|exact Hb']. intros b2 y Hy. apply H. right. exact Hy.
Qed.

Lemma each_block_fails {A} refs rep (f : A -> prog (outcome TensorBlock)) l : (forall x, In x l -> gff refs rep (f x) any) ->
  forall done, gff refs rep (each_block f done l) any.
Proof.
  induction l as [|x l IH]; intros H done; cbn [each_block]; [apply gff_ret; intros; exact I|].
  eapply gff_or_drop; [apply H; left; reflexivity|]. intros b _. apply IH. intros y Hy. apply H. right. exact Hy.
Qed.

Lemma shape_fails refs a : In a refs -> gff refs (outer refs) (p_shape a) any.
Proof. intros H. apply gff_ask; [reflexivity|apply outer_covers; [exact H|reflexivity]|intros; exact I]. Qed.
Lemma move_fails refs a b l i j : gff refs (outer refs) (p_move a b l i j) any.
Proof. apply gff_ask; [reflexivity|apply outer_covers; [exact I|reflexivity]|intros; exact I]. Qed.
Lemma create_fails refs a shape : gff refs (outer refs) (p_create a shape) (fun n => ~ In n refs).
Proof.
  apply gff_ask; [reflexivity|apply outer_covers; [exact I|reflexivity]|]. intros an W H. apply H. cbn [created]. rewrite W. reflexivity.
Qed.

Lemma move_gradient_fails refs p parameter components samples b mapping start stop a :
  gff refs (outer refs) (p_move_gradient p parameter components samples b mapping start stop a) any.
Proof. unfold p_move_gradient. do 4 (apply gff_pure; intros ? _). apply move_fails. Qed.

Lemma new_block_fails refs message a samples components properties : ~ In a refs ->
  gff refs (outer refs) (expectp message (p_block_new a samples components properties)) (made refs).
Proof.
  intros Ha. eapply (gff_expectp _ (inner refs)); [intros c an r; apply inner_outer|].
  eapply gff_weaken; [|apply block_new_fails; eapply inner_covers; eauto]. intros b E. unfold made. rewrite E. exact Ha.
Qed.

Lemma merge_samples_fails refs p blocks names sort : given refs blocks ->
  gff refs (outer refs) (p_merge_blocks_along_samples p blocks names sort) any.
Proof.
  intros Hg. unfold p_merge_blocks_along_samples. destruct blocks as [|[key first] blocks]; [apply gff_ret; intros; exact I|].
  set (all := (key, first) :: blocks) in *. cbv zeta.
  assert (Hf : incl (block_arrays first) refs) by (eapply given_in; [exact Hg|left; reflexivity]).
  assert (Hv : In (data_of (tb_values first)) refs) by (apply Hf; left; reflexivity).
  apply gff_pure; intros _ _. apply gff_pure. intros [merged mappings] _.
  eapply gff_or_drop; [apply shape_fails; exact Hv|]. intros shape _.
  do 2 (apply gff_pure; intros ? _).
  eapply gff_or_drop; [apply create_fails|]. intros new_data Hnew.
  apply gff_pure. intros n_properties _.
  eapply gff_or_drop; [apply each_fails; intros [[k b] mapping] _; apply move_fails|]. intros _ _.
  eapply gff_or_drop; [apply new_block_fails; exact Hnew|]. intros nb Hnb.
  eapply gff_weaken; [intros b _; exact I|]. apply (each_gradient_fails _ _ _ _ (made refs)); [|exact Hnb].
  clear nb Hnb. intros nb [parameter g] Hin Hnb.
  assert (Hgr : In (data_of g) refs).
  { apply Hf. right. apply (in_map (fun pg => data_of (snd pg)) _ _ Hin). }
  apply gff_pure. intros samples _.
  eapply gff_or_drop; [apply shape_fails; exact Hgr|]. intros shape2 _.
  do 2 (apply gff_pure; intros ? _).
  eapply gff_or_drop; [apply create_fails|]. intros new_gradient Hng.
  eapply gff_or_drop; [apply each_fails; intros [[k b] mapping] _; apply move_gradient_fails|]. intros _ _.
  apply add_merged_gradient_fails; assumption.
Qed.

Lemma merge_properties_fails refs p blocks keys names sort : given refs blocks ->
  gff refs (outer refs) (p_merge_blocks_along_properties p blocks keys names sort) any.
Proof.
  intros Hg. unfold p_merge_blocks_along_properties. destruct blocks as [|[key first] blocks]; [apply gff_ret; intros; exact I|].
  set (all := (key, first) :: blocks) in *. cbv zeta.
  assert (Hf : incl (block_arrays first) refs) by (eapply given_in; [exact Hg|left; reflexivity]).
  assert (Hv : In (data_of (tb_values first)) refs) by (apply Hf; left; reflexivity).
  apply gff_pure; intros _ _. apply gff_pure. intros [merged mappings] _.
  do 3 (apply gff_pure; intros ? _).
  eapply gff_or_drop; [apply shape_fails; exact Hv|]. intros shape _.
  do 3 (apply gff_pure; intros ? _).
  eapply gff_or_drop; [apply create_fails|]. intros new_data Hnew.
  apply gff_pure. intros ranges _.
  eapply gff_or_drop; [apply each_fails; intros [[[k b] mapping] [[start stop]|]] _; [apply move_fails|apply gff_ret; intros; exact I]|]. intros _ _.
  eapply gff_or_drop; [apply new_block_fails; exact Hnew|]. intros nb Hnb.
  eapply gff_weaken; [intros b _; exact I|]. apply (each_gradient_fails _ _ _ _ (made refs)); [|exact Hnb].
  clear nb Hnb. intros nb [parameter g] Hin Hnb.
  assert (Hgr : In (data_of g) refs).
  { apply Hf. right. apply (in_map (fun pg => data_of (snd pg)) _ _ Hin). }
  apply gff_pure. intros samples _.
  eapply gff_or_drop; [apply shape_fails; exact Hgr|]. intros shape2 _.
  do 3 (apply gff_pure; intros ? _).
  eapply gff_or_drop; [apply create_fails|]. intros new_gradient Hng.
  eapply gff_or_drop; [apply each_fails; intros [[[k b] mapping] [[start stop]|]] _; [apply move_gradient_fails|apply gff_ret; intros; exact I]|]. intros _ _.
  apply add_merged_gradient_fails; assumption.
Qed.

Lemma merged_blocks_fails t new_keys positions merge :
  (forall blocks, given (tensor_arrays t) blocks -> gff (tensor_arrays t) (outer (tensor_arrays t)) (merge blocks) any) ->
  gff (tensor_arrays t) (outer (tensor_arrays t)) (p_merged_blocks t new_keys positions merge) any.
Proof.
  intros Hm. unfold p_merged_blocks. apply gff_pure. intros n _. destruct (n =? 1).
  - apply gff_pure. intros blocks E. eapply gff_or_drop; [apply Hm; eapply all_given; eauto|]. intros b _. apply gff_ret; intros; exact I.
  - apply gff_pure. intros entries _. apply each_block_fails. intros entry _. apply gff_pure. intros blocks E. apply Hm. eapply some_given; eauto.
Qed.

Lemma samples_compute_fails p t keys sort : gff (tensor_arrays t) (outer (tensor_arrays t)) (p_keys_to_samples_compute p t keys sort) any.
Proof.
  unfold p_keys_to_samples_compute. apply gff_pure. intros count _. destruct (0 <? count); [apply gff_ret; intros; exact I|].
  cbv zeta. apply gff_pure. intros [new_keys positions] _.
  eapply gff_or_drop; [apply merged_blocks_fails; intros blocks Hg; apply merge_samples_fails; exact Hg|].
  intros blocks _. apply gff_ret; intros; exact I.
Qed.

Lemma properties_compute_fails p t keys sort : gff (tensor_arrays t) (outer (tensor_arrays t)) (p_keys_to_properties_compute p t keys sort) any.
Proof.
  unfold p_keys_to_properties_compute. cbv zeta. apply gff_pure. intros [new_keys positions] _. apply gff_pure. intros count _.
  eapply gff_or_drop; [apply merged_blocks_fails; intros blocks Hg; apply merge_properties_fails; exact Hg|].
  intros blocks _. apply gff_ret; intros; exact I.
Qed.

Lemma new_arrays_fresh refs tr : forall alive, incl refs alive -> Forall (fun '(c, _) => forall a, In a (changed c) -> ~ In a refs) tr ->
  new_arrays alive tr -> fresh refs tr.
Proof.
  induction tr as [|[c an] tr IH]; intros alive Hi Hc Hn; [constructor|]. inversion Hc as [|? ? H1 H2]; subst.
  destruct (is_destroy c) eqn:D.
  - destruct c; try discriminate D. cbn [new_arrays] in Hn. constructor; [intros x E; discriminate E|].
    apply (IH (forget a alive)); [|exact H2|exact Hn]. intros x Hx. apply forget_in. split; [apply Hi, Hx|]. intros ->. apply (H1 a); [left; reflexivity|exact Hx].
  - assert (E : match created c an with Some a => ~ In a alive /\ new_arrays (a :: alive) tr | None => new_arrays alive tr end)
      by (destruct c; try discriminate D; exact Hn).
    destruct (created c an) as [a|] eqn:C.
    + destruct E as [E1 E2]. constructor; [intros x E; rewrite C in E; injection E as <-; intros Hx; apply E1, Hi, Hx|].
      apply (IH (a :: alive)); [intros x Hx; right; apply Hi, Hx|exact H2|exact E2].
    + constructor; [intros x Ex; rewrite C in Ex; discriminate Ex|]. apply (IH alive); assumption.
Qed.

Lemma new_arrays_prefix tr1 tr2 : forall l, new_arrays l (tr1 ++ tr2) -> new_arrays l tr1.
Proof.
  induction tr1 as [|[c an] tr1 IH]; intros l Hf; [exact I|].
  assert (Hc : match created c an with Some a => ~ In a l /\ new_arrays (a :: l) (tr1 ++ tr2) | None => new_arrays l (tr1 ++ tr2) end ->
               match created c an with Some a => ~ In a l /\ new_arrays (a :: l) tr1 | None => new_arrays l tr1 end).
  { destruct (created c an); [intros [H1 H2]; split; [exact H1|apply IH; exact H2]|apply IH]. }
  destruct c; cbn [new_arrays app] in *; try (apply Hc; exact Hf). apply IH; exact Hf.
Qed.

Lemma failed_first given tr r : failed_with (outer given) tr r -> first_failure given tr r.
Proof. intros H. right. exact H. Qed.

Lemma replace_first t m tr t' r : ftriple (tensor_arrays t) [] m computed [] -> gff (tensor_arrays t) (outer (tensor_arrays t)) m any ->
  NoDup (tensor_arrays t) -> new_arrays (tensor_arrays t) tr ->
  runs (p_replace t m) tr (t', r) -> first_failure (tensor_arrays t) tr r.
Proof.
  intros Hm Hg Hn Hf H. unfold p_replace in H. apply runs_bindp in H as (tr1 & x & tr2 & H1 & H2 & ->).
  assert (Hf1 := new_arrays_prefix _ _ _ Hf).
  destruct (Hm tr1 x H1 (tensor_arrays t)) as (alive & _ & _ & C); [exact Hn|intros y Hy; exact Hy|exact Hf1|].
  assert (F1 : fresh (tensor_arrays t) tr1) by (eapply new_arrays_fresh; [|exact C|exact Hf1]; intros y Hy; exact Hy).
  destruct (Hg tr1 x H1 F1) as [[W _]|[Fl HR]].
  - left. apply Forall_app. split; [exact W|].
    destruct x as [[keys blocks]|e|message|reason]; [|apply runs_ret_inv in H2 as [-> _]; constructor..].
    apply runs_bindp in H2 as (tr3 & u & tr4 & H3 & H4 & ->). apply runs_ret_inv in H4 as [-> _]. rewrite app_nil_r.
    apply destroys_work. eapply drop_destroys; eauto.
  - right. destruct x as [a|e|message|reason]; [exfalso; eapply HR; reflexivity|..];
      apply runs_ret_inv in H2 as [-> E]; injection E as -> ->; rewrite app_nil_r; exact Fl.
Qed.

Lemma pff_first {X} refs refs' (m : prog (X * outcome unit)) R tr x r : pff refs' (outer refs) m R -> fresh refs' tr -> runs m tr (x, r) -> first_failure refs tr r.
Proof. intros H Hf Hr. destruct (H tr x r Hr Hf) as [[W _]|[F _]]; [left; exact W|right; exact F]. Qed.

Lemma erase_reports {A} given c an (r : outcome A) : reports given c an (erase r) -> (forall a, r <> Ok a) -> reports given c an r.
Proof.
  intros [H1 H2] Hr. split; intros P; [destruct (H1 P) as (message & E)|specialize (H2 P) as E];
    (destruct r; try discriminate E).
  - injection E as <-. eexists; reflexivity.
  - injection E as ->. reflexivity.
Qed.

Lemma gff_first {A} refs refs' (m : prog (outcome A)) R tr r : gff refs' (outer refs) m R -> fresh refs' tr -> runs m tr r -> first_failure refs tr r.
Proof.
  intros H Hf Hr. destruct (H tr r Hr Hf) as [[W _]|[(before & c & an & aft & E & B1 & B2 & B3 & B4 & B5) HR]]; [left; exact W|right].
  exists before, c, an, aft. repeat (split; [assumption|]). apply erase_reports; assumption.
Qed.

(** * clone *)

Lemma copy_fails refs refs' a : gff refs' (outer refs) (p_copy a) any.
Proof.
  intros tr r H _. unfold p_copy in H. apply runs_ask_inv in H as (an & tr' & -> & H). apply runs_ret_inv in H as [-> ->].
  destruct (works an) eqn:W; [left; split; [|intros; exact I]|right; split].
  - constructor; [right; exact W|constructor].
  - exists [], (QCopy a), an, []. split; [reflexivity|]. split; [constructor|]. split; [exact W|]. split; [reflexivity|]. split; [constructor|].
    unfold works in W. split; [intros _|intros N; exfalso; apply N; right; exact I].
    destruct (an_null an); [eexists; reflexivity|]. destruct (an_status an =? 0)%Z; [discriminate W|eexists; reflexivity].
  - intros x E. unfold works in W. destruct (an_null an); [discriminate E|]. destruct (an_status an =? 0)%Z; [discriminate W|discriminate E].
Qed.

Lemma basic_clone_fails refs refs' b : gff refs' (outer refs) (p_basic_clone b) any.
Proof. unfold p_basic_clone. eapply gff_or_drop; [apply copy_fails|]. intros a _. apply gff_ret. intros; exact I. Qed.

Lemma gradients_clone_fails refs refs' gradients : forall done, gff refs' (outer refs) (p_gradients_clone done gradients) any.
Proof.
  induction gradients as [|[parameter gradient] rest IH]; intros done; cbn [p_gradients_clone]; [apply gff_ret; intros; exact I|].
  eapply gff_or_drop; [apply basic_clone_fails|]. intros g _. apply IH.
Qed.

Lemma block_clone_fails refs refs' b : gff refs' (outer refs) (p_block_clone b) any.
Proof.
  unfold p_block_clone. eapply gff_or_drop; [apply basic_clone_fails|]. intros values _.
  eapply gff_or_drop; [apply gradients_clone_fails|]. intros gradients _. apply gff_ret. intros; exact I.
Qed.

(** * All functions *)

Lemma fresh_nil tr : fresh [] tr.
Proof. apply Forall_forall. intros [c an] _ a _ []. Qed.

Lemma block_new_first a samples components properties tr r :
  runs (p_block_new a samples components properties) tr r -> first_failure [a] tr r.
Proof.
  intros H. eapply (gff_first _ []); [|apply fresh_nil|exact H]. apply block_new_fails. apply outer_covers; [left; reflexivity|reflexivity].
Qed.

Lemma add_gradient_first b parameter a samples components tr b' r :
  runs (p_add_gradient b parameter a samples components) tr (b', r) -> first_failure (a :: block_arrays b) tr r.
Proof.
  intros H. eapply (pff_first _ []); [|apply fresh_nil|exact H].
  apply add_gradient_fails; (apply outer_covers; [|reflexivity]); [left; reflexivity|left; reflexivity|right; left; reflexivity].
Qed.

Lemma block_clone_first b tr r : runs (p_block_clone b) tr r -> first_failure (block_arrays b) tr r.
Proof. intros H. eapply (gff_first _ []); [apply block_clone_fails|apply fresh_nil|exact H]. Qed.

Lemma components_first t variables tr t' r :
  runs (p_components_to_properties t variables) tr (t', r) -> first_failure (tensor_arrays t) tr r.
Proof. intros H. eapply (pff_first _ []); [apply components_fails|apply fresh_nil|exact H]. Qed.

Lemma keys_to_samples_first p t keys sort tr t' r : NoDup (tensor_arrays t) -> new_arrays (tensor_arrays t) tr ->
  runs (p_keys_to_samples p t keys sort) tr (t', r) -> first_failure (tensor_arrays t) tr r.
Proof. intros Hn Hf. apply replace_first; [apply samples_compute_ok|apply samples_compute_fails|exact Hn|exact Hf]. Qed.

Lemma keys_to_properties_first p t keys sort tr t' r : NoDup (tensor_arrays t) -> new_arrays (tensor_arrays t) tr ->
  runs (p_keys_to_properties p t keys sort) tr (t', r) -> first_failure (tensor_arrays t) tr r.
Proof. intros Hn Hf. apply replace_first; [apply properties_compute_ok|apply properties_compute_fails|exact Hn|exact Hf]. Qed.

(** * Arrays are accounted for *)

Lemma samples_accounts p t keys sort others tr t' r : NoDup (tensor_arrays t ++ others) -> new_arrays (tensor_arrays t ++ others) tr ->
  runs (p_keys_to_samples p t keys sort) tr (t', r) -> accounts others (tensor_arrays t) tr (tensor_arrays t').
Proof.
  intros Hn Hf H. exact (keys_to_samples_ok [] p t keys sort tr (t', r) H others Hn (fun y Hy => match Hy with end) Hf).
Qed.

Lemma properties_accounts p t keys sort others tr t' r : NoDup (tensor_arrays t ++ others) -> new_arrays (tensor_arrays t ++ others) tr ->
  runs (p_keys_to_properties p t keys sort) tr (t', r) -> accounts others (tensor_arrays t) tr (tensor_arrays t').
Proof.
  intros Hn Hf H. exact (keys_to_properties_ok [] p t keys sort tr (t', r) H others Hn (fun y Hy => match Hy with end) Hf).
Qed.

Lemma components_accounts t variables others tr t' r : NoDup (tensor_arrays t ++ others) -> new_arrays (tensor_arrays t ++ others) tr ->
  runs (p_components_to_properties t variables) tr (t', r) ->
  accounts others (tensor_arrays t) tr (tensor_arrays t') /\ tensor_arrays t' = tensor_arrays t.
Proof.
  intros Hn Hf H. pose proof (components_ok [] t variables tr (t', r) H others Hn (fun y Hy => match Hy with end) Hf) as Ha.
  apply components_same in H. rewrite H. split; [exact Ha|reflexivity].
Qed.

Lemma block_new_accounts a samples components properties others tr r : NoDup (a :: others) -> new_arrays (a :: others) tr ->
  runs (p_block_new a samples components properties) tr r ->
  accounts others [a] tr (match r with Ok b => block_arrays b | _ => [] end) /\ (forall b, r = Ok b -> block_arrays b = [a]).
Proof.
  intros Hn Hf H. pose proof (block_new_ok [] [] a samples components properties tr r H others Hn (fun y Hy => match Hy with end) Hf) as Ha.
  split; [destruct r; cbn [after] in Ha; try exact Ha; rewrite app_nil_r in Ha; exact Ha|].
  intros b ->. unfold p_block_new, or_drop in H. apply runs_bindp in H as (tr1 & x & tr2 & _ & H & _).
  destruct x; [|exfalso; unfold then_fail in H; apply runs_bindp in H as (? & ? & ? & _ & H & _); apply runs_ret_inv in H as [_ E]; discriminate E..].
  apply runs_bindp in H as (tr3 & x & tr4 & _ & H & _).
  destruct x; [|exfalso; unfold then_fail in H; apply runs_bindp in H as (? & ? & ? & _ & H & _); apply runs_ret_inv in H as [_ E]; discriminate E..].
  apply runs_ret_inv in H as [_ E]. injection E as ->. reflexivity.
Qed.

Lemma add_gradient_accounts b parameter a samples components others tr b' r :
  NoDup ((a :: block_arrays b) ++ others) -> new_arrays ((a :: block_arrays b) ++ others) tr ->
  runs (p_add_gradient b parameter a samples components) tr (b', r) ->
  accounts others (a :: block_arrays b) tr (block_arrays b').
Proof.
  intros Hn Hf H. pose proof (add_gradient_ok [] [] b parameter a samples components tr (b', r) H others) as Ha.
  rewrite app_nil_r in Ha. specialize (Ha Hn (fun y Hy => match Hy with end) Hf). unfold block_kept in Ha. cbn [fst] in Ha. rewrite app_nil_r in Ha. exact Ha.
Qed.

Lemma tensor_new_accounts keys blocks others tr r : NoDup (blocks_arrays blocks ++ others) -> new_arrays (blocks_arrays blocks ++ others) tr ->
  runs (p_tensor_new keys blocks) tr r ->
  accounts others (blocks_arrays blocks) tr (match r with Ok t => tensor_arrays t | _ => [] end).
Proof.
  intros Hn Hf H. exact (tensor_new_ok [] keys blocks tr r H others Hn (fun y Hy => match Hy with end) Hf).
Qed.

Lemma block_clone_accounts b others tr r : NoDup (block_arrays b ++ others) -> new_arrays (block_arrays b ++ others) tr ->
  runs (p_block_clone b) tr r ->
  accounts (block_arrays b ++ others) [] tr (match r with Ok b' => block_arrays b' | _ => [] end).
Proof.
  intros Hn Hf H.
  exact (block_clone_ok (block_arrays b) b (fun y Hy => Hy) tr r H (block_arrays b ++ others) Hn (fun y Hy => proj2 (in_app_iff _ _ y) (or_introl Hy)) Hf).
Qed.

Lemma samples_failed p t keys sort others tr t' r : NoDup (tensor_arrays t ++ others) -> new_arrays (tensor_arrays t ++ others) tr ->
  runs (p_keys_to_samples p t keys sort) tr (t', r) -> r <> Ok tt ->
  t' = t /\ Forall (fun '(c, _) => forall a, In a (changed c) -> ~ In a (tensor_arrays t)) tr.
Proof. intros Hn Hf H Hr. exact (replace_failed t _ tr t' r others (samples_compute_ok p t keys sort) H Hr Hn Hf). Qed.

Lemma properties_failed p t keys sort others tr t' r : NoDup (tensor_arrays t ++ others) -> new_arrays (tensor_arrays t ++ others) tr ->
  runs (p_keys_to_properties p t keys sort) tr (t', r) -> r <> Ok tt ->
  t' = t /\ Forall (fun '(c, _) => forall a, In a (changed c) -> ~ In a (tensor_arrays t)) tr.
Proof. intros Hn Hf H Hr. exact (replace_failed t _ tr t' r others (properties_compute_ok p t keys sort) H Hr Hn Hf). Qed.
