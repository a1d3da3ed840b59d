(* The functions on blocks and tensor maps account for all their arrays *)
From Verif Require Import Base BaseFacts Labels Array Block Tensor Callbacks SpecCallbacks CallbacksFacts DefinedFacts.
From Coq Require Import Permutation.
Local Open Scope string_scope.
Local Open Scope list_scope.
Local Open Scope nat_scope.

Ltac inn := first [ assumption | apply in_app_iff; first [left; assumption | right; assumption] | cbn; tauto ].
Ltac perm := cbv beta; first [ rewrite ?app_nil_r; apply Permutation_refl | cbn [app]; apply Permutation_refl ].
Ltac keep own := eapply (ftriple_or_drop _ own _ _ _ (fun _ => own) _ _ own).

Lemma check_ok refs own context a samples components properties : In a (own ++ refs) ->
  ftriple refs own (p_check context a samples components properties) (fun _ => own) own.
Proof.
  intros H. unfold p_check. keep own; [apply shape_ok; exact H|perm|]. intros shape. apply ftriple_ret; intros; perm.
Qed.

Lemma block_new_ok refs own a samples components properties :
  ftriple refs (a :: own) (p_block_new a samples components properties) (fun b => block_arrays b ++ own) own.
Proof.
  unfold p_block_new. keep (a :: own); [apply check_ok; left; reflexivity|perm|]. intros _.
  apply ftriple_pure; [perm|]. intros _ _. apply ftriple_ret; [|intros H; exfalso; eapply H; reflexivity].
  intros b E. injection E as <-. perm.
Qed.

Lemma same_origin_ok refs own b a : In a (own ++ refs) -> In (data_of (tb_values b)) (own ++ refs) ->
  ftriple refs own (p_same_origin b a) (fun _ => own) own.
Proof.
  intros H1 H2. unfold p_same_origin. keep own; [apply origin_ok; exact H1|perm|]. intros o1.
  keep own; [apply origin_ok; exact H2|perm|]. intros o2. destruct (negb _).
  - keep own; [apply origin_ok; exact H1|perm|]. intros _. keep own; [apply origin_ok; exact H2|perm|]. intros _.
    apply ftriple_ret; intros; perm.
  - apply ftriple_ret; intros; perm.
Qed.

Lemma check_gradient_ok refs own b parameter a samples components : In a (own ++ refs) -> In (data_of (tb_values b)) (own ++ refs) ->
  ftriple refs own (p_check_gradient b parameter a samples components) (fun _ => own) own.
Proof.
  intros H1 H2. unfold p_check_gradient. destruct (hm_contains _ _ _); [apply ftriple_ret; intros; perm|].
  keep own; [apply same_origin_ok; assumption|perm|]. intros _.
  destruct (String.eqb parameter "values"); [apply ftriple_ret; intros; perm|].
  destruct (_ || _)%bool; [apply ftriple_ret; intros; perm|].
  apply ftriple_pure; [perm|]. intros _ _.
  destruct (_ <? _); [apply ftriple_ret; intros; perm|]. cbv zeta.
  apply ftriple_pure; [perm|]. intros _ _. apply check_ok. exact H1.
Qed.

Definition block_kept (own : list nat) (br : TensorBlock * outcome unit) : list nat := block_arrays (fst br) ++ own.

Lemma inserted_arrays b parameter a samples components properties parameters :
  Permutation (a :: block_arrays b)
    (block_arrays (mk_block (tb_values b) (hm_insert_new (tb_gradients b) parameter (mk_basic (pointer a) samples components properties)) parameters)).
Proof.
  unfold block_arrays, hm_insert_new. cbn [tb_values tb_gradients]. rewrite map_app. cbn [map snd data_of pointer_of bb_data pointer a_kind].
  eapply perm_trans; [apply perm_swap|]. apply perm_skip. apply Permutation_cons_append.
Qed.

Lemma add_gradient_ok refs own b parameter a samples components :
  triple refs (a :: block_arrays b ++ own) (p_add_gradient b parameter a samples components) (block_kept own).
Proof.
  unfold p_add_gradient. eapply (triple_bind _ _ _ _ (fun _ => a :: block_arrays b ++ own)).
  - eapply triple_perm; [apply (check_gradient_ok refs (a :: block_arrays b ++ own))|apply Permutation_refl|].
    + left. reflexivity.
    + right. left. reflexivity.
    + intros []; apply Permutation_refl.
  - assert (Hd : forall r : outcome unit, triple refs (a :: block_arrays b ++ own) (bindp (drop_arrays [a]) (fun _ => Ret (b, r))) (block_kept own)).
    { intros r. eapply (triple_bind _ _ _ _ (fun _ => [] ++ (block_arrays b ++ own))).
      - apply (triple_frame refs refs [a] (block_arrays b ++ own)); [|apply triple_drop]. intros x Hx; apply in_app_iff; left; exact Hx.
      - intros _. apply triple_ret. apply Permutation_refl. }
    intros [u|e|message|reason]; try apply Hd. cbv zeta.
    destruct (cstring_new parameter); apply triple_ret; unfold block_kept; cbn [fst];
      rewrite app_comm_cons; apply Permutation_app_tail; apply inserted_arrays.
Qed.

Lemma add_merged_gradient_ok refs own b parameter a samples components :
  ftriple refs (a :: block_arrays b ++ own) (p_add_merged_gradient b parameter a samples components) (fun b => block_arrays b ++ own) own.
Proof.
  unfold p_add_merged_gradient, ftriple. eapply triple_bind; [apply add_gradient_ok|].
  intros [b' r]. unfold block_kept. cbn [fst]. apply ftriple_pure; [perm|]. intros _ _.
  apply ftriple_ret; [|intros H; exfalso; eapply H; reflexivity]. intros x E. injection E as <-. perm.
Qed.

(** * components_to_properties *)

Lemma basic_components_same b variables tr b' r : runs (p_basic_components_to_properties b variables) tr (b', r) -> data_of b' = data_of b.
Proof.
  unfold p_basic_components_to_properties. destruct (find_component _ _) as [axis|]; [|intros H; apply runs_ret_inv in H as [_ H]; injection H as -> _; reflexivity].
  destruct (nth_error _ _) as [moved|]; [|intros H; apply runs_ret_inv in H as [_ H]; injection H as -> _; reflexivity].
  cbv zeta. intros H. apply runs_bindp in H as (tr1 & x & tr2 & _ & H & _).
  destruct x; apply runs_ret_inv in H as [_ H]; injection H as -> _; reflexivity.
Qed.

Lemma basic_components_ok refs own b variables : In (data_of b) own ->
  triple refs own (p_basic_components_to_properties b variables) (fun _ => own).
Proof.
  intros H. unfold p_basic_components_to_properties. destruct (find_component _ _) as [axis|]; [|apply triple_ret; perm].
  destruct (nth_error _ _) as [moved|]; [|apply triple_ret; perm]. cbv zeta.
  eapply (triple_bind _ _ _ _ (fun _ => own)).
  - match goal with |- triple _ _ ?m _ => assert (Hm : ftriple refs own m (fun _ => own) own) end.
    { do 5 (apply ftriple_pure; [perm|]; intros ? _).
      keep own; [apply shape_ok; inn|perm|]. intros shape.
      do 4 (apply ftriple_pure; [perm|]; intros ? _).
      keep own; [apply swap_ok; exact H|perm|]. intros _.
      keep own; [apply reshape_ok; exact H|perm|]. intros _. apply ftriple_ret; intros; perm. }
    eapply triple_perm; [exact Hm|apply Permutation_refl|]. intros []; apply Permutation_refl.
  - intros []; apply triple_ret; perm.
Qed.

Definition gradients_arrays (gradients : list (string * BasicBlock)) : list nat := map (fun pg => data_of (snd pg)) gradients.

Lemma gradients_components_same variables gradients : forall tr gradients' r,
  runs (p_gradients_components_to_properties variables gradients) tr (gradients', r) -> gradients_arrays gradients' = gradients_arrays gradients.
Proof.
  induction gradients as [|[parameter gradient] rest IH]; intros tr gradients' r H; cbn [p_gradients_components_to_properties] in H.
  - apply runs_ret_inv in H as [_ H]. injection H as -> _. reflexivity.
  - apply runs_bindp in H as (tr1 & [g x] & tr2 & H1 & H & _). apply basic_components_same in H1.
    destruct x as [u|e|message|reason]; [|apply runs_ret_inv in H as [_ H]; injection H as -> _; cbn; rewrite H1; reflexivity..].
    apply runs_bindp in H as (tr3 & [rest' r'] & tr4 & H2 & H & _). apply runs_ret_inv in H as [_ H]. injection H as -> _.
    apply IH in H2. cbn. rewrite H1. f_equal. exact H2.
Qed.

Lemma gradients_components_ok refs own variables gradients : incl (gradients_arrays gradients) own ->
  triple refs own (p_gradients_components_to_properties variables gradients) (fun _ => own).
Proof.
  induction gradients as [|[parameter gradient] rest IH]; intros Hi; cbn [p_gradients_components_to_properties].
  - apply triple_ret; perm.
  - eapply (triple_bind _ _ _ _ (fun _ => own)); [apply basic_components_ok; apply Hi; left; reflexivity|].
    intros [g x]. destruct x; try (apply triple_ret; perm).
    eapply (triple_bind _ _ _ _ (fun _ => own)); [apply IH; intros y Hy; apply Hi; right; exact Hy|]. intros [rest' r']. apply triple_ret; perm.
Qed.

Lemma block_components_same b variables tr b' r : runs (p_block_components_to_properties b variables) tr (b', r) -> block_arrays b' = block_arrays b.
Proof.
  unfold p_block_components_to_properties. destruct variables as [|v variables]; [intros H; apply runs_ret_inv in H as [_ H]; injection H as -> _; reflexivity|].
  intros H. apply runs_bindp in H as (tr1 & [g x] & tr2 & H1 & H & _). apply basic_components_same in H1.
  destruct x as [u|e|message|reason]; [|apply runs_ret_inv in H as [_ H]; injection H as -> _; unfold block_arrays; cbn; rewrite H1; reflexivity..].
  apply runs_bindp in H as (tr3 & [gs r'] & tr4 & H2 & H & _). apply runs_ret_inv in H as [_ H]. injection H as -> _.
  apply gradients_components_same in H2. unfold block_arrays; cbn. rewrite H1. f_equal. exact H2.
Qed.

Lemma block_components_ok refs own b variables : incl (block_arrays b) own ->
  triple refs own (p_block_components_to_properties b variables) (fun _ => own).
Proof.
  intros Hi. unfold p_block_components_to_properties. destruct variables as [|v variables]; [apply triple_ret; perm|].
  eapply (triple_bind _ _ _ _ (fun _ => own)); [apply basic_components_ok; apply Hi; left; reflexivity|].
  intros [g x]. destruct x; try (apply triple_ret; perm).
  eapply (triple_bind _ _ _ _ (fun _ => own)); [apply gradients_components_ok; intros y Hy; apply Hi; right; exact Hy|].
  intros [rest' r']. apply triple_ret; perm.
Qed.

Lemma blocks_components_same variables blocks : forall tr blocks' r,
  runs (p_blocks_components_to_properties variables blocks) tr (blocks', r) -> blocks_arrays blocks' = blocks_arrays blocks.
Proof.
  induction blocks as [|b rest IH]; intros tr blocks' r H; cbn [p_blocks_components_to_properties] in H.
  - apply runs_ret_inv in H as [_ H]. injection H as -> _. reflexivity.
  - apply runs_bindp in H as (tr1 & [g x] & tr2 & H1 & H & _). apply block_components_same in H1.
    destruct x as [u|e|message|reason]; [|apply runs_ret_inv in H as [_ H]; injection H as -> _; unfold blocks_arrays; cbn [flat_map]; rewrite H1; reflexivity..].
    apply runs_bindp in H as (tr3 & [rest' r'] & tr4 & H2 & H & _). apply runs_ret_inv in H as [_ H]. injection H as -> _.
    apply IH in H2. unfold blocks_arrays in *. cbn [flat_map]. rewrite H1. f_equal. exact H2.
Qed.

Lemma blocks_components_ok refs own variables blocks : incl (blocks_arrays blocks) own ->
  triple refs own (p_blocks_components_to_properties variables blocks) (fun _ => own).
Proof.
  induction blocks as [|b rest IH]; intros Hi; cbn [p_blocks_components_to_properties].
  - apply triple_ret; perm.
  - unfold blocks_arrays in Hi. cbn [flat_map] in Hi.
    eapply (triple_bind _ _ _ _ (fun _ => own)); [apply block_components_ok; intros y Hy; apply Hi; apply in_app_iff; left; exact Hy|].
    intros [g x]. destruct x; try (apply triple_ret; perm).
    eapply (triple_bind _ _ _ _ (fun _ => own)); [apply IH; intros y Hy; apply Hi; apply in_app_iff; right; exact Hy|]. intros [rest' r']. apply triple_ret; perm.
Qed.

Lemma components_same t variables tr t' r : runs (p_components_to_properties t variables) tr (t', r) -> tensor_arrays t' = tensor_arrays t.
Proof.
  unfold p_components_to_properties. destruct variables as [|v variables]; [intros H; apply runs_ret_inv in H as [_ H]; injection H as -> _; reflexivity|].
  intros H. apply runs_bindp in H as (tr1 & [blocks x] & tr2 & H1 & H & _). apply blocks_components_same in H1.
  apply runs_ret_inv in H as [_ H]. injection H as -> _. exact H1.
Qed.

Lemma components_ok refs t variables : triple refs (tensor_arrays t) (p_components_to_properties t variables) (fun _ => tensor_arrays t).
Proof.
  unfold p_components_to_properties. destruct variables as [|v variables]; [apply triple_ret; perm|].
  eapply (triple_bind _ _ _ _ (fun _ => tensor_arrays t)); [apply blocks_components_ok; intros y Hy; exact Hy|].
  intros [blocks x]. apply triple_ret; perm.
Qed.

(** * Cloning *)

Lemma basic_clone_ok refs own b : In (data_of b) (own ++ refs) -> ftriple refs own (p_basic_clone b) (fun b => data_of b :: own) own.
Proof.
  intros H. unfold p_basic_clone. eapply ftriple_or_drop; [apply copy_ok; exact H|perm|]. intros a.
  apply ftriple_ret; [|intros E; exfalso; eapply E; reflexivity]. intros x E. injection E as <-. perm.
Qed.

Lemma gradients_clone_ok refs own gradients : incl (gradients_arrays gradients) refs -> forall done,
  ftriple refs (gradients_arrays done ++ own) (p_gradients_clone done gradients) (fun l => gradients_arrays l ++ own) own.
Proof.
  induction gradients as [|[parameter gradient] rest IH]; intros Hi done; cbn [p_gradients_clone].
  - apply ftriple_ret; [|intros E; exfalso; eapply E; reflexivity]. intros x E. injection E as <-. perm.
  - eapply ftriple_or_drop; [apply basic_clone_ok; apply in_app_iff; right; apply Hi; left; reflexivity|perm|]. intros g.
    eapply ftriple_perm; [apply (IH ltac:(intros y Hy; apply Hi; right; exact Hy) (done ++ [(parameter, g)]))|..]; try (intros; perm).
    unfold gradients_arrays. rewrite map_app. cbn [map snd]. rewrite <- app_assoc. apply Permutation_sym. apply Permutation_middle.
Qed.

Lemma block_clone_ok refs b : incl (block_arrays b) refs -> ftriple refs [] (p_block_clone b) block_arrays [].
Proof.
  intros Hi. unfold p_block_clone. eapply ftriple_or_drop; [apply basic_clone_ok; apply Hi; left; reflexivity|perm|]. intros values.
  eapply ftriple_or_drop; [apply (gradients_clone_ok refs [data_of values] (tb_gradients b) ltac:(intros y Hy; apply Hi; right; exact Hy) [])|perm|].
  intros gradients. apply ftriple_ret; [|intros E; exfalso; eapply E; reflexivity]. intros x E. injection E as <-.
  unfold block_arrays. cbn [tb_values tb_gradients]. apply Permutation_sym. apply Permutation_cons_append.
Qed.

Lemma tensor_new_blocks keys blocks t : tensor_map_new keys blocks = Ok t -> tm_blocks t = blocks.
Proof.
  intros H. unfold tensor_map_new in H. repeat match type of H with
    | context [if ?b then _ else _] => destruct b
    | context [match ?o with _ => _ end] => destruct o
    | bind ?o _ = _ => destruct o eqn:?; cbn [bind] in H end; try discriminate H; injection H as <-; reflexivity.
Qed.

Lemma tensor_new_ok refs keys blocks : ftriple refs (blocks_arrays blocks) (p_tensor_new keys blocks) tensor_arrays [].
Proof.
  unfold p_tensor_new. apply ftriple_pure; [perm|]. intros t E. apply tensor_new_blocks in E.
  apply ftriple_ret; [|intros H; exfalso; eapply H; reflexivity]. intros x Ex. injection Ex as <-. unfold tensor_arrays. rewrite E. perm.
Qed.

(** * keys_to_samples and keys_to_properties *)

Lemma each_ok {A} refs own (f : A -> prog (outcome unit)) l : (forall x, In x l -> ftriple refs own (f x) (fun _ => own) own) ->
  ftriple refs own (each f l) (fun _ => own) own.
Proof.
  induction l as [|x l IH]; intros H; cbn [each]; [apply ftriple_ret; intros; perm|].
  keep own; [apply H; left; reflexivity|perm|]. intros _. apply IH. intros y Hy. apply H. right. exact Hy.
Qed.

Lemma each_gradient_ok {A} refs (f : TensorBlock -> A -> prog (outcome TensorBlock)) l :
  (forall b x, In x l -> ftriple refs (block_arrays b) (f b x) block_arrays []) ->
  forall b, ftriple refs (block_arrays b) (each_gradient f l b) block_arrays [].
Proof.
  induction l as [|x l IH]; intros H b; cbn [each_gradient].
  - apply ftriple_ret; [|intros E; exfalso; eapply E; reflexivity]. intros y E. injection E as <-. perm.
  - eapply ftriple_or_drop; [apply H; left; reflexivity|perm|]. intros b'. apply IH. intros b2 y Hy. apply H. right. exact Hy.
Qed.

Lemma each_block_ok {A} refs (f : A -> prog (outcome TensorBlock)) l :
  (forall x, In x l -> ftriple refs [] (f x) block_arrays []) ->
  forall done, ftriple refs (blocks_arrays done) (each_block f done l) blocks_arrays [].
Proof.
  induction l as [|x l IH]; intros H done; cbn [each_block].
  - apply ftriple_ret; [|intros E; exfalso; eapply E; reflexivity]. intros y E. injection E as <-. perm.
  - eapply ftriple_or_drop.
    + apply (ftriple_frame refs refs [] (blocks_arrays done)); [intros y Hy; apply in_app_iff; left; exact Hy|]. apply H. left. reflexivity.
    + perm.
    + intros b. eapply ftriple_perm; [apply (IH ltac:(intros y Hy; apply H; right; exact Hy) (done ++ [b]))|..]; try (intros; perm).
      unfold blocks_arrays. rewrite flat_map_app. cbn [flat_map]. rewrite app_nil_r. apply Permutation_app_comm.
Qed.

Definition given (refs : list nat) (blocks : list KeyAndBlock) : Prop := Forall (fun kb => incl (block_arrays (snd kb)) refs) blocks.

Lemma given_in refs blocks key b : given refs blocks -> In (key, b) blocks -> incl (block_arrays b) refs.
Proof. intros H Hin. unfold given in H. rewrite Forall_forall in H. exact (H _ Hin). Qed.

Lemma gradient_array b parameter g : tensor_block_gradient b parameter = Some g -> In (data_of g) (block_arrays b).
Proof.
  intros H. unfold tensor_block_gradient in H. right. apply hm_get_In in H; [|apply String.eqb_eq].
  change (In ((fun pg : string * BasicBlock => data_of (snd pg)) (parameter, g)) (map (fun pg => data_of (snd pg)) (tb_gradients b))).
  apply in_map. exact H.
Qed.

Lemma move_gradient_ok refs own p parameter components samples b mapping start stop a : incl (block_arrays b) refs -> In a own ->
  ftriple refs own (p_move_gradient p parameter components samples b mapping start stop a) (fun _ => own) own.
Proof.
  intros Hi Ha. unfold p_move_gradient. apply ftriple_pure; [perm|]. intros g E.
  do 3 (apply ftriple_pure; [perm|]; intros ? _). apply move_ok; [exact Ha|]. apply in_app_iff. right. apply Hi.
  destruct (tensor_block_gradient b parameter) as [g'|] eqn:Eg; cbn in E; [|discriminate E]. injection E as <-. eapply gradient_array; eauto.
Qed.

Lemma merge_samples_ok refs p blocks names sort : given refs blocks ->
  ftriple refs [] (p_merge_blocks_along_samples p blocks names sort) block_arrays [].
Proof.
  intros Hg. unfold p_merge_blocks_along_samples. destruct blocks as [|[key first] blocks]; [apply ftriple_ret; intros; [discriminate|perm]|].
  set (all := (key, first) :: blocks) in *. cbv zeta.
  assert (Hf : incl (block_arrays first) refs) by (eapply given_in; [exact Hg|left; reflexivity]).
  assert (Hv : In (data_of (tb_values first)) refs) by (apply Hf; left; reflexivity).
  apply ftriple_pure; [perm|]. intros _ _. apply ftriple_pure; [perm|]. intros [merged mappings] _.
  keep (@nil nat); [apply shape_ok; exact Hv|perm|]. intros shape.
  do 2 (apply ftriple_pure; [perm|]; intros ? _).
  eapply ftriple_or_drop; [apply create_ok; exact Hv|perm|]. intros new_data. cbv beta.
  apply ftriple_pure; [perm|]. intros n_properties _.
  keep [new_data].
  { apply each_ok. intros [[k b] mapping] Hin. apply in_combine_l in Hin. apply move_ok; [left; reflexivity|].
    apply in_app_iff. right. eapply (given_in _ _ k b Hg Hin). left. reflexivity. }
  { perm. }
  intros _. eapply ftriple_or_drop; [apply ftriple_expectp; apply (block_new_ok refs [])|perm|]. intros nb. cbv beta. rewrite app_nil_r.
  apply each_gradient_ok. clear nb. intros nb [parameter g] Hin.
  assert (Hgr : In (data_of g) refs).
  { apply Hf. right. apply (in_map (fun pg => data_of (snd pg)) _ _ Hin). }
  apply ftriple_pure; [perm|]. intros samples _.
  keep (block_arrays nb); [apply shape_ok; inn|perm|]. intros shape2.
  do 2 (apply ftriple_pure; [perm|]; intros ? _).
  eapply ftriple_or_drop; [apply create_ok; inn|perm|]. intros new_gradient. cbv beta.
  keep (new_gradient :: block_arrays nb).
  { apply each_ok. intros [[k b] mapping] Hin'. apply in_combine_l in Hin'. apply move_gradient_ok; [|left; reflexivity].
    eapply (given_in _ _ k b Hg Hin'). }
  { perm. }
  intros _. eapply ftriple_perm; [apply (add_merged_gradient_ok refs [])|..]; intros; perm.
Qed.

Lemma merge_properties_ok refs p blocks keys names sort : given refs blocks ->
  ftriple refs [] (p_merge_blocks_along_properties p blocks keys names sort) block_arrays [].
Proof.
  intros Hg. unfold p_merge_blocks_along_properties. destruct blocks as [|[key first] blocks]; [apply ftriple_ret; intros; [discriminate|perm]|].
  set (all := (key, first) :: blocks) in *. cbv zeta.
  assert (Hf : incl (block_arrays first) refs) by (eapply given_in; [exact Hg|left; reflexivity]).
  assert (Hv : In (data_of (tb_values first)) refs) by (apply Hf; left; reflexivity).
  apply ftriple_pure; [perm|]. intros _ _. apply ftriple_pure; [perm|]. intros [merged mappings] _.
  do 3 (apply ftriple_pure; [perm|]; intros ? _).
  keep (@nil nat); [apply shape_ok; exact Hv|perm|]. intros shape.
  do 3 (apply ftriple_pure; [perm|]; intros ? _).
  eapply ftriple_or_drop; [apply create_ok; exact Hv|perm|]. intros new_data. cbv beta.
  apply ftriple_pure; [perm|]. intros ranges _.
  keep [new_data].
  { apply each_ok. intros [[[k b] mapping] range] Hin. apply in_combine_l in Hin. apply in_combine_l in Hin.
    destruct range as [[start stop]|]; [|apply ftriple_ret; intros; perm]. apply move_ok; [left; reflexivity|].
    apply in_app_iff. right. eapply (given_in _ _ k b Hg Hin). left. reflexivity. }
  { perm. }
  intros _. eapply ftriple_or_drop; [apply ftriple_expectp; apply (block_new_ok refs [])|perm|]. intros nb. cbv beta. rewrite app_nil_r.
  apply each_gradient_ok. clear nb. intros nb [parameter g] Hin.
  assert (Hgr : In (data_of g) refs).
  { apply Hf. right. apply (in_map (fun pg => data_of (snd pg)) _ _ Hin). }
  apply ftriple_pure; [perm|]. intros samples _.
  keep (block_arrays nb); [apply shape_ok; inn|perm|]. intros shape2.
  do 3 (apply ftriple_pure; [perm|]; intros ? _).
  eapply ftriple_or_drop; [apply create_ok; inn|perm|]. intros new_gradient. cbv beta.
  keep (new_gradient :: block_arrays nb).
  { apply each_ok. intros [[[k b] mapping] range] Hin'. apply in_combine_l in Hin'. apply in_combine_l in Hin'.
    destruct range as [[start stop]|]; [|apply ftriple_ret; intros; perm]. apply move_gradient_ok; [|left; reflexivity].
    eapply (given_in _ _ k b Hg Hin'). }
  { perm. }
  intros _. eapply ftriple_perm; [apply (add_merged_gradient_ok refs [])|..]; intros; perm.
Qed.

Lemma tensor_block_given t b : In b (tm_blocks t) -> incl (block_arrays b) (tensor_arrays t).
Proof. intros H x Hx. apply in_flat_map. exists b. split; assumption. Qed.

Lemma all_given t positions blocks : all_blocks_to_merge t positions = Ok blocks -> given (tensor_arrays t) blocks.
Proof.
  intros H. unfold all_blocks_to_merge in H. apply bind_ok in H as (keys & _ & H).
  eapply mapM_Forall; [|exact H]. intros [key b] y Hin Hy. apply bind_ok in Hy as (e & _ & Hy). injection Hy as <-.
  apply in_combine_r in Hin. apply tensor_block_given. exact Hin.
Qed.

Lemma some_given t positions names entry blocks : blocks_to_merge_for t positions names entry = Ok blocks -> given (tensor_arrays t) blocks.
Proof.
  intros H. unfold blocks_to_merge_for in H. apply bind_ok in H as (selection & _ & H). apply bind_ok in H as (matching & _ & H).
  eapply mapM_Forall; [|exact H]. intros i y Hin Hy. apply bind_ok in Hy as (b & Hb & Hy).
  apply bind_ok in Hy as (key & _ & Hy). apply bind_ok in Hy as (moved & _ & Hy). injection Hy as <-.
  apply index_slice_In in Hb. apply tensor_block_given. exact Hb.
Qed.

Lemma merged_blocks_ok t new_keys positions merge :
  (forall blocks, given (tensor_arrays t) blocks -> ftriple (tensor_arrays t) [] (merge blocks) block_arrays []) ->
  ftriple (tensor_arrays t) [] (p_merged_blocks t new_keys positions merge) blocks_arrays [].
Proof.
  intros Hm. unfold p_merged_blocks. apply ftriple_pure; [perm|]. intros n _. destruct (n =? 1).
  - apply ftriple_pure; [perm|]. intros blocks E. eapply ftriple_or_drop; [apply Hm; eapply all_given; eauto|perm|].
    intros b. apply ftriple_ret; [|intros H; exfalso; eapply H; reflexivity]. intros x E'. injection E' as <-.
    cbn [blocks_arrays flat_map]. perm.
  - apply ftriple_pure; [perm|]. intros entries _. apply (each_block_ok _ _ _) with (done := []). intros entry _.
    apply ftriple_pure; [perm|]. intros blocks E. apply Hm. eapply some_given; eauto.
Qed.

Definition computed (kb : Labels * list TensorBlock) : list nat := blocks_arrays (snd kb).

Lemma samples_compute_ok p t keys sort : ftriple (tensor_arrays t) [] (p_keys_to_samples_compute p t keys sort) computed [].
Proof.
  unfold p_keys_to_samples_compute. apply ftriple_pure; [perm|]. intros count _. destruct (0 <? count).
  - apply ftriple_ret; intros; [discriminate|perm].
  - cbv zeta. apply ftriple_pure; [perm|]. intros [new_keys positions] _.
    eapply ftriple_or_drop; [apply merged_blocks_ok; intros blocks Hg; apply merge_samples_ok; exact Hg|perm|].
    intros blocks. apply ftriple_ret; [|intros H; exfalso; eapply H; reflexivity]. intros x E. injection E as <-. perm.
Qed.

Lemma properties_compute_ok p t keys sort : ftriple (tensor_arrays t) [] (p_keys_to_properties_compute p t keys sort) computed [].
Proof.
  unfold p_keys_to_properties_compute. cbv zeta. apply ftriple_pure; [perm|]. intros [new_keys positions] _.
  apply ftriple_pure; [perm|]. intros count _.
  eapply ftriple_or_drop; [apply merged_blocks_ok; intros blocks Hg; apply merge_properties_ok; exact Hg|perm|].
  intros blocks. apply ftriple_ret; [|intros H; exfalso; eapply H; reflexivity]. intros x E. injection E as <-. perm.
Qed.

Lemma replace_ok refs t m : ftriple (tensor_arrays t) [] m computed [] ->
  triple refs (tensor_arrays t) (p_replace t m) (fun tr => tensor_arrays (fst tr)).
Proof.
  intros Hm. unfold p_replace. eapply (triple_bind _ _ _ _ (fun r => after computed [] r ++ tensor_arrays t)).
  - apply (triple_frame (tensor_arrays t) refs [] (tensor_arrays t)); [intros x Hx; apply in_app_iff; right; exact Hx|]. exact Hm.
  - intros [[keys blocks]|e|message|reason]; cbn [after app]; try (apply triple_ret; perm).
    unfold computed; cbn [snd]. eapply triple_perm; [|apply Permutation_app_comm|intros; apply Permutation_refl].
    eapply (triple_bind _ _ _ _ (fun _ => [] ++ blocks_arrays blocks)).
    + apply (triple_frame refs); [|apply triple_drop]. intros x Hx; apply in_app_iff; left; exact Hx.
    + intros _. apply triple_ret. perm.
Qed.

Lemma keys_to_samples_ok refs p t keys sort : triple refs (tensor_arrays t) (p_keys_to_samples p t keys sort) (fun tr => tensor_arrays (fst tr)).
Proof. apply replace_ok. apply samples_compute_ok. Qed.

Lemma keys_to_properties_ok refs p t keys sort : triple refs (tensor_arrays t) (p_keys_to_properties p t keys sort) (fun tr => tensor_arrays (fst tr)).
Proof. apply replace_ok. apply properties_compute_ok. Qed.

(** * When it fails, the tensor map is as before *)

Definition unchanged (t : TensorMap) (tr : trace) : Prop :=
  Forall (fun '(c, _) => forall a, In a (changed c) -> ~ In a (tensor_arrays t)) tr.

Lemma replace_failed t m tr t' r others : ftriple (tensor_arrays t) [] m computed [] -> runs (p_replace t m) tr (t', r) -> r <> Ok tt ->
  NoDup (tensor_arrays t ++ others) -> new_arrays (tensor_arrays t ++ others) tr ->
  t' = t /\ unchanged t tr.
Proof.
  intros Hm H Hr Hn Hf. unfold p_replace in H. apply runs_bindp in H as (tr1 & x & tr2 & H1 & H2 & ->).
  assert (E : tr2 = [] /\ t' = t).
  { destruct x as [[keys blocks]|e|message|reason]; [|apply runs_ret_inv in H2 as [-> E]; injection E as -> ->; auto..].
    exfalso. apply runs_bindp in H2 as (tr3 & y & tr4 & _ & H2 & _). apply runs_ret_inv in H2 as [_ E]. injection E as _ ->. apply Hr. reflexivity. }
  destruct E as [-> ->]. rewrite app_nil_r in *. split; [reflexivity|].
  destruct (Hm tr1 x H1 (tensor_arrays t ++ others)) as (alive & _ & _ & C); [exact Hn|intros y Hy; apply in_app_iff; left; exact Hy|exact Hf|].
  eapply Forall_impl; [|exact C]. intros [c an] Hc a Ha Hin. apply (Hc a Ha). apply in_app_iff. left. exact Hin.
Qed.
