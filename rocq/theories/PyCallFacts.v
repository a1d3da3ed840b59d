(* Calls of the library by Python programs, and the children of wrappers (C81 to C84) *)
From Coq Require Import Lia Permutation.
From Verif Require Import Base BaseFacts Labels Array Block Tensor Npy Io Origin CApi Spec SpecTensor SpecIo SpecApi
  ApiFacts ReportFacts OwnerFacts ReachFacts HandleFacts SafeFacts CallFacts PyIo PyObjects SpecPyObjects PyObjectsFacts.
Local Open Scope string_scope.
Local Open Scope list_scope.
Local Open Scope nat_scope.

(** * Numbers of arrays *)

Lemma new_blocks_next bs : forall w w' arrays, new_blocks_arrays w bs = (w', arrays) ->
  concat arrays = seq (w_next_array w) (w_next_array w' - w_next_array w) /\ w_next_array w <= w_next_array w'.
Proof.
  induction bs as [|b bs IH]; intros w w' arrays H; cbn [new_blocks_arrays] in H.
  - injection H as <- <-. cbn [concat]. rewrite Nat.sub_diag. auto.
  - remember (arrays_count b) as n eqn:En. clear En. unfold new_arrays in H.
    match type of H with context [new_blocks_arrays ?x bs] => destruct (new_blocks_arrays x bs) as [w2 a2] eqn:E2 end.
    injection H as <- <-. apply IH in E2 as [E2 Hle]. cbn [w_next_array] in E2, Hle. cbn [concat]. rewrite E2. split; [|lia].
    rewrite <- seq_app. f_equal. lia.
Qed.

Lemma take_blocks_next bs : forall w w' o, take_blocks w bs = (w', o) -> w_next_array w' = w_next_array w.
Proof.
  induction bs as [|b bs IH]; intros w w' o H; cbn [take_blocks] in H; [injection H as <- <-; auto|].
  destruct (get_block w b) as [[h ob]|e|m|r] eqn:Eg; [|injection H as <- <-; auto..].
  destruct (take_blocks (set_blocks w (remove_handle h (w_blocks w))) bs) as [w1 o1] eqn:Et.
  injection H as <- <-. apply IH in Et. exact Et.
Qed.

Lemma move_keys_next w tensor keys temporary move w' v o : move_keys w tensor keys temporary move = (w', v, o) ->
  w_next_array w <= w_next_array w'.
Proof.
  intros H. unfold move_keys in H. cbv zeta in H.
  match type of H with match ?x with _ => _ end = _ => destruct x as [[[h k] t]|e|m|r] eqn:E end; [|injection H as <- <- <-; lia..].
  destruct (move (ot_tensor t) k) as [moved r]. destruct r as [[]|e|m|r]; [|injection H as <- <- <-; cbn; lia..].
  destruct (new_blocks_arrays w (tm_blocks moved)) as [w1 arrays] eqn:En. injection H as <- <- <-.
  apply new_blocks_next in En as [_ Hle]. cbn. lia.
Qed.

Lemma call_body_next p thread w c w' v o : call_body p thread w c = (w', v, o) -> w_next_array w <= w_next_array w'.
Proof.
  intros H. destruct c; cbn [call_body] in H; try (apply reading_world in H as ->; lia).
  - unfold eqs_register_data_origin in H. cbv zeta in H. match type of H with match ?x with _ => _ end = _ => destruct x end;
      [|injection H as <- <- <-; lia..]. destruct (register_data_origin _ _). injection H as <- <- <-. cbn. lia.
  - unfold eqs_get_data_origin in H. destruct buffer; [|injection H as <- <- <-; lia].
    destruct (get_data_origin _ _); [|injection H as <- <- <-; lia..]. destruct (copy_str_to_c _ _ _). injection H as <- <- <-. lia.
  - unfold eqs_block in H. cbn [new_arrays] in H. cbv zeta in H.
    match type of H with match ?x with _ => _ end = _ => destruct x as [b|e|m|r] eqn:Eb end; injection H as <- <- <-; cbn; lia.
  - unfold eqs_block_free in H. destruct block as [|h|t i]; [injection H as <- <- <-; lia| |injection H as <- <- <-; lia].
    destruct (get_block w (BlockAt h)) as [[h' b]|e|m|r] eqn:Eg; injection H as <- <- <-; cbn; lia.
  - unfold eqs_block_copy in H. match type of H with match ?x with _ => _ end = _ => destruct x as [b|e|m|r] eqn:Eb end;
      [|injection H as <- <- <-; lia..].
    destruct (clone_arrays (block_arrays (ob_block b))) as [n r] eqn:Ec. cbn [new_arrays] in H.
    destruct r as [[]|e|m|r]; injection H as <- <- <-; cbn; lia.
  - unfold eqs_block_add_gradient in H. cbn [new_arrays] in H. cbv zeta in H.
    match type of H with match ?x with _ => _ end = _ => destruct x as [[[[[h b] q] s] cs]|e|m|r] eqn:Eb end;
      [|injection H as <- <- <-; cbn; lia..].
    destruct (tensor_block_add_gradient (ob_block b) q data s cs) as [b' r] eqn:Ea. destruct (_ <? _); injection H as <- <- <-; cbn; lia.
  - unfold eqs_tensormap in H. destruct (labels_from_c keys) as [k|e|m|r] eqn:Ek; [|injection H as <- <- <-; lia..].
    destruct (negb _); [injection H as <- <- <-; lia|]. destruct (take_blocks w blocks) as [w1 o1] eqn:Et. apply take_blocks_next in Et.
    destruct o1 as [owned|e|m|r]; [|injection H as <- <- <-; lia..]. cbv zeta in H.
    destruct (tensor_map_new k (map ob_block owned)) as [t|e|m|r] eqn:En; injection H as <- <- <-; cbn; lia.
  - unfold eqs_tensormap_free in H. destruct tensor as [h|]; [|injection H as <- <- <-; lia].
    destruct (get_tensor w h) as [t|e|m|r] eqn:Eg; injection H as <- <- <-; cbn; lia.
  - unfold eqs_tensormap_blocks_matching in H. cbv zeta in H.
    match type of H with match ?x with _ => _ end = _ => destruct x as [[b idx]|e|m|r] end; [|injection H as <- <- <-; lia..].
    destruct (write_indexes 0 b idx). injection H as <- <- <-. lia.
  - eapply move_keys_next. exact H.
  - unfold eqs_tensormap_components_to_properties in H. cbv zeta in H.
    match type of H with match ?x with _ => _ end = _ => destruct x as [[[h vs] t]|e|m|r] eqn:E end; [|injection H as <- <- <-; lia..].
    destruct (components_to_properties (ot_tensor t) vs) as [moved result]. injection H as <- <- <-. cbn. lia.
  - eapply move_keys_next. exact H.
  - unfold eqs_tensormap_load in H. cbv zeta in H.
    match type of H with match ?x with _ => _ end = _ => destruct x as [t|e|m|r] eqn:E end; [|injection H as <- <- <-; cbn; lia..].
    destruct (new_blocks_arrays w (tm_blocks t)) as [w1 arrays] eqn:En. injection H as <- <- <-. apply new_blocks_next in En as [_ Hle]. cbn. lia.
  - unfold eqs_tensormap_save in H. cbv zeta in H.
    match type of H with match ?x with _ => _ end = _ => destruct x as [[path' t]|e|m|r] end; [|injection H as <- <- <-; lia..].
    destruct (save LittleEndian (ot_tensor t)); injection H as <- <- <-; cbn; lia.
  - injection H as <- <- <-. lia.
Qed.

(** * Calls *)

Lemma each_ok {A} (f : A -> outcome unit) l : (forall a, In a l -> f a = Ok tt) -> each f l = Ok tt.
Proof.
  intros H. unfold each. rewrite (mapM_ok_map f (fun _ => tt)) by exact H. reflexivity.
Qed.

Lemma arrays_read_called w c : incl (arrays_read w c) (arrays_called w c).
Proof.
  destruct c; cbn [arrays_read arrays_called]; try (intros a []; fail); try apply incl_refl;
    destruct tensor; try apply incl_refl; intros a [].
Qed.

(* how calls end *)
Inductive call_ends (p : profile) (s : py_state) (c : c_call) (w' : world) : py_state * outcome c_value -> Prop :=
| call_succeeds w1 v errors : call_body p 0 (py_world s) c = (w1, v, Ok tt) -> w' = set_errors w1 errors ->
    call_ends p s c w' (with_world s w', Ok v)
| call_fails w1 v r errors o : call_body p 0 (py_world s) c = (w1, v, r) -> w' = set_errors w1 errors -> r <> Ok tt ->
    ((exists e, o = Err e) \/ (exists m, o = Panic m)) -> call_ends p s c w' (with_world s w', o).

Lemma safe_call next p s c : safe_with next s -> respects (py_world s) c ->
  (forall a o, In a (arrays_called (py_world s) c) -> wrapper_of s a = Some o -> exists_in s o) ->
  exists w' v, owners w' /\ plain_world w' /\ w_next_array (py_world s) <= w_next_array w' /\ frame c (py_world s) w' v
    /\ call_ends p s c w' (py_call p s c) /\ (forall s' v', py_call p s c = (s', Ok v') -> v' = v).
Proof.
  intros Hs Hr Ha. unfold py_call.
  assert (Hcall : forall a, In a (arrays_called (py_world s) c) -> call_array s a = Ok tt).
  { intros a Hin. unfold call_array. destruct (hm_get Nat.eqb (py_wrapped s) a) as [o|] eqn:E; [|reflexivity].
    destruct (Ha a o Hin E) as [x Hx]. apply (safe_find Hs) in Hx. rewrite Hx. reflexivity. }
  assert (Hread : forall a, In a (arrays_read (py_world s) c) -> read_array s a = Ok tt).
  { intros a Hin. apply arrays_read_called in Hin. unfold read_array. destruct (hm_get Nat.eqb (py_wrapped s) a) as [o|] eqn:E; [|reflexivity].
    destruct (Ha a o Hin E) as [x Hx]. pose proof Hx as Hx'. apply (safe_find Hs) in Hx. rewrite Hx.
    destruct (st_wrapped _ _ Hs a o E) as (_ & _ & Hw). destruct (Hw _ Hx') as [children ->]. reflexivity. }
  rewrite (each_ok _ _ Hcall), (each_ok _ _ Hread). cbn [bind].
  destruct (run_call p 0 (py_world s) c) as [[w' v] result] eqn:E. rewrite !(after_call_world Hs).
  assert (Hsafe : forall r, result <> Crashed r).
  { intros r ->. eapply run_call_safe; [exact (st_owners _ _ Hs)|exact Hr|exact E]. }
  pose proof (owners_call _ _ _ _ _ _ _ (st_owners _ _ Hs) E Hsafe) as Hown.
  pose proof (run_call_plain _ _ _ _ _ _ _ (st_plain _ _ Hs) E) as Hplain.
  pose proof (run_call_zero _ _ _ _ _ _ _ (st_plain _ _ Hs) E) as Hz.
  apply run_call_body in E as (w1 & o & Hb & Hres & Ew).
  pose proof (call_body_frame _ _ _ _ _ _ _ Hb) as Hf. pose proof (call_body_next _ _ _ _ _ _ _ Hb) as Hn.
  exists w', v. split; [exact Hown|]. split; [exact Hplain|].
  split; [rewrite Ew; exact Hn|]. split; [rewrite Ew; exact Hf|].
  assert (Hne : result <> Returned 0 -> o <> Ok tt).
  { intros Hr0 ->. apply Hr0. apply Hz. exists w1. exact Hb. }
  destruct result as [status|m|r].
  - destruct status as [|q|q].
    + split; [|intros s' v' E; injection E as _ <-; reflexivity]. destruct (proj1 Hz eq_refl) as [w2 Hb2].
      rewrite Hb in Hb2. injection Hb2 as <- ->. eapply call_succeeds; [exact Hb|exact Ew].
    + split; [|discriminate]. eapply call_fails; [exact Hb|exact Ew|apply Hne; discriminate|]. left. eexists. reflexivity.
    + split; [|discriminate]. eapply call_fails; [exact Hb|exact Ew|apply Hne; discriminate|]. left. eexists. reflexivity.
  - split; [|discriminate]. eapply call_fails; [exact Hb|exact Ew|apply Hne; discriminate|]. right. eexists. reflexivity.
  - destruct (Hsafe r eq_refl).
Qed.
