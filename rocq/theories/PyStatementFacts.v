(* Each statement of Python programs keeps the invariant (C81 to C84) *)
From Coq Require Import Lia Permutation.
From Verif Require Import Base BaseFacts Labels Array Block Tensor Npy Io Origin CApi Spec SpecTensor SpecIo SpecApi
  ApiFacts ReportFacts OwnerFacts ReachFacts HandleFacts SafeFacts CallFacts PyIo PyObjects SpecPyObjects PyObjectsFacts PyCallFacts.
Local Open Scope string_scope.
Local Open Scope list_scope.
Local Open Scope nat_scope.

(* every block and tensor map of the library belongs to an object *)
Definition tidy (s : py_state) : Prop :=
  (forall h b, block_at (py_world s) h b -> exists o, frees_block s o h)
  /\ (forall h t, tensor_at (py_world s) h t -> exists o, frees_tensor s o h).

Definition defined {A} (o : outcome A) : Prop := forall m, o <> Undefined m.

Definition fine {A} (s : py_state) (r : py_state * outcome A) : Prop :=
  safe (fst r) /\ defined (snd r) /\ (tidy s -> tidy (fst r)).

Lemma defined_ok {A} (a : A) : defined (Ok a).
Proof. discriminate. Qed.

Lemma fine_same {A} s (o : outcome A) : safe s -> defined o -> fine s (s, o).
Proof. intros Hs Ho. split; [exact Hs|]. split; [exact Ho|auto]. Qed.

Lemma bind_defined {A B} (o : outcome A) (f : A -> outcome B) : defined o -> (forall a, o = Ok a -> defined (f a)) -> defined (bind o f).
Proof. intros Ho Hf. destruct o; cbn [bind]; [auto|discriminate|discriminate|]. intros m E. injection E as ->. apply (Ho m). reflexivity. Qed.

Lemma exception_defined {A} m : defined (@exception A m).
Proof. discriminate. Qed.

Lemma mapM_defined {A B} (f : A -> outcome B) l : (forall a, In a l -> defined (f a)) -> defined (mapM f l).
Proof.
  induction l as [|a l IH]; intros H; [discriminate|]. cbn [mapM]. apply bind_defined; [apply H; left; reflexivity|].
  intros b _. apply bind_defined; [apply IH; intros; apply H; right; assumption|]. discriminate.
Qed.

Lemma each_defined {A} (f : A -> outcome unit) l : (forall a, In a l -> defined (f a)) -> defined (each f l).
Proof. intros H. apply bind_defined; [apply mapM_defined; exact H|discriminate]. Qed.

(* the first part of a statement only reads *)
Lemma fine_read {A B} s (o : outcome A) (f : py_state -> A -> py_state * outcome B) : safe s -> defined o ->
  (forall a, o = Ok a -> fine s (f s a)) -> fine s (and_then (s, o) f).
Proof.
  intros Hs Ho Hf. destruct o as [a|e|m|r]; cbn [and_then]; [auto|..]; apply fine_same; try assumption; try discriminate.
  intros m E. injection E as ->. apply (Ho m). reflexivity.
Qed.

(** * Reading objects *)

Section Read.
  Context {next : nat} {s : py_state}.
  Hypothesis Hs : safe_with next s.

  Lemma variable_cases o : (exists x, object_is s o x /\ In o (py_variables s) /\ variable s o = Ok x) \/ variable s o = exception "NameError".
  Proof.
    unfold variable. destruct (mem Nat.eqb o (py_variables s)) eqn:E; [|auto]. apply (mem_spec _ Nat.eqb_eq) in E.
    destruct (st_variables _ _ Hs o E) as [x Hx]. left. exists x. split; [exact Hx|]. split; [exact E|].
    apply (safe_find Hs) in Hx. rewrite Hx. reflexivity.
  Qed.

  Lemma variable_defined o : defined (variable s o).
  Proof. destruct (variable_cases o) as [(x & _ & _ & ->)| ->]; discriminate. Qed.

  Lemma variable_ok o x : variable s o = Ok x -> object_is s o x /\ In o (py_variables s).
  Proof. destruct (variable_cases o) as [(y & Hy & Hv & ->)| ->]; [|discriminate]. intros E. injection E as <-. auto. Qed.

  Lemma frees_block_at o h : frees_block s o h -> exists b, block_at (py_world s) h b.
  Proof. intros (n & ws & parent & Ho). apply (st_local _ _ Hs) in Ho as (_ & b & Hb & _). exists b. exact Hb. Qed.

  Lemma frees_tensor_at o t : frees_tensor s o t -> exists ot, tensor_at (py_world s) t ot.
  Proof. intros (l & Ho). apply (st_local _ _ Hs) in Ho as (ot & Ht & _). exists ot. exact Ht. Qed.

  Lemma owned_lt h b a : block_at (py_world s) h b -> In a (ob_arrays b) -> a < w_next_array (py_world s).
  Proof.
    intros Hb Ha. destruct (arrays_once _ (st_owners _ _ Hs)) as (_ & _ & _ & H & _). apply H. left. unfold owned_arrays.
    apply in_or_app. left. apply in_flat_map. exists (h, b). auto.
  Qed.

  Lemma tensor_owned_lt t ot a : tensor_at (py_world s) t ot -> In a (concat (ot_arrays ot)) -> a < w_next_array (py_world s).
  Proof.
    intros Ht Ha. destruct (arrays_once _ (st_owners _ _ Hs)) as (_ & _ & _ & H & _). apply H. left. unfold owned_arrays.
    apply in_or_app. right. apply in_flat_map. exists (t, ot). auto.
  Qed.

  Lemma loose_next a : w_next_array (py_world s) <= a -> loose_array s a.
  Proof.
    intros Hle. split.
    - intros o h b _ Hb Ha. pose proof (owned_lt _ _ _ Hb Ha). lia.
    - intros o t ot _ Ht Ha. pose proof (tensor_owned_lt _ _ _ Ht Ha). lia.
  Qed.

  Lemma wrapper_next a : next <= a -> wrapper_of s a = None.
  Proof.
    intros Hle. destruct (wrapper_of s a) as [o|] eqn:E; [|reflexivity]. apply (st_wrapped _ _ Hs) in E as (H & _). lia.
  Qed.

  (* the pointer of a block *)
  Definition good_pointer (ptr : block_ptr) : Prop :=
    (ptr = BlockNull \/ live_block (py_world s) ptr)
    /\ forall a wr, In a (arrays_at (py_world s) ptr) -> wrapper_of s a = Some wr -> exists_in s wr.

  Lemma object_pointer o ptr n owning ws parent : object_is s o (PyBlock ptr n owning ws parent) -> fresh_ptr s ptr n -> good_pointer ptr.
  Proof.
    intros Ho Hf. pose proof (st_local _ _ Hs _ _ Ho) as Hl. destruct ptr as [|h|t i]; cbn [local_ok] in Hl.
    - split; [auto|]. intros a wr []. 
    - destruct Hl as (-> & b & Hb & _). assert (Hp : points_to (py_world s) (BlockAt h) b) by (left; eauto). split; [right; exists b; exact Hp|].
      intros a wr Ha Hw. unfold arrays_at in Ha. rewrite (points_to_read _ _ _ (st_owners _ _ Hs) Hp) in Ha.
      eapply (block_wrappers Hs); eassumption.
    - destruct Hl as (-> & po & l & -> & Hpo & Hn & Hi). destruct (Hi (Hf t i eq_refl)) as (ot & Hot & Hlt).
      destruct (nth_error (tm_blocks (ot_tensor ot)) i) as [blk|] eqn:Eb; [|apply nth_error_None in Eb; lia].
      destruct (nth_error (ot_arrays ot) i) as [arrs|] eqn:Ea.
      2: { apply nth_error_None in Ea. rewrite (tensor_arrays_length _ _ _ (st_owners _ _ Hs) Hot) in Ea. lia. }
      assert (Hp : points_to (py_world s) (BlockIn t i) (mk_owned_block blk arrs)) by (right; exists t, i, ot; auto).
      split; [right; eexists; exact Hp|]. intros a wr Ha Hw. unfold arrays_at in Ha.
      rewrite (points_to_read _ _ _ (st_owners _ _ Hs) Hp) in Ha. cbn [ob_arrays] in Ha.
      eapply (tensor_wrappers Hs); [exact Hpo|exact Hot| |exact Hw]. apply in_concat. exists arrs. split; [|exact Ha]. eapply nth_error_In. exact Ea.
  Qed.

  Lemma block_pointer_cases o : current_block s o -> 
    (exists ptr n owning ws parent, object_is s o (PyBlock ptr n owning ws parent) /\ fresh_ptr s ptr n /\ block_pointer_of s o = Ok ptr)
    \/ exists e, block_pointer_of s o = Err e.
  Proof.
    intros Hc. unfold block_pointer_of. destruct (variable_cases o) as [(x & Hx & Hv & ->)| ->]; [|right; eexists; reflexivity]. cbn [bind].
    destruct x as [a view children|ptr n owning ws parent|items|t l|m parent]; try (right; eexists; reflexivity).
    left. destruct ptr as [|h|t i].
    - eexists _, _, _, _, _. split; [exact Hx|]. split; [|reflexivity]. intros t i E. discriminate E.
    - eexists _, _, _, _, _. split; [exact Hx|]. split; [|reflexivity]. intros t i E. discriminate E.
    - pose proof (Hc _ _ _ _ _ _ Hx) as Hn. eexists _, _, _, _, _. split; [exact Hx|].
      split; [intros t0 i0 E; injection E as <- <-; exact Hn|]. unfold moves in Hn. unfold times. rewrite <- Hn, Nat.eqb_refl. reflexivity.
  Qed.

  Lemma block_pointer_defined o : current_block s o -> defined (block_pointer_of s o).
  Proof. intros H. destruct (block_pointer_cases o H) as [(ptr & n & ow & ws & parent & _ & _ & ->)|[e ->]]; discriminate. Qed.

  Lemma block_pointer_ok o ptr : current_block s o -> block_pointer_of s o = Ok ptr ->
    good_pointer ptr /\ exists n owning ws parent, object_is s o (PyBlock ptr n owning ws parent) /\ fresh_ptr s ptr n.
  Proof.
    intros H E. destruct (block_pointer_cases o H) as [(ptr' & n & ow & ws & parent & Ho & Hf & E')|[e E']]; [|congruence].
    rewrite E' in E. injection E as ->. split; [eapply object_pointer; eassumption|]. eexists _, _, _, _. split; eassumption.
  Qed.

  Lemma tensor_pointer_cases o :
    (exists t l, object_is s o (PyTensor t l) /\ tensor_pointer_of s o = Ok t) \/ exists e, tensor_pointer_of s o = Err e.
  Proof.
    unfold tensor_pointer_of. destruct (variable_cases o) as [(x & Hx & Hv & ->)| ->]; [|right; eexists; reflexivity]. cbn [bind].
    destruct x as [a view children|ptr n owning ws parent|items|t l|m parent]; try (right; eexists; reflexivity). left. eauto.
  Qed.

  Lemma tensor_pointer_defined o : defined (tensor_pointer_of s o).
  Proof. destruct (tensor_pointer_cases o) as [(t & l & _ & ->)|[e ->]]; discriminate. Qed.

  Lemma tensor_pointer_ok o t : tensor_pointer_of s o = Ok t -> exists l ot, object_is s o (PyTensor t l) /\ tensor_at (py_world s) t ot
    /\ tensor_arrays (py_world s) t = ot_arrays ot
    /\ forall a wr, In a (concat (ot_arrays ot)) -> wrapper_of s a = Some wr -> chain s l wr /\ exists_in s wr.
  Proof.
    intros E. destruct (tensor_pointer_cases o) as [(t' & l & Ho & E')|[e E']]; [|congruence]. rewrite E' in E. injection E as ->.
    pose proof (st_local _ _ Hs _ _ Ho) as (ot & Hot & _). exists l, ot. split; [exact Ho|]. split; [exact Hot|].
    split.
    - unfold tensor_arrays. pose proof (own_tensors _ _ (st_owners _ _ Hs)) as [Hnd _].
      rewrite (BaseFacts.In_hm_get _ Nat.eqb_eq _ _ _ Hnd Hot). reflexivity.
    - intros a wr Ha Hw. eapply (tensor_wrappers Hs); eassumption.
  Qed.

  (* views *)
  Lemma view_there o m parent : object_is s o (PyView m parent) -> current_view s o -> memory_there s m = true.
  Proof.
    intros Ho Hc. destruct (Hc _ _ Ho) as (source & x & -> & Hx & Hm). pose proof (st_local _ _ Hs _ _ Ho) as Hl. destruct m as [a n|t n]; cbn [local_ok] in Hl.
    - destruct Hl as (ptr & n' & owning & ws & parent & Hpo & Harr). rewrite (safe_one Hs _ _ _ Hx Hpo) in Hm. destruct Hm as (Hnn & Hcur & Hn).
      assert (Hf : fresh_ptr s ptr n') by (intros t i ->; eapply Hcur; exact Hpo).
      destruct (object_pointer _ _ _ _ _ _ Hpo Hf) as [[E|[b Hb]] _]; [contradiction|]. pose proof (Harr b Hf Hb) as Hin.
      unfold memory_there. apply andb_true_iff. split; [|apply Nat.eqb_eq; exact Hn]. apply negb_true_iff.
      apply (mem_false _ Nat.eqb_eq). destruct (arrays_once _ (st_owners _ _ Hs)) as (_ & _ & H & _). apply H.
      destruct (read_block_owned _ _ _ (st_owners _ _ Hs) (points_to_read _ _ _ (st_owners _ _ Hs) Hb)) as [_ Hincl]. apply Hincl. exact Hin.
    - destruct Hl as (l & Hpo). rewrite (safe_one Hs _ _ _ Hx Hpo) in Hm. destruct (frees_tensor_at source t) as [ot Hot]; [exists l; exact Hpo|].
      unfold memory_there. apply andb_true_iff. split; [|apply Nat.eqb_eq; exact Hm]. apply (mem_spec _ Nat.eqb_eq).
      apply (in_map fst) in Hot. exact Hot.
  Qed.
End Read.
Arguments good_pointer s ptr : clear implicits.

(* views are not changed by [grows] *)
Lemma read_views_defined next next' s s' labels : safe_with next s -> safe_with next' s' -> py_world s' = py_world s ->
  py_moved s' = py_moved s -> py_changed s' = py_changed s ->
  (forall o m parent, object_is s' o (PyView m parent) -> object_is s o (PyView m parent)) ->
  Forall (current_view s) labels -> defined (each (read_view s') labels).
Proof.
  intros Hs Hs' Ew Em Ec Hback Hl. apply each_defined. intros v Hv. rewrite Forall_forall in Hl. unfold read_view.
  apply bind_defined; [apply (variable_defined Hs')|]. intros x Hx. apply (variable_ok Hs') in Hx as [Hx _].
  destruct x as [a view children|ptr n owning ws parent|items|t l|m parent]; try discriminate.
  apply Hback in Hx. pose proof (view_there Hs _ _ _ Hx (Hl v Hv)) as Hm. unfold check_memory.
  assert (E : memory_there s' m = memory_there s m).
  { unfold memory_there. rewrite Ew, Em, Ec. reflexivity. }
  rewrite E, Hm. discriminate.
Qed.

Lemma labels_defined next s labels : safe_with next s -> Forall (current_view s) labels -> defined (each (read_view s) labels).
Proof. intros Hs. eapply read_views_defined; eauto. Qed.

(** * Calls which do not change what belongs to objects *)

Lemma quiet_world next next' s c w' v : safe_with next s -> next <= next' -> owners w' -> plain_world w' -> frame c (py_world s) w' v ->
  (forall o h, frees_block s o h -> ~ changes_block c h) -> (forall o t, frees_tensor s o t -> ~ changes_tensor c t) ->
  safe_with next' (with_world s w').
Proof.
  intros Hs Hle Hw Hp (F1 & F2 & F3 & F4) Hb Ht. rewrite <- with_library_same. eapply safe_library; try eassumption.
  - intros o h n ws parent b Ho Hblock. exists b. split; [|split; [apply incl_refl|contradiction]]. apply F1; [|exact Hblock].
    apply (Hb o). exists n, ws, parent. exact Ho.
  - intros o t l ot Ho Htensor. exists ot. split; [|left; split; [reflexivity|discriminate]]. apply F3; [|exact Htensor].
    apply (Ht o). exists l. exact Ho.
Qed.

Lemma tidy_world s c w' v : tidy s -> frame c (py_world s) w' v ->
  (forall h, ~ changes_block c h) -> (forall h, ~ changes_tensor c h) -> (forall h, v <> VBlock (BlockAt h)) ->
  (forall h l, v <> VTensor (Some h) l) -> tidy (with_world s w').
Proof.
  intros [T1 T2] (_ & F2 & _ & F4) Hb Ht Nb Nt. split.
  - intros h b Hblock. destruct (F2 _ _ Hblock) as [H|[H|[H _]]]; [exact (T1 _ _ H)|destruct (Hb _ H)|destruct (Nb _ H)].
  - intros h t Htensor. destruct (F4 _ _ Htensor) as [H|[H|[[l H] _]]]; [exact (T2 _ _ H)|destruct (Ht _ H)|destruct (Nt _ _ H)].
Qed.

Lemma tidy_grows s s' : tidy s -> py_world s' = py_world s ->
  (forall o h, frees_block s o h -> exists o', frees_block s' o' h) -> (forall o t, frees_tensor s o t -> exists o', frees_tensor s' o' t) -> tidy s'.
Proof.
  intros [T1 T2] Ew Hb Ht. split; rewrite Ew.
  - intros h b H. apply T1 in H as [o Ho]. eapply Hb. exact Ho.
  - intros h t H. apply T2 in H as [o Ho]. eapply Ht. exact Ho.
Qed.

Lemma frees_block_new s x o h : frees_block s o h -> frees_block (new_object s x) o h.
Proof. intros (n & ws & parent & H). exists n, ws, parent. apply new_object_is. auto. Qed.
Lemma frees_tensor_new s x o t : frees_tensor s o t -> frees_tensor (new_object s x) o t.
Proof. intros (l & H). exists l. apply new_object_is. auto. Qed.

Lemma tidy_give s x : tidy s -> tidy (fst (give s x)).
Proof.
  intros H. eapply tidy_grows; [exact H|reflexivity|..].
  - intros o h Ho. exists o. apply (frees_block_new s x) in Ho. exact Ho.
  - intros o t Ho. exists o. apply (frees_tensor_new s x) in Ho. exact Ho.
Qed.

Lemma reading_call p s c : safe s -> respects (py_world s) c -> arrays_called (py_world s) c = [] ->
  (forall w' v o, call_body p 0 (py_world s) c = (w', v, o) -> w' = py_world s) ->
  exists w', safe (with_world s w') /\ (tidy s -> tidy (with_world s w')) /\ w_blocks w' = w_blocks (py_world s)
    /\ w_tensors w' = w_tensors (py_world s)
    /\ ((exists v, call_body p 0 (py_world s) c = (py_world s, v, Ok tt) /\ py_call p s c = (with_world s w', Ok v))
        \/ exists o, py_call p s c = (with_world s w', o) /\ ((exists e, o = Err e) \/ exists m, o = Panic m)).
Proof.
  intros Hs Hr Ha Hsame. destruct (safe_call _ p s c Hs Hr) as (w' & v & Hown & Hplain & Hnext & Hframe & Hends & Hv).
  { intros a o Hin. rewrite Ha in Hin. destruct Hin. }
  assert (Hw : w_blocks w' = w_blocks (py_world s) /\ w_tensors w' = w_tensors (py_world s) /\ w_next_array w' = w_next_array (py_world s)).
  { inversion Hends as [w1 v1 errors Hb ->|w1 v1 r errors o Hb -> Hne Ho]; apply Hsame in Hb as ->; auto. }
  destruct Hw as (E1 & E2 & E3). exists w'. split; [|split; [|split; [exact E1|split; [exact E2|]]]].
  - unfold safe. cbn [with_world py_world]. rewrite E3. rewrite <- with_library_same. eapply safe_library; [exact Hs|lia|exact Hown|exact Hplain|..].
    + intros o h n ws parent b _ Hb. exists b. unfold block_at. rewrite E1. split; [exact Hb|]. split; [apply incl_refl|contradiction].
    + intros o t l ot _ Ht. exists ot. unfold tensor_at. rewrite E2. split; [exact Ht|]. left. split; [reflexivity|discriminate].
  - intros [T1 T2]. split; cbn [with_world py_world].
    + intros h b. unfold block_at. rewrite E1. apply T1.
    + intros h t. unfold tensor_at. rewrite E2. apply T2.
  - inversion Hends as [w1 v1 errors Hb E Ec|w1 v1 r errors o Hb E Hne Ho Ec].
    + left. exists v1. pose proof (Hsame _ _ _ Hb) as ->. auto.
    + right. exists o. auto.
Qed.

(* ... and what follows *)
Lemma fine_reading_call {B} p s c (f : py_state -> c_value -> py_state * outcome B) : safe s -> respects (py_world s) c ->
  arrays_called (py_world s) c = [] -> (forall w' v o, call_body p 0 (py_world s) c = (w', v, o) -> w' = py_world s) ->
  (forall w' v, call_body p 0 (py_world s) c = (py_world s, v, Ok tt) -> w_blocks w' = w_blocks (py_world s) ->
     w_tensors w' = w_tensors (py_world s) -> safe (with_world s w') -> fine (with_world s w') (f (with_world s w') v)) ->
  fine s (and_then (py_call p s c) f).
Proof.
  intros Hs Hr Ha Hsame Hf. destruct (reading_call p s c Hs Hr Ha Hsame) as (w' & Hs' & Ht & E1 & E2 & [(v & Hb & ->)|(o & -> & Ho)]); cbn [and_then].
  - destruct (Hf w' v Hb E1 E2 Hs') as (F1 & F2 & F3). split; [exact F1|]. split; [exact F2|]. auto.
  - destruct Ho as [[e ->]|[m ->]]; (split; [exact Hs'|]); (split; [discriminate|]); exact Ht.
Qed.

Lemma fine_give s x : safe s -> (forall r, In r (references x) -> exists_in s r) -> local_ok s x ->
  (forall h n ws parent, x = PyBlock (BlockAt h) n true ws parent -> forall o, ~ frees_block s o h) ->
  (forall t l, x = PyTensor t l -> forall o, ~ frees_tensor s o t) -> fine s (give s x).
Proof.
  intros Hs H1 H2 H3 H4. split; [apply safe_give; assumption|]. split; [discriminate|apply tidy_give].
Qed.

Lemma fine_nothing s : safe s -> fine s (nothing s).
Proof. intros Hs. apply fine_same; [exact Hs|discriminate]. Qed.

(** * PartOf, LabelsOf and GradientsList *)

Lemma gradient_array_In gradients : forall arrays q a, gradient_array gradients arrays q = Some a -> In a arrays.
Proof.
  induction gradients as [|[q' g] gradients IH]; intros [|b arrays] q a H; try discriminate H. cbn [gradient_array] in H.
  destruct (String.eqb q q'); [injection H as ->; left; reflexivity|right; eapply IH; exact H].
Qed.

Lemma select_array_In b name a : select_array b name = Ok a -> In a (ob_arrays b).
Proof.
  unfold select_array. intros H. apply expect_some_ok in H. destruct (ob_arrays b) as [|values gradients]; [discriminate H|].
  destruct (String.eqb name "values"); [injection H as ->; left; reflexivity|]. right. eapply gradient_array_In. exact H.
Qed.

Lemma block_data_ok p w ptr name v : call_body p 0 w (BlockData ptr (Some name) out) = (w, v, Ok tt) ->
  exists given b, v = VArray given /\ read_block w ptr = Ok b /\ In (ga_id given) (ob_arrays b).
Proof.
  cbn [call_body]. unfold eqs_block_data, reading. intros H.
  match type of H with match ?x with _ => _ end = _ => destruct x as [v'|e|m|r] eqn:E end; [|discriminate H..].
  injection H as <-. apply bind_ok in E as (ptr' & Ep & E). apply bind_ok in E as (n1 & _ & E). apply bind_ok in E as (u & _ & E).
  apply bind_ok in E as (n2 & _ & E). apply bind_ok in E as (b & Hb & E). apply bind_ok in E as (basic & _ & E).
  apply bind_ok in E as (a & Ha & E). injection E as <-. exists (mk_given (bb_data basic) a false), b. split; [reflexivity|].
  assert (ptr' = ptr) as -> by (destruct ptr; cbn in Ep; congruence). split; [exact Hb|]. cbn [ga_id]. eapply select_array_In. exact Ha.
Qed.

(* the same objects with the same blocks *)
Lemma good_pointer_same s w' ptr : w_blocks w' = w_blocks (py_world s) -> w_tensors w' = w_tensors (py_world s) ->
  good_pointer s ptr -> good_pointer (with_world s w') ptr.
Proof.
  intros E1 E2 [H1 H2]. split; cbn [with_world py_world].
  - destruct H1 as [->|[b H1]]; [auto|]. right. exists b. unfold points_to, block_at, tensor_at in *. rewrite E1, E2. exact H1.
  - unfold arrays_at, read_block, get_block. rewrite E1, E2. exact H2.
Qed.

Lemma view_local s o ptr n owning ws parent b a : safe s -> object_is s o (PyBlock ptr n owning ws parent) ->
  read_block (py_world s) ptr = Ok b -> In a (ob_arrays b) -> forall k, local_ok s (PyView (PartMemory a k) (Some o)).
Proof.
  intros Hs Ho Hb Ha k. exists ptr, n, owning, ws, parent. split; [exact Ho|]. intros b' _ Hb'.
  apply (points_to_read _ _ _ (st_owners _ _ Hs)) in Hb'. congruence.
Qed.

Lemma read_block_same w w' ptr : w_blocks w' = w_blocks w -> w_tensors w' = w_tensors w -> read_block w' ptr = read_block w ptr.
Proof. intros E1 E2. unfold read_block, get_block. rewrite E1, E2. reflexivity. Qed.

Lemma fine_part p s block name : safe s -> current_block s block -> fine s (py_part p s block name).
Proof.
  intros Hs Hc. apply fine_read; [exact Hs|apply (block_pointer_defined Hs); exact Hc|]. intros ptr E.
  destruct (block_pointer_ok Hs _ _ Hc E) as (Hg & n & owning & ws & parent & Ho & Hf).
  apply fine_reading_call; [exact Hs|apply Hg|reflexivity|intros w' v o H; cbn [call_body] in H; apply reading_world in H; exact H|].
  intros w' v Hb E1 E2 Hs'. apply block_data_ok in Hb as (given & b & -> & Hb & Ha).
  assert (Hb' : read_block w' ptr = Ok b) by (rewrite (read_block_same (py_world s)); assumption).
  destruct (good_pointer_same s w' ptr E1 E2 Hg) as [_ Hwr].
  assert (Hin : In (ga_id given) (arrays_at w' ptr)) by (unfold arrays_at; rewrite Hb'; exact Ha). specialize (Hwr (ga_id given)).
  apply fine_read; [exact Hs'| |].
  - unfold call_array. cbn [with_world py_wrapped]. destruct (hm_get Nat.eqb (py_wrapped s) (ga_id given)) as [wr|] eqn:Ew; [|discriminate].
    destruct (Hwr wr Hin Ew) as [x Hx]. apply (safe_find Hs') in Hx. rewrite Hx. discriminate.
  - intros _ _. cbn [with_world py_wrapped py_changed]. destruct (hm_get Nat.eqb (py_wrapped s) (ga_id given)) as [wr|] eqn:Ew.
    + destruct (Hwr wr Hin Ew) as [x Hx]. destruct (st_wrapped _ _ Hs' (ga_id given) wr Ew) as (_ & _ & H3). destruct (H3 _ Hx) as [children ->].
      apply (safe_find Hs') in Hx. rewrite Hx. apply fine_nothing. exact Hs'.
    + apply fine_give; [exact Hs'| |eapply view_local; [exact Hs'|exact Ho|exact Hb'|exact Ha]|discriminate|discriminate].
      intros r [<-|[]]. exists (PyBlock ptr n owning ws parent). exact Ho.
Qed.

Lemma fine_part_labels p s block name axis : safe s -> current_block s block -> fine s (py_part_labels p s block name axis).
Proof.
  intros Hs Hc. apply fine_read; [exact Hs|apply (block_pointer_defined Hs); exact Hc|]. intros ptr E.
  destruct (block_pointer_ok Hs _ _ Hc E) as (Hg & n & owning & ws & parent & Ho & Hf).
  apply fine_reading_call; [exact Hs|apply Hg|reflexivity|intros w' v o H; cbn [call_body] in H; apply reading_world in H; exact H|].
  intros w' v Hb E1 E2 Hs'. apply block_data_ok in Hb as (given & b & -> & Hb & Ha).
  assert (Hb' : read_block w' ptr = Ok b) by (rewrite (read_block_same (py_world s)); assumption).
  pose proof (good_pointer_same s w' ptr E1 E2 Hg) as Hg'.
  apply fine_reading_call; [exact Hs'|apply Hg'|reflexivity|intros w2 v o H; cbn [call_body] in H; apply reading_world in H; exact H|].
  intros w2 v _ E3 E4 Hs2. cbn [with_world py_world] in E3, E4.
  assert (Hb2 : read_block w2 ptr = Ok b) by (rewrite (read_block_same w'); assumption).
  destruct v; try (apply fine_nothing; exact Hs2). destruct (cl_count labels =? 0); [apply fine_nothing; exact Hs2|].
  apply fine_give; [exact Hs2| |eapply view_local; [exact Hs2|exact Ho|exact Hb2|exact Ha]|discriminate|discriminate].
  intros r [<-|[]]. exists (PyBlock ptr n owning ws parent). exact Ho.
Qed.

Lemma fine_gradients_list p s block : safe s -> current_block s block -> fine s (py_gradients_list p s block).
Proof.
  intros Hs Hc. apply fine_read; [exact Hs|apply (block_pointer_defined Hs); exact Hc|]. intros ptr E.
  destruct (block_pointer_ok Hs _ _ Hc E) as (Hg & n & owning & ws & parent & Ho & Hf).
  apply fine_reading_call; [exact Hs|apply Hg|reflexivity|intros w' v o H; cbn [call_body] in H; apply reading_world in H; exact H|].
  intros w' v _ _ _ Hs'. apply fine_nothing. exact Hs'.
Qed.

(** * KeysOf, BlockOf, Matching and Save *)

Lemma fine_keys p s tensor : safe s -> fine s (py_keys p s tensor).
Proof.
  intros Hs. apply fine_read; [exact Hs|apply (tensor_pointer_defined Hs)|]. intros t E.
  destruct (tensor_pointer_ok Hs _ _ E) as (l & ot & Ho & Hot & _ & _).
  apply fine_reading_call; [exact Hs|intros h Eh; injection Eh as <-; exists ot; exact Hot|reflexivity|intros w' v o H; cbn [call_body] in H; apply reading_world in H; exact H|].
  intros w' v _ E1 E2 Hs'. destruct v; try (apply fine_nothing; exact Hs'). destruct (cl_count labels =? 0); [apply fine_nothing; exact Hs'|].
  apply fine_give; [exact Hs'| |exists l; exact Ho|discriminate|discriminate]. intros r [<-|[]]. exists (PyTensor t l). exact Ho.
Qed.

Lemma fine_block_at p s tensor index : safe s -> fine s (py_block_at p s tensor index).
Proof.
  intros Hs. apply fine_read; [exact Hs|apply (tensor_pointer_defined Hs)|]. intros t E.
  destruct (tensor_pointer_ok Hs _ _ E) as (l & ot & Ho & Hot & _ & _).
  apply fine_reading_call; [exact Hs|intros h Eh; injection Eh as <-; exists ot; exact Hot|reflexivity|intros w' v o H; cbn [call_body] in H; apply reading_world in H; exact H|].
  intros w' v Hb E1 E2 Hs'.
  assert (Hv : v = VBlock (BlockIn t index) /\ index < length (tm_blocks (ot_tensor ot))).
  { cbn [call_body] in Hb. unfold eqs_tensormap_block_by_id, reading in Hb. cbn [check_pointer bind out] in Hb.
    rewrite (tensor_get _ _ _ (st_owners _ _ Hs) Hot) in Hb. cbn [bind] in Hb. unfold index_slice in Hb.
    destruct (nth_error (tm_blocks (ot_tensor ot)) index) eqn:En; cbn [bind] in Hb; [|discriminate Hb]. injection Hb as <-.
    split; [reflexivity|]. apply nth_error_Some. congruence. }
  destruct Hv as [-> Hlt]. cbn [block_of]. apply fine_give; [exact Hs'| | |discriminate|discriminate].
  - intros r [<-|[]]. exists (PyTensor t l). exact Ho.
  - cbn [local_ok]. split; [reflexivity|]. exists tensor, l. split; [reflexivity|]. split; [exact Ho|]. split; [apply Nat.le_refl|].
    intros _. exists ot. split; [|exact Hlt]. unfold tensor_at. cbn [with_world py_world]. rewrite E2. exact Hot.
Qed.

Lemma fine_matching p s tensor count selection labels : safe s -> readable selection -> Forall (current_view s) labels ->
  fine s (py_matching p s tensor count selection labels).
Proof.
  intros Hs Hr Hl. apply fine_read; [exact Hs|eapply labels_defined; eassumption|]. intros _ _.
  apply fine_read; [exact Hs|apply (tensor_pointer_defined Hs)|]. intros t E.
  destruct (tensor_pointer_ok Hs _ _ E) as (l & ot & Ho & Hot & _ & _).
  apply fine_reading_call; [exact Hs|split; [intros h Eh; injection Eh as <-; exists ot; exact Hot|exact Hr]|reflexivity| |].
  - intros w' v o H. cbn [call_body] in H. unfold eqs_tensormap_blocks_matching in H. cbv zeta in H.
    match type of H with match ?x with _ => _ end = _ => destruct x as [[b idx]|e|m|r] end; [|injection H as <- <- <-; reflexivity..].
    destruct (write_indexes 0 b idx). injection H as <- <- <-. reflexivity.
  - intros w' v _ _ _ Hs'. apply fine_nothing. exact Hs'.
Qed.

(* calls which change nothing of the blocks and tensor maps, with arrays *)
Lemma fine_harmless {B} p s c (f : py_state -> c_value -> py_state * outcome B) : safe s -> respects (py_world s) c ->
  (forall a o, In a (arrays_called (py_world s) c) -> wrapper_of s a = Some o -> exists_in s o) ->
  (forall h, ~ changes_block c h) -> (forall h, ~ changes_tensor c h) ->
  (forall w' v errors, call_body p 0 (py_world s) c = (w', v, Ok tt) -> safe (with_world s (set_errors w' errors)) ->
     fine s (f (with_world s (set_errors w' errors)) v)) ->
  (forall w' v o h, call_body p 0 (py_world s) c = (w', v, o) -> o <> Ok tt -> v <> VBlock (BlockAt h) /\ forall l, v <> VTensor (Some h) l) ->
  fine s (and_then (py_call p s c) f).
Proof.
  intros Hs Hr Ha Hb Ht Hf Hfail. destruct (safe_call _ p s c Hs Hr Ha) as (w' & v & Hown & Hplain & Hnext & Hframe & Hends & Hv).
  assert (Hs' : safe (with_world s w')).
  { eapply quiet_world; [exact Hs|exact Hnext|exact Hown|exact Hplain|exact Hframe|intros o h _; apply Hb|intros o t _; apply Ht]. }
  inversion Hends as [w1 v1 errors Hbody E Ec|w1 v1 r errors o Hbody E Hne Ho Ec]; cbn [and_then].
  - subst w'. apply Hf; assumption.
  - assert (Htidy : tidy s -> tidy (with_world s w')).
    { intros T. apply (tidy_world s c w' v1 T); [|exact Hb|exact Ht|intros h; eapply (proj1 (Hfail _ _ _ h Hbody Hne))|intros h; apply (proj2 (Hfail _ _ _ h Hbody Hne))].
      rewrite E. apply (call_body_frame _ _ _ _ _ _ _ Hbody). }
    destruct Ho as [[e ->]|[m ->]]; (split; [exact Hs'|]); (split; [discriminate|exact Htidy]).
Qed.

Lemma fine_save p s path tensor system remains : safe s -> fine s (py_save p s path tensor system remains).
Proof.
  intros Hs. apply fine_read; [exact Hs|apply (tensor_pointer_defined Hs)|]. intros t E.
  destruct (tensor_pointer_ok Hs _ _ E) as (l & ot & Ho & Hot & Ea & Hwr).
  assert (Hv : forall w' v o, call_body p 0 (py_world s) (TensorSave (Some path) (Some t) system remains) = (w', v, o) -> v = VNone
    /\ w_blocks w' = w_blocks (py_world s) /\ w_tensors w' = w_tensors (py_world s)).
  { intros w' v o H. cbn [call_body] in H. unfold eqs_tensormap_save in H. cbv zeta in H.
    match type of H with match ?x with _ => _ end = _ => destruct x as [[path' ot']|e|m|r] end; [|injection H as <- <- <-; auto..].
    destruct (save LittleEndian (ot_tensor ot')); injection H as <- <- <-; auto. }
  apply fine_harmless; [exact Hs|intros h Eh; injection Eh as <-; exists ot; exact Hot| |intros h []|intros h []| |].
  - cbn [arrays_called]. rewrite Ea. intros a o Hin Hw. apply (Hwr a o Hin Hw).
  - intros w' v errors Hb Hs'. split; [exact Hs'|]. split; [discriminate|]. destruct (Hv _ _ _ Hb) as (_ & E1 & E2). intros [T1 T2]. cbn [nothing fst].
    split; cbn [with_world py_world set_errors]; unfold block_at, tensor_at; cbn [set_errors w_blocks w_tensors]; [rewrite E1; exact T1|rewrite E2; exact T2].
  - intros w' v o h Hb _. destruct (Hv _ _ _ Hb) as (-> & _ & _). split; discriminate.
Qed.

(** * Load, NewBlock, CopyOf and AddGradient *)

Lemma block_handle_lt w h b : owners w -> block_at w h b -> h < w_next_handle w.
Proof. intros Hw Hb. pose proof (own_blocks _ _ Hw) as [_ H]. rewrite Forall_forall in H. apply (H _ Hb). Qed.
Lemma tensor_handle_lt w h t : owners w -> tensor_at w h t -> h < w_next_handle w.
Proof. intros Hw Ht. pose proof (own_tensors _ _ Hw) as [_ H]. rewrite Forall_forall in H. apply (H _ Ht). Qed.

Lemma new_handle_free next s : safe_with next s ->
  (forall o, ~ frees_block s o (w_next_handle (py_world s))) /\ (forall o, ~ frees_tensor s o (w_next_handle (py_world s))).
Proof.
  intros Hs. split; intros o Ho.
  - destruct (frees_block_at Hs _ _ Ho) as [b Hb]. apply (block_handle_lt _ _ _ (st_owners _ _ Hs)) in Hb. lia.
  - destruct (frees_tensor_at Hs _ _ Ho) as [b Hb]. apply (tensor_handle_lt _ _ _ (st_owners _ _ Hs)) in Hb. lia.
Qed.

Lemma fine_load p s path names temporary : safe s -> fine s (py_load p s path names temporary).
Proof.
  intros Hs. apply fine_harmless; [exact Hs|exact I|intros a o []|intros h []|intros h []| |].
  - intros w' v errors Hb Hs'. cbn [call_body] in Hb. unfold eqs_tensormap_load in Hb. cbv zeta in Hb.
    match type of Hb with match ?x with _ => _ end = _ => destruct x as [t|e|m|r] eqn:E end; [|discriminate Hb..].
    destruct (new_blocks_arrays (py_world s) (tm_blocks t)) as [w1 arrays] eqn:En. injection Hb as <- <-.
    pose proof (new_blocks_next _ _ _ _ En) as [Hseq _]. apply new_blocks_arrays_handles in En as (E1 & E2 & E3).
    destruct (new_handle_free _ _ Hs) as [_ Hnew]. rewrite <- E3 in Hnew. set (h := w_next_handle w1) in *.
    set (w2 := set_errors _ errors) in *.
    assert (Hat : tensor_at w2 h (mk_owned_tensor t arrays)) by (left; reflexivity).
    split; [|split; [discriminate|]].
    + apply safe_give; [exact Hs'|intros r []| |discriminate|].
      * cbn [local_ok]. exists (mk_owned_tensor t arrays). split; [exact Hat|]. cbn [ot_arrays]. rewrite Hseq. intros a o Ha Hw.
        apply in_seq in Ha. change (wrapper_of s a = Some o) in Hw.
        rewrite (wrapper_next Hs) in Hw; [discriminate Hw|lia].
      * intros t0 l Eq o Ho. injection Eq as <- <-. apply (Hnew o). exact Ho.
    + intros [T1 T2]. cbn [give fst]. split.
      * intros h' b Hb. destruct (T1 h' b) as [o Ho]; [unfold block_at in *; cbn in Hb; rewrite E1 in Hb; exact Hb|].
        exists o. destruct Ho as (n & ws & parent & Ho). exists n, ws, parent. right. exact Ho.
      * intros h' t' [Eq|Ht]; cbn in *.
        -- injection Eq as Eh _. exists (py_next s). exists None. left. rewrite <- Eh. reflexivity.
        -- rewrite E2 in Ht. destruct (T2 h' t' Ht) as [o [l Ho]]. exists o, l. right. exact Ho.
  - intros w' v o h Hb Hne. cbn [call_body] in Hb. unfold eqs_tensormap_load in Hb. cbv zeta in Hb.
    match type of Hb with match ?x with _ => _ end = _ => destruct x as [t|e|m|r] eqn:E end;
      [|injection Hb as <- <- <-; split; discriminate..].
    destruct (new_blocks_arrays (py_world s) (tm_blocks t)) as [w1 arrays] eqn:En. injection Hb as <- <- <-. congruence.
Qed.

(* what happens to the blocks of the library when a block is created *)
Lemma create_body p w data samples components properties w' v o :
  call_body p 0 w (BlockCreate data samples components properties) = (w', v, o) ->
  w_next_array w' = S (w_next_array w) /\ w_tensors w' = w_tensors w
  /\ ((exists b, o = Ok tt /\ v = VBlock (BlockAt (w_next_handle w))
         /\ w_blocks w' = (w_next_handle w, mk_owned_block b [w_next_array w]) :: w_blocks w)
      \/ (o <> Ok tt /\ w_blocks w' = w_blocks w)).
Proof.
  cbn [call_body]. unfold eqs_block. cbn [new_arrays seq]. cbv zeta. intros H.
  match type of H with match ?x with _ => _ end = _ => destruct x as [b|e|m|r] eqn:Eb end; injection H as <- <- <-; cbn;
    (split; [lia|]); (split; [reflexivity|]); [left; exists b; auto|right; split; [discriminate|reflexivity]..].
Qed.

Lemma new_wrapper_world s a v w : with_world (new_wrapper s a v) w = new_wrapper (with_world s w) a v.
Proof. reflexivity. Qed.

Lemma wrapper_of_new s a v b : wrapper_of (new_wrapper s a v) b = if b =? a then Some (py_next s) else wrapper_of s b.
Proof. unfold wrapper_of. cbn [new_wrapper py_wrapped hm_get]. destruct (b =? a); reflexivity. Qed.

Lemma fine_new_block p s data samples components properties labels : safe s ->
  readable samples -> Forall readable components -> readable properties -> Forall (current_view s) labels ->
  fine s (py_new_block p s data None samples components properties labels).
Proof.
  intros Hs R1 R2 R3 Hl. apply fine_read; [exact Hs|discriminate|]. intros _ _.
  apply fine_read; [exact Hs|eapply labels_defined; eassumption|]. intros _ _.
  cbv zeta. set (a := w_next_array (py_world s)). set (s1 := new_wrapper s a None).
  assert (Hs1 : safe_with (S a) s1).
  { apply (safe_new_wrapper _ _ _ _ Hs); [unfold a; lia|unfold a; lia|apply (wrapper_next Hs); apply Nat.le_refl|apply (loose_next Hs); apply Nat.le_refl]. }
  assert (Hfree : forall o h, frees_block s o h -> frees_block s1 o h) by (intros o h (n & ws & parent & Ho); exists n, ws, parent; right; exact Ho).
  assert (Hfreet : forall o h, frees_tensor s o h -> frees_tensor s1 o h) by (intros o h (l & Ho); exists l; right; exact Ho).
  destruct (safe_call _ p s1 (BlockCreate data samples components properties) Hs1) as (w' & v & Hown & Hplain & _ & Hframe & Hends & Hv);
    [split; [exact R1|split; assumption]|intros b o []|].
  assert (Hnext : w_next_array w' = S a).
  { inversion Hends as [w1 v1 errors Hb E|w1 v1 r errors o Hb E]; apply create_body in Hb as (Hb & _); rewrite E; exact Hb. }
  assert (Hs' : safe (with_world s1 w')).
  { unfold safe. cbn [with_world py_world]. rewrite Hnext. eapply quiet_world; [exact Hs1|lia|exact Hown|exact Hplain|exact Hframe|intros o h _ []|intros o h _ []]. }
  inversion Hends as [w1 v1 errors Hb E Ec|w1 v1 r errors o Hb E Hne Ho Ec]; cbn [and_then].
  - apply create_body in Hb as (_ & E2 & [(b & _ & -> & E1)|[H _]]); [|congruence]. cbn [block_of].
    change (w_next_handle (py_world s1)) with (w_next_handle (py_world s)) in *. set (h := w_next_handle (py_world s)) in *.
    assert (Hat : block_at w' h (mk_owned_block b [a])) by (rewrite E; unfold block_at; cbn [set_errors w_blocks]; rewrite E1; left; reflexivity).
    destruct (new_handle_free _ _ Hs1) as [Hnew _].
    split; [|split; [discriminate|]].
    + apply safe_give; [exact Hs'| | | |discriminate].
      * intros r [<-|[]]. exists (PyWrapper a None []). left. reflexivity.
      * cbn [local_ok]. split; [reflexivity|]. exists (mk_owned_block b [a]). split; [exact Hat|]. cbn [ob_arrays]. intros a' o [<-|[]] Hw.
        change (wrapper_of s1 a = Some o) in Hw. unfold s1 in Hw. rewrite wrapper_of_new, Nat.eqb_refl in Hw. injection Hw as <-. left. reflexivity.
      * intros h' n ws parent Eq o Ho. injection Eq as <- _ _ _. apply (Hnew o). exact Ho.
    + intros [T1 T2]. cbn [give fst]. split.
      * intros h' b' Hb'. unfold block_at in Hb'. cbn [with_variables new_object with_world py_world] in Hb'. rewrite E in Hb'. cbn [set_errors w_blocks] in Hb'. rewrite E1 in Hb'.
        destruct Hb' as [Eq|Hb'].
        -- injection Eq as <- _. exists (S (py_next s)), 0, [py_next s], None. left. reflexivity.
        -- destruct (T1 h' b' Hb') as [o (n & ws & parent & Ho)]. exists o, n, ws, parent. right. right. exact Ho.
      * intros h' t' Ht'. unfold tensor_at in Ht'. cbn [with_variables new_object with_world py_world] in Ht'. rewrite E in Ht'. cbn [set_errors w_tensors] in Ht'. rewrite E2 in Ht'.
        destruct (T2 h' t' Ht') as [o [l Ho]]. exists o, l. right. right. exact Ho.
  - assert (Ht : tidy s -> tidy (with_world s1 w')).
    { apply create_body in Hb as (_ & E2 & [(b & H & _)|[_ E1]]); [congruence|]. intros [T1 T2]. split; cbn [with_world py_world]; rewrite E; unfold block_at, tensor_at; cbn [set_errors w_blocks w_tensors].
      - rewrite E1. intros h b Hin. destruct (T1 h b Hin) as [o' Ho']. exists o'. apply Hfree. exact Ho'.
      - rewrite E2. intros h b Hin. destruct (T2 h b Hin) as [o' Ho']. exists o'. apply Hfreet. exact Ho'. }
    destruct Ho as [[e ->]|[m ->]]; (split; [exact Hs'|]); (split; [discriminate|exact Ht]).
Qed.

(* wrappers for all the copies *)
Lemma wrap_copies_facts next pairs : forall s s' ws, safe_with next s -> wrap_copies s pairs = (s', ws) ->
  NoDup (map snd pairs) -> (forall a, In a (map snd pairs) -> a < next /\ wrapper_of s a = None /\ loose_array s a) ->
  safe_with next s' /\ py_world s' = py_world s /\ py_moved s' = py_moved s /\ py_changed s' = py_changed s /\ py_variables s' = py_variables s
  /\ (forall o x, object_is s o x -> object_is s' o x)
  /\ (forall o x, object_is s' o x -> object_is s o x \/ exists a, x = PyWrapper a None [])
  /\ (forall r, In r ws -> exists_in s' r)
  /\ (forall a o, wrapper_of s' a = Some o -> wrapper_of s a = Some o \/ (In a (map snd pairs) /\ In o ws)).
Proof.
  induction pairs as [|[a c] pairs IH]; intros s s' ws Hs H Hnd Hf; cbn [wrap_copies] in H.
  - injection H as <- <-. split; [exact Hs|]. do 4 (split; [reflexivity|]). split; [auto|]. split; [auto|]. split; [intros r []|]. auto.
  - cbn [map snd] in Hnd. apply NoDup_cons_iff in Hnd as [Hn Hnd]. destruct (hm_get Nat.eqb (py_wrapped s) a) as [o0|] eqn:Ea.
    + destruct (wrap_copies (new_wrapper s c None) pairs) as [s2 ws2] eqn:Er. injection H as <- <-.
      destruct (Hf c (or_introl eq_refl)) as (F1 & F2 & F3).
      assert (Hs1 : safe_with next (new_wrapper s c None)) by (eapply safe_new_wrapper; [exact Hs|apply Nat.le_refl|assumption..]).
      eapply IH in Er as (R1 & R2 & R3 & R4 & R5 & R6 & R7 & R8 & R9); [|exact Hs1|exact Hnd|].
      * split; [exact R1|]. split; [exact R2|]. split; [exact R3|]. split; [exact R4|]. split; [exact R5|]. split; [intros o x Ho; apply R6; right; exact Ho|].
        split; [|split].
        -- intros o x Ho. apply R7 in Ho as [[Eq|Ho]|Ho]; [injection Eq as <- <-; right; eauto|left; exact Ho|right; exact Ho].
        -- intros r [<-|Hr]; [|auto]. exists (PyWrapper c None []). apply R6. left. reflexivity.
        -- intros b o Hb. apply R9 in Hb as [Hb|[Hb Ho]]; [|right; split; right; assumption]. rewrite wrapper_of_new in Hb.
           destruct (Nat.eqb_spec b c) as [->|Hne]; [injection Hb as <-; right; split; left; reflexivity|auto].
      * intros b Hb. destruct (Hf b (or_intror Hb)) as (G1 & G2 & G3). split; [exact G1|]. split.
        -- rewrite wrapper_of_new. destruct (Nat.eqb_spec b c) as [->|_]; [contradiction|exact G2].
        -- destruct G3 as [G3 G4]. split.
           ++ intros o h blk (n & ws0 & parent & [Eq|Ho]); [discriminate Eq|]. apply (G3 o). exists n, ws0, parent. exact Ho.
           ++ intros o t ot (l & [Eq|Ho]); [discriminate Eq|]. apply (G4 o). exists l. exact Ho.
    + eapply IH in H as (R1 & R2 & R3 & R4 & R5 & R6 & R7 & R8 & R9); [|exact Hs|exact Hnd|intros b Hb; apply Hf; right; exact Hb].
      do 8 (split; [assumption|]). intros b o Hb. apply R9 in Hb as [Hb|[Hb Ho]]; [auto|]. right. split; [right|]; assumption.
Qed.

Lemma combine_snd_NoDup {A B} (l : list A) : forall (m : list B), NoDup m -> NoDup (map snd (combine l m)).
Proof.
  induction l as [|a l IH]; intros [|b m] H; cbn [combine map snd]; try constructor.
  - apply NoDup_cons_iff in H as [H _]. intros Hin. apply H. apply in_map_iff in Hin as ([x y] & E & Hin). cbn [snd] in E. subst y.
    apply in_combine_r in Hin. exact Hin.
  - apply IH. apply NoDup_cons_iff in H as [_ H]. exact H.
Qed.

Lemma copy_body p w ptr w' v o : call_body p 0 w (BlockCopy ptr) = (w', v, o) ->
  w_tensors w' = w_tensors w
  /\ ((exists b n, o = Ok tt /\ v = VBlock (BlockAt (w_next_handle w)) /\ w_next_array w' = w_next_array w + n
         /\ w_blocks w' = (w_next_handle w, mk_owned_block b (seq (w_next_array w) n)) :: w_blocks w)
      \/ (o <> Ok tt /\ v = VBlock BlockNull /\ w_blocks w' = w_blocks w)).
Proof.
  cbn [call_body]. unfold eqs_block_copy. intros H.
  match type of H with match ?x with _ => _ end = _ => destruct x as [b|e|m|r] eqn:Eb end;
    [|injection H as <- <- <-; split; [reflexivity|]; right; split; [discriminate|auto]..].
  destruct (clone_arrays (block_arrays (ob_block b))) as [n r] eqn:Ec. cbn [new_arrays] in H.
  destruct r as [[]|e|m|r]; injection H as <- <- <-; (split; [reflexivity|]); [left; exists (ob_block b), n; auto|right; split; [discriminate|auto]..].
Qed.

Lemma fine_copy p s block : safe s -> current_block s block -> fine s (py_copy p s block).
Proof.
  intros Hs Hc. apply fine_read; [exact Hs|apply (block_pointer_defined Hs); exact Hc|]. intros ptr E.
  destruct (block_pointer_ok Hs _ _ Hc E) as (Hg & n & owning & ws & parent & Ho & Hf). cbv zeta.
  apply fine_harmless; [exact Hs|apply Hg| |intros h []|intros h []| |].
  - intros a wr Ha Hw. cbn [arrays_called] in Ha. eapply (proj2 Hg); eassumption.
  - intros w' v errors Hb Hs'. apply copy_body in Hb as (E2 & [(b & k & _ & -> & En & E1)|[H _]]); [|congruence]. cbn [block_of].
    set (h := w_next_handle (py_world s)) in *. set (w2 := set_errors w' errors) in *.
    assert (Hat : block_at w2 h (mk_owned_block b (seq (w_next_array (py_world s)) k))) by (unfold w2, block_at; cbn [set_errors w_blocks]; rewrite E1; left; reflexivity).
    assert (Earr : arrays_at (py_world (with_world s w2)) (BlockAt h) = seq (w_next_array (py_world s)) k).
    { unfold arrays_at. rewrite (points_to_read _ _ (mk_owned_block b (seq (w_next_array (py_world s)) k)) (st_owners _ _ Hs')); [reflexivity|]. left. exists h. split; [reflexivity|exact Hat]. }
    rewrite Earr. destruct (wrap_copies (with_world s w2) (combine (arrays_at (py_world s) ptr) (seq (w_next_array (py_world s)) k))) as [s3 ws3] eqn:Ew.
    destruct (new_handle_free _ _ Hs) as [Hnew _]. fold h in Hnew.
    eapply wrap_copies_facts in Ew as (R1 & R2 & R3 & R4 & R5 & R6 & R7 & R8 & R9); [|exact Hs'|apply combine_snd_NoDup; apply seq_NoDup|].
    + assert (Hs3 : safe s3) by (unfold safe; rewrite R2; exact R1).
      assert (Hback : forall o, ~ frees_block s3 o h).
      { intros o (n0 & ws0 & parent0 & Hx). apply R7 in Hx as [Hx|[a Hx]]; [|discriminate Hx]. apply (Hnew o). exists n0, ws0, parent0. exact Hx. }
      split; [|split; [discriminate|]].
      * apply safe_give; [exact Hs3| | | |discriminate].
        -- intros r Hr. cbn [references optional] in Hr. rewrite app_nil_r in Hr. auto.
        -- cbn [local_ok]. split; [reflexivity|]. exists (mk_owned_block b (seq (w_next_array (py_world s)) k)). rewrite R2. split; [exact Hat|].
           cbn [ob_arrays]. intros a o Ha Hw. apply R9 in Hw as [Hw|[_ Hw]]; [|exact Hw]. apply in_seq in Ha.
           change (wrapper_of s a = Some o) in Hw. rewrite (wrapper_next Hs) in Hw; [discriminate Hw|lia].
        -- intros h' n0 ws0 parent0 Eq o Hx. injection Eq as <- _ _ _. apply (Hback o). exact Hx.
      * intros [T1 T2]. cbn [give fst]. split.
        -- intros h' b' Hb'. unfold block_at in Hb'. cbn [with_variables new_object py_world] in Hb'. rewrite R2 in Hb'. cbn [with_world py_world] in Hb'.
           unfold w2 in Hb'. cbn [set_errors w_blocks] in Hb'. rewrite E1 in Hb'. destruct Hb' as [Eq|Hb'].
           ++ injection Eq as <- _. exists (py_next s3), 0, ws3, None. left. reflexivity.
           ++ destruct (T1 h' b' Hb') as [o (n0 & ws0 & parent0 & Hx)]. exists o, n0, ws0, parent0. right. apply R6. exact Hx.
        -- intros h' t' Ht'. unfold tensor_at in Ht'. cbn [with_variables new_object py_world] in Ht'. rewrite R2 in Ht'. cbn [with_world py_world] in Ht'.
           unfold w2 in Ht'. cbn [set_errors w_tensors] in Ht'. rewrite E2 in Ht'. destruct (T2 h' t' Ht') as [o [l Hx]]. exists o, l. right. apply R6. exact Hx.
    + intros a Ha. apply in_map_iff in Ha as ([x y] & Eq & Ha). cbn [snd] in Eq. subst y. apply in_combine_r in Ha. apply in_seq in Ha.
      split; [cbn [with_world py_world]; unfold w2; cbn [set_errors w_next_array]; lia|].
      split; [change (wrapper_of s a = None); apply (wrapper_next Hs); lia|].
      assert (Hloose : loose_array s a) by (apply (loose_next Hs); lia). destruct Hloose as [L1 L2]. split.
      * intros o h' b' Hx Hb'. unfold block_at in Hb'. cbn [with_world py_world] in Hb'. unfold w2 in Hb'. cbn [set_errors w_blocks] in Hb'. rewrite E1 in Hb'.
        destruct Hb' as [Eq|Hb']; [injection Eq as <- _; destruct (Hnew o Hx)|]. eapply L1; [exact Hx|exact Hb'].
      * intros o t ot Hx Ht'. unfold tensor_at in Ht'. cbn [with_world py_world] in Ht'. unfold w2 in Ht'. cbn [set_errors w_tensors] in Ht'. rewrite E2 in Ht'.
        eapply L2; [exact Hx|exact Ht'].
  - intros w' v o h Hb Hne. apply copy_body in Hb as (_ & [(b & k & H & _)|(_ & -> & _)]); [congruence|]. split; discriminate.
Qed.
