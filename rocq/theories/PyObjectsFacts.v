(* The objects of Python programs: an invariant (C81 to C84) *)
From Coq Require Import Lia Permutation.
From Verif Require Import Base BaseFacts Labels Array Block Tensor Npy Io Origin CApi Spec SpecTensor SpecIo SpecApi
  ApiFacts ReportFacts OwnerFacts ReachFacts HandleFacts SafeFacts CallFacts PyIo PyObjects SpecPyObjects.
Local Open Scope string_scope.
Local Open Scope list_scope.
Local Open Scope nat_scope.

(** * Objects *)

Definition exists_in (s : py_state) (o : nat) : Prop := exists x, object_is s o x.

Lemma object_one s o x y : handles_ok (py_next s) (py_objects s) -> object_is s o x -> object_is s o y -> x = y.
Proof.
  intros [Hnd _] H1 H2. unfold object_is in *. apply (BaseFacts.In_hm_get _ Nat.eqb_eq _ _ _ Hnd) in H1, H2. congruence.
Qed.

Lemma find_object_is s o x : handles_ok (py_next s) (py_objects s) -> (find_object s o = Some x <-> object_is s o x).
Proof. intros [Hnd _]. apply (hm_get_iff _ Nat.eqb_eq). exact Hnd. Qed.

Lemma object_lt s o x : handles_ok (py_next s) (py_objects s) -> object_is s o x -> o < py_next s.
Proof. intros [_ H] Hx. rewrite Forall_forall in H. apply (H _ Hx). Qed.

(* wrappers are kept by their creators *)
Inductive keeps (s : py_state) : nat -> nat -> Prop :=
| keeps_self o : keeps s o o
| keeps_child o array view children c o' :
    object_is s o (PyWrapper array view children) -> In c children -> keeps s c o' -> keeps s o o'.

Definition chain (s : py_state) (l : option nat) (wrapper : nat) : Prop :=
  exists lo items b ptr n owning ws parent first,
    l = Some lo /\ object_is s lo (PyList items) /\ In b items /\ object_is s b (PyBlock ptr n owning ws parent)
    /\ In first ws /\ keeps s first wrapper.

Definition fresh_ptr (s : py_state) (ptr : block_ptr) (n : nat) : Prop :=
  forall t i, ptr = BlockIn t i -> n = moves s t.

Definition wrapper_of (s : py_state) (a : nat) : option nat := hm_get Nat.eqb (py_wrapped s) a.

Definition local_ok (s : py_state) (x : py_object) : Prop :=
  match x with
  | PyWrapper _ view _ => view = None
  | PyBlock BlockNull _ owning _ _ => owning = true
  | PyBlock (BlockAt h) _ owning ws _ => owning = true
      /\ exists b, block_at (py_world s) h b
      /\ forall a o, In a (ob_arrays b) -> wrapper_of s a = Some o -> In o ws
  | PyBlock (BlockIn t i) n owning _ parent => owning = false
      /\ exists po l, parent = Some po /\ object_is s po (PyTensor t l) /\ n <= moves s t
      /\ (n = moves s t -> exists ot, tensor_at (py_world s) t ot /\ i < length (tm_blocks (ot_tensor ot)))
  | PyList _ => True
  | PyTensor t l => exists ot, tensor_at (py_world s) t ot
      /\ forall a o, In a (concat (ot_arrays ot)) -> wrapper_of s a = Some o -> chain s l o
  | PyView _ None => True
  | PyView (PartMemory a _) (Some po) => exists ptr n owning ws parent,
      object_is s po (PyBlock ptr n owning ws parent)
      /\ forall b, fresh_ptr s ptr n -> points_to (py_world s) ptr b -> In a (ob_arrays b)
  | PyView (KeysMemory t _) (Some po) => exists l, object_is s po (PyTensor t l)
  end.

(* [next]: arrays which can have a wrapper are before *)
Record safe_with (next : nat) (s : py_state) : Prop := mk_safe {
  st_owners : owners (py_world s);
  st_plain : plain_world (py_world s);
  st_ids : handles_ok (py_next s) (py_objects s);
  st_references : forall o x r, object_is s o x -> In r (references x) -> exists_in s r;
  st_variables : forall r, In r (py_variables s) -> exists_in s r;
  st_wrapped : forall a o, wrapper_of s a = Some o -> a < next /\ o < py_next s
    /\ forall x, object_is s o x -> exists children, x = PyWrapper a None children;
  st_local : forall o x, object_is s o x -> local_ok s x;
  st_block_owner : forall o o' h, frees_block s o h -> frees_block s o' h -> o = o';
  st_tensor_owner : forall o o' h, frees_tensor s o h -> frees_tensor s o' h -> o = o';
}.
Definition safe (s : py_state) : Prop := safe_with (w_next_array (py_world s)) s.

Lemma safe_start files : safe (py_start files).
Proof.
  split; cbn.
  - apply owners_start.
  - apply plain_start.
  - split; constructor.
  - intros o x r [].
  - intros r [].
  - discriminate.
  - intros o x [].
  - intros o o' h (? & ? & ? & []).
  - intros o o' h (? & []).
Qed.

Lemma safe_more next next' s : next <= next' -> safe_with next s -> safe_with next' s.
Proof.
  intros Hle [H1 H2 H3 H4 H5 H6 H7 H8 H9]. split; try assumption.
  intros a o Ha. apply H6 in Ha as (Ha & Hr). split; [lia|exact Hr].
Qed.

Section Safe.
  Context {next : nat} {s : py_state}.
  Hypothesis Hs : safe_with next s.

  Lemma safe_one o x y : object_is s o x -> object_is s o y -> x = y.
  Proof. apply object_one. apply (st_ids _ _ Hs). Qed.

  Lemma safe_find o x : find_object s o = Some x <-> object_is s o x.
  Proof. apply find_object_is. apply (st_ids _ _ Hs). Qed.

  Lemma keeps_exists o o' : keeps s o o' -> exists_in s o -> exists_in s o'.
  Proof.
    induction 1 as [o|o array view children c o' Ho Hc _ IH]; [auto|]. intros _. apply IH.
    eapply (st_references _ _ Hs); [exact Ho|]. cbn [references]. apply in_or_app. auto.
  Qed.

  Lemma chain_exists l o : chain s l o -> exists_in s o.
  Proof.
    intros (lo & items & b & ptr & n & owning & ws & parent & first & _ & _ & _ & Hb & Hf & Hk).
    eapply keeps_exists; [exact Hk|]. eapply (st_references _ _ Hs); [exact Hb|]. cbn [references]. apply in_or_app. auto.
  Qed.

  Lemma block_wrappers o h n ws parent b a wr : object_is s o (PyBlock (BlockAt h) n true ws parent) ->
    block_at (py_world s) h b -> In a (ob_arrays b) -> wrapper_of s a = Some wr -> In wr ws /\ exists_in s wr.
  Proof.
    intros Ho Hb Ha Hw. pose proof (st_local _ _ Hs _ _ Ho) as (_ & b' & Hb' & Hc). assert (b' = b) as ->.
    { pose proof (own_blocks _ _ (st_owners _ _ Hs)) as [Hnd _]. unfold block_at in *.
      apply (BaseFacts.In_hm_get _ Nat.eqb_eq _ _ _ Hnd) in Hb, Hb'. congruence. }
    pose proof (Hc _ _ Ha Hw) as Hin. split; [exact Hin|]. eapply (st_references _ _ Hs); [exact Ho|]. cbn [references].
    apply in_or_app. auto.
  Qed.

  Lemma tensor_wrappers o t l ot a wr : object_is s o (PyTensor t l) ->
    tensor_at (py_world s) t ot -> In a (concat (ot_arrays ot)) -> wrapper_of s a = Some wr -> chain s l wr /\ exists_in s wr.
  Proof.
    intros Ho Ht Ha Hw. pose proof (st_local _ _ Hs _ _ Ho) as (t' & Ht' & Hc). assert (t' = ot) as ->.
    { pose proof (own_tensors _ _ (st_owners _ _ Hs)) as [Hnd _]. unfold tensor_at in *.
      apply (BaseFacts.In_hm_get _ Nat.eqb_eq _ _ _ Hnd) in Ht, Ht'. congruence. }
    pose proof (Hc _ _ Ha Hw) as Hin. split; [exact Hin|]. eapply chain_exists. exact Hin.
  Qed.

  Lemma plain_wrapper o a view children : object_is s o (PyWrapper a view children) -> view = None.
  Proof. intros H. apply (st_local _ _ Hs) in H. exact H. Qed.

  Lemma after_call_world w : after_call s w = with_world s w.
  Proof.
    unfold after_call, with_world, with_objects. cbn [py_objects py_next py_variables py_wrapped py_moved py_changed]. f_equal.
    rewrite <- (map_id (py_objects s)) at 2. apply map_ext_in. intros [o x] Hin. cbn [fst snd]. f_equal.
    destruct x as [a view children| | | |]; try reflexivity. cbn [drop_array]. apply plain_wrapper in Hin as ->. destruct (mem _ _ _); reflexivity.
  Qed.
End Safe.

(** * Adding and changing objects *)

(* what can happen to an object while it exists *)
Inductive grown : py_object -> py_object -> Prop :=
| grown_same x : grown x x
| grown_wrapper a v c c' : incl c c' -> grown (PyWrapper a v c) (PyWrapper a v c')
| grown_block ptr ptr' n owning ws ws' parent : incl ws ws' -> (ptr' = ptr \/ (ptr' = BlockNull /\ owning = true)) ->
    grown (PyBlock ptr n owning ws parent) (PyBlock ptr' n owning ws' parent).

Definition grows (s s' : py_state) : Prop :=
  forall o x, object_is s o x -> exists x', object_is s' o x' /\ grown x x'.

Lemma grows_keeps s s' o o' : grows s s' -> keeps s o o' -> keeps s' o o'.
Proof.
  intros Hg. induction 1 as [o|o array view children c o' Ho Hc _ IH]; [constructor|].
  apply Hg in Ho as (x' & Ho & Hx). inversion Hx; subst; econstructor; eauto.
Qed.

Lemma grows_chain s s' l o : grows s s' -> chain s l o -> chain s' l o.
Proof.
  intros Hg (lo & items & b & ptr & n & owning & ws & parent & first & -> & Hl & Hb & Ho & Hf & Hk).
  apply Hg in Hl as (xl & Hl & El). inversion El; subst. apply Hg in Ho as (xb & Ho & Eb). apply (grows_keeps _ _ _ _ Hg) in Hk.
  inversion Eb; subst.
  - exists lo, items, b, ptr, n, owning, ws, parent, first. auto 10.
  - exists lo, items, b, ptr', n, owning, ws', parent, first. auto 12.
Qed.

(* this array does not belong to any object *)
Definition loose_array (s : py_state) (a : nat) : Prop :=
  (forall o h b, frees_block s o h -> block_at (py_world s) h b -> ~ In a (ob_arrays b))
  /\ (forall o t ot, frees_tensor s o t -> tensor_at (py_world s) t ot -> ~ In a (concat (ot_arrays ot))).

Lemma grows_local next s s' : safe_with next s -> grows s s' -> py_world s' = py_world s -> py_moved s' = py_moved s ->
  (forall a o, wrapper_of s' a = Some o -> wrapper_of s a = Some o \/ loose_array s a) ->
  forall o x, object_is s o x -> local_ok s' x.
Proof.
  intros Hs Hg Ew Em Hw o x Ho. pose proof (st_local _ _ Hs _ _ Ho) as Hl.
  destruct x as [a view children|ptr n owning ws parent|items|t l|m parent]; cbn [local_ok] in *.
  - exact Hl.
  - destruct ptr as [|h|t i]; [exact Hl| |].
    + destruct Hl as (-> & b & Hb & Hc). split; [reflexivity|]. exists b. rewrite Ew. split; [exact Hb|]. intros a wr Ha Hwr.
      destruct (Hw _ _ Hwr) as [Hwr'|[Hl _]]; [eauto|]. exfalso. eapply Hl; [|exact Hb|exact Ha]. exists n, ws, parent. exact Ho.
    + destruct Hl as (-> & po & l & -> & Hpo & Hle & Hi). split; [reflexivity|].
      apply Hg in Hpo as (xp & Hpo & Ep). inversion Ep; subst. exists po, l. unfold moves in *. rewrite Ew, Em. auto.
  - exact I.
  - destruct Hl as (ot & Ht & Hc). exists ot. rewrite Ew. split; [exact Ht|]. intros a wr Ha Hwr.
    destruct (Hw _ _ Hwr) as [Hwr'|[_ Hl]]; [eapply grows_chain; eauto|]. exfalso. eapply Hl; [|exact Ht|exact Ha]. exists l. exact Ho.
  - destruct parent as [po|]; [|destruct m; exact I]. destruct m as [a n|t n].
    + destruct Hl as (ptr & n' & owning & ws & parent & Hpo & Hb). apply Hg in Hpo as (xp & Hpo & Ep). inversion Ep; subst.
      * exists ptr, n', owning, ws, parent. split; [exact Hpo|]. unfold fresh_ptr, moves in *. rewrite Ew, Em. exact Hb.
      * exists ptr', n', owning, ws', parent. split; [exact Hpo|]. unfold fresh_ptr, moves in *. rewrite Ew, Em.
        destruct H6 as [->|[-> _]]; [exact Hb|]. intros b _ [(h & E & _)|(t & i & ot & E & _)]; discriminate E.
    + destruct Hl as (l & Hpo). apply Hg in Hpo as (xp & Hpo & Ep). inversion Ep; subst. exists l. exact Hpo.
Qed.

Lemma grows_new_object s x : grows s (new_object s x).
Proof. intros o y Ho. exists y. split; [right; exact Ho|constructor]. Qed.

Lemma new_object_is s x o y : object_is (new_object s x) o y <-> (o = py_next s /\ y = x) \/ object_is s o y.
Proof.
  unfold object_is. cbn [new_object py_objects In]. split; intros [H|H]; auto.
  - injection H as <- <-. auto.
  - destruct H as [-> ->]. auto.
Qed.

(* a new object, which is not a wrapper *)
Lemma safe_new_object next s x : safe_with next s ->
  (forall r, In r (references x) -> exists_in s r) -> local_ok s x ->
  (forall h n ws parent, x = PyBlock (BlockAt h) n true ws parent -> forall o, ~ frees_block s o h) ->
  (forall t l, x = PyTensor t l -> forall o, ~ frees_tensor s o t) ->
  safe_with next (new_object s x).
Proof.
  intros Hs Hr Hl Hb Ht. pose proof (grows_new_object s x) as Hg.
  assert (Hex : forall r, exists_in s r -> exists_in (new_object s x) r).
  { intros r [y Hy]. exists y. apply new_object_is. auto. }
  split.
  - apply (st_owners _ _ Hs).
  - apply (st_plain _ _ Hs).
  - apply handles_cons. apply (st_ids _ _ Hs).
  - intros o y r Ho Hin. apply Hex. apply new_object_is in Ho as [[-> ->]|Ho]; [auto|]. eapply (st_references _ _ Hs); eassumption.
  - intros r Hin. apply Hex. apply (st_variables _ _ Hs). exact Hin.
  - intros a o Ha. apply (st_wrapped _ _ Hs) in Ha as (H1 & H2 & H3). cbn [new_object py_next]. split; [exact H1|]. split; [lia|].
    intros y Ho. apply new_object_is in Ho as [[-> ->]|Ho]; [lia|auto].
  - intros o y Ho. apply new_object_is in Ho as [[-> ->]|Ho].
    + destruct x as [a view children|ptr n owning ws parent|items|t l|m parent]; cbn [local_ok] in *.
      * exact Hl.
      * destruct ptr as [|h|t i]; [exact Hl|exact Hl|]. destruct Hl as (E & po & l & E2 & Hpo & Hrest). split; [exact E|].
        exists po, l. split; [exact E2|]. split; [|exact Hrest]. apply new_object_is. auto.
      * exact I.
      * destruct Hl as (ot & Hot & Hc). exists ot. split; [exact Hot|]. intros a o Ha Hw. eapply grows_chain; [exact Hg|]. eapply Hc; eassumption.
      * destruct parent as [po|]; [|destruct m; exact I]. destruct m as [a n|t n].
        -- destruct Hl as (ptr & n' & owning & ws & parent & Hpo & Hrest). exists ptr, n', owning, ws, parent.
           split; [|exact Hrest]. apply new_object_is. auto.
        -- destruct Hl as (l & Hpo). exists l. apply new_object_is. auto.
    + eapply grows_local; [exact Hs|exact Hg|reflexivity|reflexivity|auto|exact Ho].
  - intros o o' h (n1 & ws1 & p1 & H1) (n2 & ws2 & p2 & H2). apply new_object_is in H1 as [[-> E1]|H1]; apply new_object_is in H2 as [[-> E2]|H2].
    + reflexivity.
    + exfalso. apply (Hb _ _ _ _ (eq_sym E1) o'). eexists _, _, _. exact H2.
    + exfalso. apply (Hb _ _ _ _ (eq_sym E2) o). eexists _, _, _. exact H1.
    + eapply (st_block_owner _ _ Hs); eexists _, _, _; eassumption.
  - intros o o' h (l1 & H1) (l2 & H2). apply new_object_is in H1 as [[-> E1]|H1]; apply new_object_is in H2 as [[-> E2]|H2].
    + reflexivity.
    + exfalso. apply (Ht _ _ (eq_sym E1) o'). eexists. exact H2.
    + exfalso. apply (Ht _ _ (eq_sym E2) o). eexists. exact H1.
    + eapply (st_tensor_owner _ _ Hs); eexists; eassumption.
Qed.

Lemma safe_variables next s vs : safe_with next s -> (forall r, In r vs -> exists_in s r) -> safe_with next (with_variables s vs).
Proof.
  intros [H1 H2 H3 H4 H5 H6 H7 H8 H9] Hv. split; try assumption. intros o x Ho. pose proof (H7 _ _ Ho) as Hl.
  assert (Hg : forall l o, chain s l o -> chain (with_variables s vs) l o).
  { intros l0 o0. apply grows_chain. intros o1 x1 Hx. exists x1. split; [exact Hx|constructor]. }
  destruct x as [a view children|ptr n owning ws parent|items|t l|m parent]; try exact Hl; cbn [local_ok] in *.
  destruct Hl as (ot & Hot & Hc). exists ot. split; [exact Hot|]. intros a o0 Ha Hw. apply Hg. eapply Hc; eassumption.
Qed.

Lemma safe_give next s x : safe_with next s ->
  (forall r, In r (references x) -> exists_in s r) -> local_ok s x ->
  (forall h n ws parent, x = PyBlock (BlockAt h) n true ws parent -> forall o, ~ frees_block s o h) ->
  (forall t l, x = PyTensor t l -> forall o, ~ frees_tensor s o t) ->
  safe_with next (fst (give s x)).
Proof.
  intros Hs H1 H2 H3 H4. cbn [give fst]. apply safe_variables; [apply safe_new_object; assumption|].
  intros r [<-|Hr].
  - exists x. apply new_object_is. auto.
  - destruct (st_variables _ _ Hs r Hr) as [y Hy]. exists y. apply new_object_is. auto.
Qed.

(* a new wrapper *)
Lemma safe_new_wrapper next next' s a : safe_with next s -> next <= next' -> a < next' -> wrapper_of s a = None -> loose_array s a ->
  safe_with next' (new_wrapper s a None).
Proof.
  intros Hs Hle Ha Hn Hl. pose proof (safe_new_object next s (PyWrapper a None []) Hs) as H.
  assert (Hs' : safe_with next (new_object s (PyWrapper a None []))).
  { apply H; [intros r []|reflexivity|discriminate|discriminate]. }
  clear H. assert (Hg : grows s (new_wrapper s a None)) by (intros o y Ho; exists y; split; [right; exact Ho|constructor]).
  assert (Hwr : forall b o, wrapper_of (new_wrapper s a None) b = Some o -> (b = a /\ o = py_next s) \/ wrapper_of s b = Some o).
  { intros b o. unfold wrapper_of. cbn [new_wrapper py_wrapped hm_get]. destruct (Nat.eqb_spec b a) as [->|_]; [|auto].
    intros E. injection E as <-. auto. }
  destruct Hs' as [S1 S2 S3 S4 S5 S6 S7 S8 S9]. split; try assumption.
  - intros b o Hb. apply Hwr in Hb as [[-> ->]|Hb].
    + split; [lia|]. cbn [new_wrapper py_next]. split; [lia|]. intros x Hx. apply new_object_is in Hx as [[_ ->]|Hx]; [eauto|].
      apply (object_lt _ _ _ (st_ids _ _ Hs)) in Hx. lia.
    + apply (st_wrapped _ _ Hs) in Hb as (B1 & B2 & B3). split; [lia|]. cbn [new_wrapper py_next]. split; [lia|].
      intros x Hx. apply new_object_is in Hx as [[-> _]|Hx]; [lia|auto].
  - intros o x Ho. apply new_object_is in Ho as [[-> ->]|Ho]; [reflexivity|].
    eapply grows_local; [exact Hs|exact Hg|reflexivity|reflexivity| |exact Ho].
    intros b o' Hb. apply Hwr in Hb as [[-> _]|Hb]; auto.
Qed.

(** * Changing an object *)

Lemma update_is {A} h (a : A) l h' a' : NoDup (map fst l) ->
  In (h', a') (update_handle h a l) <-> (h' = h /\ a' = a /\ exists b, In (h, b) l) \/ (h' <> h /\ In (h', a') l).
Proof.
  intros Hnd. unfold update_handle. rewrite in_map_iff. split.
  - intros ([k b] & E & Hin). cbn [fst] in E. destruct (Nat.eqb_spec k h) as [->|Hne]; injection E as <- <-; [left|right]; eauto.
  - intros [(-> & -> & b & Hb)|[Hne Hin]].
    + exists (h, b). cbn [fst]. rewrite Nat.eqb_refl. auto.
    + exists (h', a'). cbn [fst]. apply Nat.eqb_neq in Hne. rewrite Hne. auto.
Qed.

Lemma set_object_is s o x o' x' : handles_ok (py_next s) (py_objects s) ->
  object_is (set_object s o x) o' x' <-> (o' = o /\ x' = x /\ exists_in s o) \/ (o' <> o /\ object_is s o' x').
Proof. intros [Hnd _]. apply update_is. exact Hnd. Qed.

(* an object is changed to one which keeps more, or has no pointer *)
Lemma safe_grow next s o x x' : safe_with next s -> object_is s o x -> grown x x' ->
  (forall r, In r (references x') -> exists_in s r) -> safe_with next (set_object s o x').
Proof.
  intros Hs Ho Hx Hr. pose proof (st_ids _ _ Hs) as Hid.
  assert (Hg : grows s (set_object s o x')).
  { intros o1 y Hy. destruct (Nat.eq_dec o1 o) as [->|Hne].
    - exists x'. rewrite (safe_one Hs _ _ _ Hy Ho). split; [|exact Hx]. apply set_object_is; [exact Hid|]. left. split; [reflexivity|]. split; [reflexivity|]. exists x. exact Ho.
    - exists y. split; [|constructor]. apply set_object_is; auto. }
  assert (Hex : forall r, exists_in s r -> exists_in (set_object s o x') r).
  { intros r [y Hy]. apply Hg in Hy as (y' & Hy & _). exists y'. exact Hy. }
  assert (Hlocal : forall o1 y, object_is s o1 y -> local_ok (set_object s o x') y).
  { intros o1 y Hy. eapply grows_local; [exact Hs|exact Hg|reflexivity|reflexivity|auto|exact Hy]. }
  split.
  - apply (st_owners _ _ Hs).
  - apply (st_plain _ _ Hs).
  - apply handles_update. exact Hid.
  - intros o1 y r Hy Hin. apply Hex. apply set_object_is in Hy as [(-> & -> & _)|[_ Hy]]; [auto| |exact Hid]. eapply (st_references _ _ Hs); eassumption.
  - intros r Hin. apply Hex. apply (st_variables _ _ Hs). exact Hin.
  - intros a wr Ha. apply (st_wrapped _ _ Hs) in Ha as (A1 & A2 & A3). split; [exact A1|]. split; [exact A2|].
    intros y Hy. apply set_object_is in Hy as [(-> & -> & _)|[_ Hy]]; [|auto|exact Hid].
    destruct (A3 _ Ho) as [c ->]. inversion Hx; subst; eauto.
  - intros o1 y Hy. apply set_object_is in Hy as [(-> & -> & _)|[_ Hy]]; [|eauto|exact Hid].
    specialize (Hlocal _ _ Ho). inversion Hx; subst; [exact Hlocal|exact Hlocal|].
    destruct H0 as [->|[-> ->]]; [|reflexivity]. destruct ptr as [|h|t i]; [exact Hlocal| |exact Hlocal]. cbn [local_ok] in *.
    destruct Hlocal as (-> & b & Hb & Hc). split; [reflexivity|]. exists b. split; [exact Hb|]. intros a wr Ha Hw. apply H. eapply Hc; eassumption.
  - intros o1 o2 h (n1 & ws1 & p1 & H1) (n2 & ws2 & p2 & H2).
    assert (Hback : forall o3 n3 ws3 p3, object_is (set_object s o x') o3 (PyBlock (BlockAt h) n3 true ws3 p3) -> frees_block s o3 h).
    { intros o3 n3 ws3 p3 H3. apply set_object_is in H3 as [(-> & E3 & _)|[_ H3]]; [| |exact Hid].
      - subst x'. inversion Hx as [|a0 v0 c0 c0' Hi|ptr ptr' n ow ws ws' parent Hi Hp]; subst; [eexists _, _, _; exact Ho|].
        destruct Hp as [<-|[E _]]; [|discriminate E]. eexists _, _, _. exact Ho.
      - eexists _, _, _. exact H3. }
    eapply (st_block_owner _ _ Hs); eapply Hback; eassumption.
  - intros o1 o2 h (l1 & H1) (l2 & H2).
    assert (Hback : forall o3 l3, object_is (set_object s o x') o3 (PyTensor h l3) -> frees_tensor s o3 h).
    { intros o3 l3 H3. apply set_object_is in H3 as [(-> & E3 & _)|[_ H3]]; [| |exact Hid].
      - subst x'. inversion Hx; subst. eexists. exact Ho.
      - eexists. exact H3. }
    eapply (st_tensor_owner _ _ Hs); eapply Hback; eassumption.
Qed.

(* the content of a list which is not used by a tensor map *)
Lemma safe_set_list next s o items items' : safe_with next s -> object_is s o (PyList items) -> unused_list s o ->
  (forall r, In r items' -> exists_in s r) -> safe_with next (set_object s o (PyList items')).
Proof.
  intros Hs Ho Hun Hr. pose proof (st_ids _ _ Hs) as Hid. set (s' := set_object s o (PyList items')).
  assert (Hsame : forall o1 y, object_is s o1 y -> (forall l, y <> PyList l) -> object_is s' o1 y).
  { intros o1 y Hy Hne. apply set_object_is; [exact Hid|]. right. split; [|exact Hy]. intros ->.
    apply (Hne items). apply (safe_one Hs _ _ _ Hy Ho). }
  assert (Hback : forall o1 y, object_is s' o1 y -> (forall l, y <> PyList l) -> object_is s o1 y).
  { intros o1 y Hy Hne. apply set_object_is in Hy as [(_ & -> & _)|[_ Hy]]; [|exact Hy|exact Hid]. destruct (Hne items' eq_refl). }
  assert (Hex : forall r, exists_in s r -> exists_in s' r).
  { intros r [y Hy]. destruct (Nat.eq_dec r o) as [->|Hne].
    - exists (PyList items'). apply set_object_is; [exact Hid|]. left. split; [reflexivity|]. split; [reflexivity|]. exists y. exact Hy.
    - exists y. apply set_object_is; auto. }
  assert (Hkeeps : forall a b, keeps s a b -> keeps s' a b).
  { induction 1 as [a|a array view children c b Ha Hc _ IH]; [constructor|]. econstructor; [|exact Hc|exact IH]. apply Hsame; [exact Ha|discriminate]. }
  split.
  - apply (st_owners _ _ Hs).
  - apply (st_plain _ _ Hs).
  - apply handles_update. exact Hid.
  - intros o1 y r Hy Hin. apply Hex. apply set_object_is in Hy as [(-> & -> & _)|[_ Hy]]; [apply Hr; exact Hin| |exact Hid].
    eapply (st_references _ _ Hs); eassumption.
  - intros r Hin. apply Hex. apply (st_variables _ _ Hs). exact Hin.
  - intros a wr Ha. apply (st_wrapped _ _ Hs) in Ha as (A1 & A2 & A3). split; [exact A1|]. split; [exact A2|].
    intros y Hy. apply set_object_is in Hy as [(-> & -> & _)|[_ Hy]]; [|auto|exact Hid]. destruct (A3 _ Ho) as [c E]. discriminate E.
  - intros o1 y Hy. destruct y as [a view children|ptr n owning ws parent|l|t l|m parent];
      [..|] ; try (apply Hback in Hy; [|discriminate]; apply (st_local _ _ Hs) in Hy as Hl); cbn [local_ok] in *.
    + exact Hl.
    + destruct ptr as [|h|t i]; [exact Hl|exact Hl|]. destruct Hl as (E & po & l & E2 & Hpo & Hrest). split; [exact E|]. exists po, l.
      split; [exact E2|]. split; [|exact Hrest]. apply Hsame; [exact Hpo|discriminate].
    + exact I.
    + destruct Hl as (ot & Hot & Hc). exists ot. split; [exact Hot|]. intros a wr Ha Hw.
      destruct (Hc _ _ Ha Hw) as (lo & its & b & ptr & n & owning & ws & parent & first & -> & Hlo & Hb & Hob & Hf & Hk).
      exists lo, its, b, ptr, n, owning, ws, parent, first. split; [reflexivity|]. split; [|split; [exact Hb|]].
      * apply set_object_is; [exact Hid|]. right. split; [|exact Hlo]. intros ->. eapply Hun. exact Hy.
      * split; [apply Hsame; [exact Hob|discriminate]|]. split; [exact Hf|]. apply Hkeeps. exact Hk.
    + destruct parent as [po|]; [|destruct m; exact I]. destruct m as [a n|t n].
      * destruct Hl as (ptr & n' & owning & ws & parent & Hpo & Hrest). exists ptr, n', owning, ws, parent. split; [|exact Hrest].
        apply Hsame; [exact Hpo|discriminate].
      * destruct Hl as (l & Hpo). exists l. apply Hsame; [exact Hpo|discriminate].
  - intros o1 o2 h (n1 & ws1 & p1 & H1) (n2 & ws2 & p2 & H2). apply Hback in H1, H2; try discriminate.
    eapply (st_block_owner _ _ Hs); eexists _, _, _; eassumption.
  - intros o1 o2 h (l1 & H1) (l2 & H2). apply Hback in H1, H2; try discriminate. eapply (st_tensor_owner _ _ Hs); eexists; eassumption.
Qed.

(** * Changes of the library *)

Lemma block_at_one w h b b' : owners w -> block_at w h b -> block_at w h b' -> b = b'.
Proof.
  intros Hw H1 H2. pose proof (own_blocks _ _ Hw) as [Hnd _]. unfold block_at in *.
  apply (BaseFacts.In_hm_get _ Nat.eqb_eq _ _ _ Hnd) in H1, H2. congruence.
Qed.

Lemma tensor_at_one w h t t' : owners w -> tensor_at w h t -> tensor_at w h t' -> t = t'.
Proof.
  intros Hw H1 H2. pose proof (own_tensors _ _ Hw) as [Hnd _]. unfold tensor_at in *.
  apply (BaseFacts.In_hm_get _ Nat.eqb_eq _ _ _ Hnd) in H1, H2. congruence.
Qed.

Lemma tensor_arrays_length w h t : owners w -> tensor_at w h t -> length (ot_arrays t) = length (tm_blocks (ot_tensor t)).
Proof.
  intros Hw Ht. pose proof (own_tensor_arrays _ _ Hw) as H. rewrite Forall_forall in H. specialize (H _ Ht). unfold tensor_arrays_ok in H.
  cbn [snd] in H. apply (f_equal (@length nat)) in H. rewrite !map_length in H. exact H.
Qed.

(* [moved]: tensor map with new arrays *)
Definition with_library (s : py_state) (w : world) (moved : option nat) : py_state :=
  mk_py w (py_objects s) (py_next s) (py_variables s) (py_wrapped s)
    (match moved with Some t => t :: py_moved s | None => py_moved s end) (py_changed s).

Lemma safe_library next next' s w' moved : safe_with next s -> next <= next' -> owners w' -> plain_world w' ->
  (forall o h n ws parent b, object_is s o (PyBlock (BlockAt h) n true ws parent) -> block_at (py_world s) h b ->
     exists b', block_at w' h b' /\ incl (ob_arrays b) (ob_arrays b')
       /\ forall a wr, In a (ob_arrays b') -> ~ In a (ob_arrays b) -> wrapper_of s a = Some wr -> In wr ws) ->
  (forall o t l ot, object_is s o (PyTensor t l) -> tensor_at (py_world s) t ot ->
     exists ot', tensor_at w' t ot' /\ ((ot_arrays ot' = ot_arrays ot /\ moved <> Some t)
       \/ (moved = Some t /\ forall a, In a (concat (ot_arrays ot')) -> wrapper_of s a = None))) ->
  safe_with next' (with_library s w' moved).
Proof.
  intros Hs Hle Hw Hp Hb Ht. apply (safe_more _ _ _ Hle) in Hs. set (s' := with_library s w' moved).
  assert (Hchain : forall l o, chain s l o -> chain s' l o).
  { intros l o. apply grows_chain. intros o1 x1 Hx. exists x1. split; [exact Hx|constructor]. }
  assert (Hmoves : forall t, moves s t <= moves s' t).
  { intros t. unfold moves, s', with_library. cbn [py_moved]. destruct moved as [t0|]; [|lia]. cbn [count_occ]. destruct (Nat.eq_dec t0 t); lia. }
  assert (Hmoved : forall t n, n <= moves s t -> n = moves s' t -> n = moves s t /\ moved <> Some t).
  { intros t n Hn ->. pose proof (Hmoves t) as H. split; [lia|]. intros ->. unfold moves, s', with_library in Hn. cbn [py_moved count_occ] in Hn.
    destruct (Nat.eq_dec t t); [lia|congruence]. }
  assert (Hptr : forall po ptr n owning ws parent b', object_is s po (PyBlock ptr n owning ws parent) -> fresh_ptr s' ptr n ->
    points_to w' ptr b' -> fresh_ptr s ptr n /\ exists b, points_to (py_world s) ptr b /\ incl (ob_arrays b) (ob_arrays b')).
  { intros po ptr n owning ws parent b' Hpo Hf Hb'. pose proof (st_local _ _ Hs _ _ Hpo) as Hl.
    destruct Hb' as [(h & -> & Hb')|(t & i & ot' & -> & Ht' & N1 & N2)]; cbn [local_ok] in Hl.
    - destruct Hl as (-> & b & Hblock & _). split; [intros t i E; discriminate E|]. exists b. split; [left; eauto|].
      destruct (Hb _ _ _ _ _ _ Hpo Hblock) as (b2 & Hb2 & Hincl & _). rewrite (block_at_one _ _ _ _ Hw Hb' Hb2). exact Hincl.
    - destruct Hl as (_ & po' & l & _ & Hpo' & Hn & Hi). destruct (Hmoved t n Hn (Hf t i eq_refl)) as [E Hnm].
      split; [intros t0 i0 E0; injection E0 as <- <-; exact E|]. destruct (Hi E) as (ot & Hot & Hlt).
      destruct (Ht _ _ _ _ Hpo' Hot) as (ot2 & Hot2 & [[Ea _]|[Em _]]); [|contradiction].
      rewrite (tensor_at_one _ _ _ _ Hw Ht' Hot2) in N2. rewrite Ea in N2.
      destruct (nth_error (tm_blocks (ot_tensor ot)) i) as [blk|] eqn:Eb; [|apply nth_error_None in Eb; lia].
      exists (mk_owned_block blk (ob_arrays b')). split; [|cbn; apply incl_refl]. right. exists t, i, ot. auto. }
  split.
  - exact Hw.
  - exact Hp.
  - apply (st_ids _ _ Hs).
  - exact (st_references _ _ Hs).
  - exact (st_variables _ _ Hs).
  - exact (st_wrapped _ _ Hs).
  - intros o x Ho. pose proof (st_local _ _ Hs _ _ Ho) as Hl.
    destruct x as [a view children|ptr n owning ws parent|items|t l|m parent]; cbn [local_ok] in *.
    + exact Hl.
    + destruct ptr as [|h|t i]; [exact Hl| |].
      * destruct Hl as (-> & b & Hblock & Hc). split; [reflexivity|]. destruct (Hb _ _ _ _ _ _ Ho Hblock) as (b' & Hb' & _ & Hnew).
        exists b'. split; [exact Hb'|]. intros a wr Ha Hwr. destruct (in_dec Nat.eq_dec a (ob_arrays b)) as [Hin|Hn]; [eapply Hc; eassumption|].
        eapply Hnew; eassumption.
      * destruct Hl as (E & po & l & E2 & Hpo & Hn & Hi). split; [exact E|]. exists po, l. split; [exact E2|]. split; [exact Hpo|].
        split; [specialize (Hmoves t); lia|]. intros En. destruct (Hmoved t n Hn En) as [En2 Hnm]. destruct (Hi En2) as (ot & Hot & Hlt).
        destruct (Ht _ _ _ _ Hpo Hot) as (ot' & Hot' & [[Ea _]|[Em _]]); [|contradiction]. exists ot'. split; [exact Hot'|].
        rewrite <- (tensor_arrays_length _ _ _ Hw Hot'), Ea, (tensor_arrays_length _ _ _ (st_owners _ _ Hs) Hot). exact Hlt.
    + exact I.
    + destruct Hl as (ot & Hot & Hc). destruct (Ht _ _ _ _ Ho Hot) as (ot' & Hot' & Hcase). exists ot'. split; [exact Hot'|].
      intros a wr Ha Hwr. apply Hchain. destruct Hcase as [[Ea _]|[_ Hnone]].
      * rewrite Ea in Ha. eapply Hc; eassumption.
      * specialize (Hnone a Ha). unfold s', with_library, wrapper_of in Hwr, Hnone. cbn [py_wrapped] in Hwr. congruence.
    + destruct parent as [po|]; [|destruct m; exact I]. destruct m as [a n|t n]; [|exact Hl].
      destruct Hl as (ptr & n' & owning & ws & parent & Hpo & Hrest). exists ptr, n', owning, ws, parent. split; [exact Hpo|].
      intros b' Hf Hb'. destruct (Hptr _ _ _ _ _ _ _ Hpo Hf Hb') as (Hf0 & b & Hpb & Hincl). apply Hincl. eapply Hrest; eassumption.
  - exact (st_block_owner _ _ Hs).
  - exact (st_tensor_owner _ _ Hs).
Qed.

(* the number of changes is not used *)
Lemma safe_changed next s changed : safe_with next s -> safe_with next (with_moved s (py_moved s) changed).
Proof.
  intros Hs. assert (Hg : grows s (with_moved s (py_moved s) changed)) by (intros o x Hx; exists x; split; [exact Hx|constructor]).
  destruct Hs as [S1 S2 S3 S4 S5 S6 S7 S8 S9]. split; try assumption. intros o x Ho.
  eapply (grows_local next s); [split; assumption|exact Hg|reflexivity|reflexivity|auto|exact Ho].
Qed.

Lemma with_library_same s w : with_library s w None = with_world s w.
Proof. reflexivity. Qed.
