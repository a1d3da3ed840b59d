(* Statements of Python programs which change blocks and tensor maps (C81 to C84) *)
From Coq Require Import Lia Permutation.
From Verif Require Import Base BaseFacts Labels Array Block Tensor Npy Io Origin CApi Spec SpecTensor SpecIo SpecApi
  ApiFacts ReportFacts OwnerFacts ReachFacts HandleFacts SafeFacts CallFacts PyIo PyObjects SpecPyObjects PyObjectsFacts PyCallFacts
  PyStatementFacts.
Local Open Scope string_scope.
Local Open Scope list_scope.
Local Open Scope nat_scope.

(** * Lists, views and variables *)

Lemma fine_variables s vs : safe s -> (forall r, In r vs -> exists_in s r) -> forall o : outcome (option nat), defined o -> fine s (with_variables s vs, o).
Proof.
  intros Hs Hv o Ho. split; [apply safe_variables; assumption|]. split; [exact Ho|]. intros [T1 T2]. split; [exact T1|exact T2].
Qed.

Lemma items_exist next s items xs : safe_with next s -> mapM (variable s) items = Ok xs -> forall r, In r items -> exists_in s r.
Proof.
  intros Hs H r Hr. apply mapM_ok in H. induction H as [|a b l l' Hab H IH]; [destruct Hr|]. destruct Hr as [<-|Hr]; [|auto].
  apply (variable_ok Hs) in Hab as [Hab _]. exists b. exact Hab.
Qed.

Lemma fine_new_list s items : safe s -> fine s (py_new_list s items).
Proof.
  intros Hs. apply fine_read; [exact Hs|apply mapM_defined; intros a _; apply (variable_defined Hs)|]. intros xs E.
  apply fine_give; [exact Hs| |exact I|discriminate|discriminate]. cbn [references]. eapply items_exist; eassumption.
Qed.

Lemma list_items_ok s o items : safe s -> list_items s o = Ok items -> object_is s o (PyList items).
Proof.
  intros Hs H. apply bind_ok in H as (x & Hx & H). apply (variable_ok Hs) in Hx as [Hx _]. destruct x; try discriminate H. injection H as ->. exact Hx.
Qed.

Lemma list_items_defined s o : safe s -> defined (list_items s o).
Proof. intros Hs. apply bind_defined; [apply (variable_defined Hs)|]. intros []; discriminate. Qed.

Lemma fine_set_list s o items : safe s -> unused_list s o -> fine s (py_set_list s o items).
Proof.
  intros Hs Hu. apply fine_read; [exact Hs|apply list_items_defined; exact Hs|]. intros items0 E0.
  apply fine_read; [exact Hs|apply mapM_defined; intros a _; apply (variable_defined Hs)|]. intros xs E.
  apply (list_items_ok _ _ _ Hs) in E0.
  split; [eapply safe_set_list; [exact Hs|exact E0|exact Hu|eapply items_exist; eassumption]|]. split; [discriminate|]. intros T.
  eapply tidy_grows; [exact T|reflexivity|..].
  - intros b h (n & ws & parent & Hb). exists b, n, ws, parent. apply set_object_is; [apply (st_ids _ _ Hs)|]. right. split; [|exact Hb].
    intros ->. pose proof (safe_one Hs _ _ _ Hb E0). discriminate.
  - intros b h (l & Hb). exists b, l. apply set_object_is; [apply (st_ids _ _ Hs)|]. right. split; [|exact Hb].
    intros ->. pose proof (safe_one Hs _ _ _ Hb E0). discriminate.
Qed.

Lemma fine_list_item s o index : safe s -> fine s (py_list_item s o index).
Proof.
  intros Hs. apply fine_read; [exact Hs|apply list_items_defined; exact Hs|]. intros items E. apply (list_items_ok _ _ _ Hs) in E.
  destruct (nth_error items index) as [item|] eqn:En; [|apply fine_same; [exact Hs|discriminate]].
  apply fine_variables; [exact Hs| |discriminate]. intros r [<-|Hr]; [|apply (st_variables _ _ Hs); exact Hr].
  eapply (st_references _ _ Hs); [exact E|]. cbn [references]. eapply nth_error_In. exact En.
Qed.

Lemma fine_py_read s view : safe s -> current_view s view -> fine s (py_read s view).
Proof.
  intros Hs Hc. apply fine_read; [exact Hs| |intros _ _; apply fine_nothing; exact Hs].
  apply bind_defined; [apply (variable_defined Hs)|]. intros x Hx. apply (variable_ok Hs) in Hx as [Hx _]. destruct x; try discriminate.
  unfold check_memory. rewrite (view_there Hs _ _ _ Hx Hc). discriminate.
Qed.

Lemma fine_as_array s view : safe s -> fine s (py_as_array s view).
Proof.
  intros Hs. apply fine_read; [exact Hs|apply (variable_defined Hs)|]. intros x _. destruct x; try (apply fine_same; [exact Hs|discriminate]).
  apply fine_give; [exact Hs|intros r []| |discriminate|discriminate]. cbn [local_ok]. destruct memory; exact I.
Qed.

Lemma fine_forget s objects : safe s -> fine s (py_forget s objects).
Proof.
  intros Hs. apply fine_variables; [exact Hs| |discriminate]. intros r Hr. apply filter_In in Hr as [Hr _]. apply (st_variables _ _ Hs). exact Hr.
Qed.

(** * AddGradient *)

Lemma add_body p w ptr parameter data samples components w' v o :
  call_body p 0 w (BlockAddGradient ptr parameter data samples components) = (w', v, o) ->
  w_next_array w' = S (w_next_array w) /\ w_tensors w' = w_tensors w
  /\ (w_blocks w' = w_blocks w
      \/ exists h b b', ptr = BlockAt h /\ hm_get Nat.eqb (w_blocks w) h = Some b
         /\ w_blocks w' = update_handle h (mk_owned_block b' (ob_arrays b ++ [w_next_array w])) (w_blocks w)).
Proof.
  cbn [call_body]. unfold eqs_block_add_gradient. cbn [new_arrays seq]. cbv zeta. intros H.
  match type of H with match ?x with _ => _ end = _ => destruct x as [[[[[h b] q] s] cs]|e|m|r] eqn:Eb end;
    [|injection H as <- <- <-; cbn; (split; [lia|auto])..].
  apply bind_ok in Eb as (ptr' & Ep & Eb). apply bind_ok in Eb as (q1 & _ & Eb). apply bind_ok in Eb as (q2 & _ & Eb).
  apply bind_ok in Eb as (s1 & _ & Eb). apply bind_ok in Eb as (cs1 & _ & Eb). apply bind_ok in Eb as ([h1 b1] & Eg & Eb).
  injection Eb as -> -> _ _ _. apply get_block_ok in Eg as [-> Eg].
  assert (ptr = BlockAt h) as -> by (destruct ptr; cbn in Ep; congruence). cbn [w_blocks] in Eg.
  destruct (tensor_block_add_gradient (ob_block b) q data s cs) as [b' r] eqn:Ea.
  destruct (_ <? _); injection H as <- <- <-; cbn; (split; [lia|]); (split; [reflexivity|]); [|auto]. right. exists h, b, b'. auto.
Qed.

Lemma fine_add_gradient p s block parameter data samples components labels : safe s ->
  readable samples -> Forall readable components -> Forall (current_view s) labels -> owning_block s block ->
  fine s (py_add_gradient p s block parameter data None samples components labels).
Proof.
  intros Hs R1 R2 Hl Hown. apply fine_read; [exact Hs|discriminate|]. intros _ _.
  apply fine_read; [exact Hs|eapply labels_defined; eassumption|]. intros _ _.
  assert (Hc : current_block s block).
  { intros t i n owning ws parent Ho. pose proof (Hown _ _ _ _ _ Ho) as ->. apply (st_local _ _ Hs) in Ho as [Ho _]. discriminate Ho. }
  apply fine_read; [exact Hs|apply (block_pointer_defined Hs); exact Hc|]. intros ptr E.
  destruct (block_pointer_ok Hs _ _ Hc E) as (Hg & n & owning & ws & parent & Ho & Hf). pose proof (Hown _ _ _ _ _ Ho) as ->.
  cbv zeta. set (a := w_next_array (py_world s)). set (s1 := new_wrapper s a None).
  assert (Hs1 : safe_with (S a) s1).
  { apply (safe_new_wrapper _ _ _ _ Hs); [unfold a; lia|unfold a; lia|apply (wrapper_next Hs); apply Nat.le_refl|apply (loose_next Hs); apply Nat.le_refl]. }
  assert (Ho1 : object_is s1 block (PyBlock ptr n true ws parent)) by (right; exact Ho).
  pose proof Ho1 as Hfind. apply (safe_find Hs1) in Hfind. rewrite Hfind.
  set (x2 := PyBlock ptr n true (ws ++ [py_next s]) parent). set (s2 := set_object s1 block x2).
  assert (Hs2 : safe_with (S a) s2).
  { eapply safe_grow; [exact Hs1|exact Ho1|apply grown_block; [apply incl_appl, incl_refl|left; reflexivity]|].
    intros r Hr. unfold x2 in Hr. cbn [references] in Hr. rewrite <- app_assoc in Hr. apply in_app_or in Hr as [Hr|[<-|Hr]].
    - eapply (st_references _ _ Hs1); [exact Ho1|]. apply in_or_app. left. exact Hr.
    - exists (PyWrapper a None []). left. reflexivity.
    - eapply (st_references _ _ Hs1); [exact Ho1|]. apply in_or_app. right. exact Hr. }
  assert (Ho2 : object_is s2 block x2) by (apply set_object_is; [apply (st_ids _ _ Hs1)|]; left; split; [reflexivity|split; [reflexivity|eexists; exact Ho1]]).
  assert (Hkeep : forall o x, o <> block -> object_is s o x -> object_is s2 o x).
  { intros o x Hne Hx. apply set_object_is; [apply (st_ids _ _ Hs1)|]. right. split; [exact Hne|right; exact Hx]. }
  assert (Htidy : tidy s -> tidy s2).
  { intros T. eapply tidy_grows; [exact T|reflexivity|..].
    - intros o h (n0 & ws0 & p0 & Hx). destruct (Nat.eq_dec o block) as [->|Hne].
      + pose proof (safe_one Hs _ _ _ Hx Ho) as Eq. injection Eq as <- -> -> ->. exists block, n, (ws ++ [py_next s]), parent. exact Ho2.
      + exists o, n0, ws0, p0. auto.
    - intros o h (l & Hx). exists o, l. apply Hkeep; [|exact Hx]. intros ->. pose proof (safe_one Hs _ _ _ Hx Ho). discriminate. }
  assert (Hg2 : good_pointer s2 ptr) by (eapply (object_pointer Hs2); [exact Ho2|exact Hf]).
  assert (Hnull : ptr = BlockNull \/ exists h b, ptr = BlockAt h /\ block_at (py_world s2) h b).
  { pose proof (st_local _ _ Hs2 _ _ Ho2) as Hl2. unfold x2 in Hl2. cbn [local_ok] in Hl2. destruct ptr as [|h|t i]; [auto| |destruct Hl2 as [Hl2 _]; discriminate Hl2].
    destruct Hl2 as (_ & b & Hb & _). right. exists h, b. auto. }
  assert (Hcall : fine s (and_then (py_call p s2 (BlockAddGradient ptr (Some parameter) data samples components)) (fun s3 _ => nothing s3))).
  { destruct (safe_call _ p s2 (BlockAddGradient ptr (Some parameter) data samples components) Hs2) as (w' & v & Hown' & Hplain & _ & Hframe & Hends & _).
    - split; [|split; assumption]. destruct Hnull as [->|(h & b & -> & Hb)]; [auto|]. right. exists h, b. auto.
    - intros a0 o Ha. apply (proj2 Hg2). exact Ha.
    - assert (Hbody : w_next_array w' = S a /\ w_tensors w' = w_tensors (py_world s)
        /\ (w_blocks w' = w_blocks (py_world s)
            \/ exists h b b', ptr = BlockAt h /\ hm_get Nat.eqb (w_blocks (py_world s)) h = Some b
               /\ w_blocks w' = update_handle h (mk_owned_block b' (ob_arrays b ++ [a])) (w_blocks (py_world s)))).
      { inversion Hends as [w1 v1 errors Hb Ew|w1 v1 r errors o Hb Ew]; apply add_body in Hb; rewrite Ew; exact Hb. }
      clear Hframe. destruct Hbody as (B1 & B2 & B3).
      assert (Hnd : NoDup (map fst (w_blocks (py_world s)))) by apply (own_blocks _ _ (st_owners _ _ Hs)).
      assert (Hs' : safe (with_world s2 w')).
      { unfold safe. cbn [with_world py_world]. rewrite B1. rewrite <- with_library_same. eapply safe_library; [exact Hs2|lia|exact Hown'|exact Hplain|..].
        - intros o h n0 ws0 p0 b Hx Hb. destruct B3 as [B3|(h1 & b1 & b' & -> & E1 & B3)].
          + exists b. unfold block_at. rewrite B3. split; [exact Hb|]. split; [apply incl_refl|contradiction].
          + change (py_world s2) with (py_world s) in Hb. destruct (Nat.eq_dec h h1) as [->|Hne].
            * apply (BaseFacts.In_hm_get _ Nat.eqb_eq _ _ _ Hnd) in Hb. rewrite E1 in Hb. injection Hb as <-.
              exists (mk_owned_block b' (ob_arrays b1 ++ [a])). cbn [ob_arrays]. split; [|split; [apply incl_appl, incl_refl|]].
              -- unfold block_at. rewrite B3. eapply In_updated. apply (BaseFacts.hm_get_In _ Nat.eqb_eq). exact E1.
              -- intros a0 wr Ha0 Hn0 Hw. apply in_app_or in Ha0 as [Ha0|[<-|[]]]; [contradiction|].
                 change (wrapper_of s1 a = Some wr) in Hw. unfold s1 in Hw. rewrite wrapper_of_new, Nat.eqb_refl in Hw. injection Hw as <-.
                 assert (o = block) as -> by (eapply (st_block_owner _ _ Hs2); [exists n0, ws0, p0; exact Hx|exists n, (ws ++ [py_next s]), parent; exact Ho2]).
                 pose proof (safe_one Hs2 _ _ _ Hx Ho2) as Eq. injection Eq as -> -> ->. apply in_or_app. right. left. reflexivity.
            * exists b. split; [|split; [apply incl_refl|contradiction]]. unfold block_at. rewrite B3. apply In_update; [exact Hne|exact Hb].
        - intros o t l ot _ Ht. exists ot. unfold tensor_at. rewrite B2. split; [exact Ht|]. left. split; [reflexivity|discriminate]. }
      assert (Ht' : tidy s -> tidy (with_world s2 w')).
      { intros T. apply Htidy in T as [T1 T2]. split; cbn [with_world py_world].
        - intros h b Hb. unfold block_at in Hb. destruct B3 as [B3|(h1 & b1 & b' & -> & E1 & B3)]; rewrite B3 in Hb.
          + exact (T1 h b Hb).
          + apply update_In in Hb as [->|Hb]; [|exact (T1 h b Hb)]. apply (T1 h1 b1). apply (BaseFacts.hm_get_In _ Nat.eqb_eq). exact E1.
        - intros h t Ht. unfold tensor_at in Ht. rewrite B2 in Ht. exact (T2 h t Ht). }
      inversion Hends as [w1 v1 errors Hb Ew Ec|w1 v1 r errors o Hb Ew Hne Hor Ec]; cbn [and_then].
      + split; [exact Hs'|]. split; [discriminate|exact Ht'].
      + destruct Hor as [[e ->]|[m ->]]; (split; [exact Hs'|]); (split; [discriminate|exact Ht']). }
  destruct ptr as [|h|t i]; [exact Hcall|exact Hcall|]. destruct Hnull as [Hnull|(h & b & Hnull & _)]; discriminate Hnull.
Qed.

(** * KeysToProperties, KeysToSamples and ComponentsToProperties *)

Lemma keeps_trans s o o' o'' : keeps s o o' -> keeps s o' o'' -> keeps s o o''.
Proof. intros H. induction H as [o|o a v c c1 o1 Ho Hc Hk IH]; [auto|]. intros H'. econstructor; eauto. Qed.

Definition with_wrapped (s : py_state) (wrapped : list (nat * nat)) : py_state :=
  mk_py (py_world s) (py_objects s) (py_next s) (py_variables s) wrapped (py_moved s) (py_changed s).

Lemma with_wrapped_chain s wrapped l o : chain s l o -> chain (with_wrapped s wrapped) l o.
Proof. intros H. eapply (grows_chain s); [|exact H]. intros o' x Hx. exists x. split; [exact Hx|constructor]. Qed.

(* an object becomes the wrapper of an array *)
Lemma safe_wrap next s a o children : safe_with next s -> object_is s o (PyWrapper a None children) -> a < next ->
  (forall o' h b, frees_block s o' h -> block_at (py_world s) h b -> ~ In a (ob_arrays b)) ->
  (forall o' t l ot, object_is s o' (PyTensor t l) -> tensor_at (py_world s) t ot -> In a (concat (ot_arrays ot)) -> chain s l o) ->
  safe_with next (with_wrapped s ((a, o) :: py_wrapped s)).
Proof.
  intros Hs Ho Ha Hb Ht. set (s' := with_wrapped s _).
  assert (Hg : grows s s') by (intros o' x Hx; exists x; split; [exact Hx|constructor]).
  assert (Hwr : forall b o', wrapper_of s' b = Some o' -> (b = a /\ o' = o) \/ wrapper_of s b = Some o').
  { intros b o'. unfold wrapper_of, s'. cbn [with_wrapped py_wrapped hm_get]. destruct (Nat.eqb_spec b a) as [->|_]; [|auto]. intros E. injection E as <-. auto. }
  pose proof Hs as [S1 S2 S3 S4 S5 S6 S7 S8 S9]. split; try assumption.
  - intros b o' H. apply Hwr in H as [[-> ->]|H]; [|exact (S6 _ _ H)]. split; [exact Ha|]. split; [eapply object_lt; eassumption|].
    intros x Hx. exists children. eapply (safe_one Hs); eassumption.
  - intros o' x Hx. pose proof (S7 _ _ Hx) as Hl. destruct x as [a1 view ch|ptr n owning ws parent|items|t l|m parent]; try exact Hl.
    + destruct ptr as [|h|t i]; try exact Hl. cbn [local_ok] in *. destruct Hl as (-> & b & Hat & Hc). split; [reflexivity|]. exists b. split; [exact Hat|].
      intros a1 wr H1 H2. apply Hwr in H2 as [[-> ->]|H2]; [|eauto]. destruct (Hb o' h b); [exists n, ws, parent; exact Hx|exact Hat|exact H1].
    + cbn [local_ok] in *. destruct Hl as (ot & Hat & Hc). exists ot. split; [exact Hat|]. intros a1 wr H1 H2. apply with_wrapped_chain.
      apply Hwr in H2 as [[-> ->]|H2]; [|eauto]. eapply Ht; eassumption.
Qed.

Lemma tensor_block_disjoint w h b t ot a : owners w -> block_at w h b -> tensor_at w t ot -> In a (ob_arrays b) -> In a (concat (ot_arrays ot)) -> False.
Proof.
  intros Hw Hb Ht H1 H2. destruct (arrays_once _ Hw) as (_ & Hnd & _). unfold owned_arrays in Hnd.
  assert (Hx : forall (l1 l2 : list nat) x, NoDup (l1 ++ l2) -> In x l1 -> In x l2 -> False).
  { intros l1 l2 x. induction l1 as [|y l1 IH]; cbn [app]; intros Hn Hi1 Hi2; [destruct Hi1|]. apply NoDup_cons_iff in Hn as [Hn Hn'].
    destruct Hi1 as [->|Hi1]; [apply Hn; apply in_or_app; auto|auto]. }
  eapply Hx; [exact Hnd|apply in_flat_map; exists (h, b); split; [exact Hb|exact H1]|apply in_flat_map; exists (t, ot); split; [exact Ht|exact H2]].
Qed.

Lemma flat_map_once {A} (f : A -> list nat) l : forall x y a, NoDup (flat_map f l) -> In x l -> In y l -> In a (f x) -> In a (f y) -> x = y.
Proof.
  assert (Hx : forall (l1 l2 : list nat) x, NoDup (l1 ++ l2) -> In x l1 -> In x l2 -> False).
  { intros l1 l2 x. induction l1 as [|y l1 IH]; cbn [app]; intros Hn Hi1 Hi2; [destruct Hi1|]. apply NoDup_cons_iff in Hn as [Hn Hn'].
    destruct Hi1 as [->|Hi1]; [apply Hn; apply in_or_app; auto|auto]. }
  assert (Hr : forall (l1 l2 : list nat), NoDup (l1 ++ l2) -> NoDup l2).
  { induction l1 as [|y l1 IH]; cbn [app]; intros l2 Hn; [exact Hn|]. apply NoDup_cons_iff in Hn as [_ Hn]. auto. }
  induction l as [|z l IH]; intros x y a Hnd H1 H2 Ha Hb; [destruct H1|]. cbn [flat_map] in Hnd.
  destruct H1 as [->|H1], H2 as [->|H2]; [reflexivity|..].
  - exfalso. eapply Hx; [exact Hnd|exact Ha|]. apply in_flat_map. eauto.
  - exfalso. eapply Hx; [exact Hnd|exact Hb|]. apply in_flat_map. eauto.
  - eapply IH; eauto.
Qed.

Lemma tensors_disjoint w t ot t' ot' a : owners w -> tensor_at w t ot -> tensor_at w t' ot' -> In a (concat (ot_arrays ot)) -> In a (concat (ot_arrays ot')) -> t = t'.
Proof.
  intros Hw H1 H2 A1 A2. destruct (arrays_once _ Hw) as (_ & Hnd & _). unfold owned_arrays in Hnd.
  assert (Hr : forall (l1 l2 : list nat), NoDup (l1 ++ l2) -> NoDup l2).
  { induction l1 as [|y l1 IH]; cbn [app]; intros l2 Hn; [exact Hn|]. apply NoDup_cons_iff in Hn as [_ Hn]. auto. }
  apply Hr in Hnd. pose proof (flat_map_once _ _ (t, ot) (t', ot') a Hnd H1 H2 A1 A2) as E. congruence.
Qed.

(* a new wrapper for an array of a tensor map *)
Lemma safe_child next s to t l ot a o a0 ch : safe_with next s -> object_is s to (PyTensor t l) -> tensor_at (py_world s) t ot ->
  In a (concat (ot_arrays ot)) -> a < next -> chain s l o -> object_is s o (PyWrapper a0 None ch) ->
  safe_with next (set_object (new_wrapper s a None) o (PyWrapper a0 None (ch ++ [py_next s]))).
Proof.
  intros Hs Hto Ht Ha Hlt Hc Ho. set (s1 := new_object s (PyWrapper a None [])).
  assert (Hs1 : safe_with next s1) by (apply safe_new_object; [exact Hs|intros r []|reflexivity|discriminate|discriminate]).
  assert (Ho1 : object_is s1 o (PyWrapper a0 None ch)) by (right; exact Ho).
  set (s2 := set_object s1 o (PyWrapper a0 None (ch ++ [py_next s]))).
  assert (Hs2 : safe_with next s2).
  { eapply safe_grow; [exact Hs1|exact Ho1|apply grown_wrapper; apply incl_appl, incl_refl|]. cbn [references optional app].
    intros r Hr. apply in_app_or in Hr as [Hr|[<-|[]]]; [|exists (PyWrapper a None []); left; reflexivity].
    eapply (st_references _ _ Hs1); [exact Ho1|exact Hr]. }
  pose proof (object_lt _ _ _ (st_ids _ _ Hs) Ho) as Hlo.
  assert (Ho2 : object_is s2 o (PyWrapper a0 None (ch ++ [py_next s]))) by (apply set_object_is; [apply (st_ids _ _ Hs1)|left; split; [reflexivity|split; [reflexivity|eexists; exact Ho1]]]).
  assert (Hn2 : object_is s2 (py_next s) (PyWrapper a None [])) by (apply set_object_is; [apply (st_ids _ _ Hs1)|right; split; [lia|left; reflexivity]]).
  assert (Hg : grows s s2).
  { intros o' x Hx. destruct (Nat.eq_dec o' o) as [->|Hne].
    - rewrite (safe_one Hs _ _ _ Hx Ho). eexists. split; [exact Ho2|]. apply grown_wrapper. apply incl_appl, incl_refl.
    - exists x. split; [|constructor]. apply set_object_is; [apply (st_ids _ _ Hs1)|]. right. split; [exact Hne|right; exact Hx]. }
  change (safe_with next (with_wrapped s2 ((a, py_next s) :: py_wrapped s2))).
  eapply safe_wrap; [exact Hs2|exact Hn2|exact Hlt|..].
  - intros o' h b _ Hb Hin. eapply tensor_block_disjoint; [apply (st_owners _ _ Hs)|exact Hb|exact Ht|exact Hin|exact Ha].
  - intros o' t' l' ot' Ho' Ht' Hin. assert (t' = t) as -> by (eapply tensors_disjoint; [apply (st_owners _ _ Hs)|exact Ht'|exact Ht|exact Hin|exact Ha]).
    assert (Hto2 : object_is s2 to (PyTensor t l)).
    { apply Hg in Hto as (x' & Hx' & Ex). inversion Ex; subst. exact Hx'. }
    assert (o' = to) as -> by (eapply (st_tensor_owner _ _ Hs2); [exists l'; exact Ho'|exists l; exact Hto2]).
    pose proof (safe_one Hs2 _ _ _ Ho' Hto2) as E. injection E as ->. apply (grows_chain _ _ _ _ Hg) in Hc.
    destruct Hc as (lo & items & b & ptr & n & owning & ws & parent & first & -> & C1 & C2 & C3 & C4 & C5).
    exists lo, items, b, ptr, n, owning, ws, parent, first. split; [reflexivity|]. do 4 (split; [assumption|]).
    eapply keeps_trans; [exact C5|]. eapply keeps_child; [exact Ho2|apply in_or_app; right; left; reflexivity|apply keeps_self].
Qed.

Lemma wrap_children_facts next to t l ot values arrays : forall s creators, safe_with next s -> object_is s to (PyTensor t l) ->
  tensor_at (py_world s) t ot -> incl arrays (concat (ot_arrays ot)) -> (forall a, In a arrays -> a < next /\ ~ In a values) ->
  (forall v o, In v values -> wrapper_of s v = Some o -> chain s l o) ->
  safe_with next (wrap_children s creators values arrays) /\ py_world (wrap_children s creators values arrays) = py_world s
  /\ (forall o x, object_is s o x -> (forall a v c, x <> PyWrapper a v c) -> object_is (wrap_children s creators values arrays) o x).
Proof.
  induction arrays as [|a arrays IH]; intros s creators Hs Hto Ht Hincl Hlt Hv; cbn [wrap_children]; [auto|].
  assert (Hskip : forall s1, safe_with next s1 -> py_world s1 = py_world s ->
    (forall o x, object_is s o x -> (forall a v c, x <> PyWrapper a v c) -> object_is s1 o x) ->
    (forall v o, In v values -> wrapper_of s1 v = Some o -> chain s1 l o) ->
    safe_with next (wrap_children s1 (tl creators) values arrays) /\ py_world (wrap_children s1 (tl creators) values arrays) = py_world s
    /\ (forall o x, object_is s o x -> (forall a v c, x <> PyWrapper a v c) -> object_is (wrap_children s1 (tl creators) values arrays) o x)).
  { intros s1 Hs1 Ew Hk Hv1. destruct (IH s1 (tl creators)) as (I1 & I2 & I3).
    - exact Hs1.
    - apply Hk; [exact Hto|discriminate].
    - rewrite Ew. exact Ht.
    - intros x Hx. apply Hincl. right. exact Hx.
    - intros x Hx. apply Hlt. right. exact Hx.
    - exact Hv1.
    - split; [exact I1|]. split; [rewrite I2; exact Ew|]. intros o x Ho Hx. apply I3; [apply Hk; assumption|exact Hx]. }
  destruct (nth_error values (hd 0 creators mod length values)) as [creator|] eqn:Ec; [|apply Hskip; auto].
  destruct (hm_get Nat.eqb (py_wrapped s) creator) as [o|] eqn:Eo; [|apply Hskip; auto].
  assert (Hch : chain s l o) by (eapply Hv; [eapply nth_error_In; exact Ec|exact Eo]).
  destruct (find_object s o) as [x|] eqn:Ex; [|apply Hskip; auto]. apply (safe_find Hs) in Ex.
  destruct (st_wrapped _ _ Hs creator o Eo) as (_ & _ & W). destruct (W x Ex) as [ch ->].
  pose proof (object_lt _ _ _ (st_ids _ _ Hs) Ex) as Hlo.
  assert (Hids : handles_ok (S (py_next s)) ((py_next s, PyWrapper a None []) :: py_objects s)) by (apply handles_cons; apply (st_ids _ _ Hs)).
  assert (Hg : grows s (set_object (new_wrapper s a None) o (PyWrapper creator None (ch ++ [py_next s])))).
  { intros o' x Hx. destruct (Nat.eq_dec o' o) as [->|Hne].
    - rewrite (safe_one Hs _ _ _ Hx Ex). exists (PyWrapper creator None (ch ++ [py_next s])). split; [|apply grown_wrapper; apply incl_appl, incl_refl].
      apply set_object_is; [exact Hids|]. left. split; [reflexivity|]. split; [reflexivity|]. eexists. right. exact Ex.
    - exists x. split; [|constructor]. apply set_object_is; [exact Hids|]. right. split; [exact Hne|right; exact Hx]. }
  apply Hskip.
  - eapply safe_child; [exact Hs|exact Hto|exact Ht|apply Hincl; left; reflexivity|apply Hlt; left; reflexivity|exact Hch|exact Ex].
  - reflexivity.
  - intros o' x Hx Hne. apply set_object_is; [exact Hids|]. right. split; [|right; exact Hx]. intros ->. pose proof (safe_one Hs _ _ _ Hx Ex) as E. apply (Hne _ _ _ E).
  - intros v o' Hin Hw. change (wrapper_of (new_wrapper s a None) v = Some o') in Hw. rewrite wrapper_of_new in Hw.
    destruct (Nat.eqb_spec v a) as [->|_]; [destruct (Hlt a (or_introl eq_refl)) as [_ Hn]; contradiction|].
    eapply grows_chain; [exact Hg|]. eauto.
Qed.

Lemma wrap_children_moved moved changed values arrays : forall s creators,
  with_moved (wrap_children s creators values arrays) moved changed = wrap_children (with_moved s moved changed) creators values arrays.
Proof.
  induction arrays as [|a arrays IH]; intros s creators; cbn [wrap_children]; [reflexivity|]. rewrite IH. f_equal.
  destruct (nth_error values (hd 0 creators mod length values)) as [creator|]; [|reflexivity]. cbn [with_moved py_wrapped].
  destruct (hm_get Nat.eqb (py_wrapped s) creator) as [o|]; [|reflexivity].
  change (find_object (with_moved s moved changed) o) with (find_object s o).
  destruct (find_object s o) as [x|]; [|reflexivity]. destruct x; reflexivity.
Qed.

Lemma wrap_children_same values arrays : forall s creators,
  py_moved (wrap_children s creators values arrays) = py_moved s /\ py_changed (wrap_children s creators values arrays) = py_changed s.
Proof.
  induction arrays as [|a arrays IH]; intros s creators; cbn [wrap_children]; [auto|].
  match goal with |- context [wrap_children ?x _ _ _] => destruct (IH x (tl creators)) as [-> ->] end.
  destruct (nth_error values (hd 0 creators mod length values)) as [creator|]; [|auto].
  destruct (hm_get Nat.eqb (py_wrapped s) creator) as [o|]; [|auto]. destruct (find_object s o) as [x|]; [|auto]. destruct x; auto.
Qed.

Lemma move_body w t ot keys temporary move w' v o : owners w -> keeps_on_failure move -> tensor_at w t ot ->
  move_keys w (Some t) keys temporary move = (w', v, o) ->
  w_blocks w' = w_blocks w
  /\ ((o <> Ok tt /\ w_tensors w' = w_tensors w)
      \/ exists moved arrays, o = Ok tt /\ w_tensors w' = update_handle t (mk_owned_tensor moved arrays) (w_tensors w)
           /\ forall a, In a (concat arrays) -> w_next_array w <= a < w_next_array w').
Proof.
  intros Hw Hk Ht H. assert (Hcase : o = Ok tt \/ o <> Ok tt) by (destruct o as [[]| | |]; [left; reflexivity|right; discriminate..]).
  destruct Hcase as [->|Hne].
  - unfold move_keys in H. cbv zeta in H. cbn [check_pointer bind] in H. destruct (labels_from_c keys) as [k|e|m|r]; cbn [bind] in H; try discriminate H.
    rewrite (tensor_get _ _ _ Hw Ht) in H. cbn [bind] in H.
    destruct (move (ot_tensor ot) k) as [moved res]. destruct res as [[]|e|m|r]; try discriminate H.
    destruct (new_blocks_arrays w (tm_blocks moved)) as [w1 arrays] eqn:En. injection H as <- <-.
    pose proof (new_blocks_next _ _ _ _ En) as [Hseq Hle]. apply new_blocks_arrays_handles in En as (E1 & E2 & _). cbn. split; [exact E1|].
    right. exists moved, arrays. split; [reflexivity|]. split; [rewrite E2; reflexivity|]. intros a Ha. rewrite Hseq in Ha. apply in_seq in Ha. lia.
  - destruct (move_keys_failure _ _ _ _ _ _ _ _ Hw Hk H Hne) as [E1 E2]. auto.
Qed.

Lemma fine_move p s tensor labels creators call : safe s -> Forall (current_view s) labels ->
  (forall t l, object_is s tensor (PyTensor t l) -> respects (py_world s) (call (Some t))
     /\ arrays_called (py_world s) (call (Some t)) = concat (tensor_arrays (py_world s) t)
     /\ exists keys temporary move, keeps_on_failure move /\ call_body p 0 (py_world s) (call (Some t)) = move_keys (py_world s) (Some t) keys temporary move) ->
  fine s (py_move_keys p s tensor labels creators call).
Proof.
  intros Hs Hl Hcall. apply fine_read; [exact Hs|eapply labels_defined; eassumption|]. intros _ _.
  apply fine_read; [exact Hs|apply (tensor_pointer_defined Hs)|]. intros t E.
  destruct (tensor_pointer_ok Hs _ _ E) as (l & ot & Ho & Hot & Ea & Hwr). cbv zeta.
  destruct (Hcall t l Ho) as (Hr & Hac & keys & temporary & move & Hk & Hbody).
  destruct (safe_call _ p s (call (Some t)) Hs Hr) as (w' & v & Hown & Hplain & Hnext & _ & Hends & _).
  { rewrite Hac, Ea. intros a o Hin Hw. apply (Hwr a o Hin Hw). }
  assert (Hnd : NoDup (map fst (w_tensors (py_world s)))) by apply (own_tensors _ _ (st_owners _ _ Hs)).
  inversion Hends as [w1 v1 errors Hb Ew Ec|w1 v1 r errors o Hb Ew Hne Hor Ec]; cbn [and_then]; rewrite Hbody in Hb;
    apply (move_body _ _ _ _ _ _ _ _ _ (st_owners _ _ Hs) Hk Hot) in Hb as (E1 & [[Hno E2]|(moved & arrays & Eok & E2 & Hnew)]); try contradiction.
  - assert (Hat : tensor_at w' t (mk_owned_tensor moved arrays)) by (rewrite Ew; unfold tensor_at; cbn [set_errors w_tensors]; rewrite E2; eapply In_updated; exact Hot).
    assert (Ea' : tensor_arrays w' t = arrays).
    { unfold tensor_arrays. pose proof (own_tensors _ _ Hown) as [Hnd' _]. rewrite (BaseFacts.In_hm_get _ Nat.eqb_eq _ _ _ Hnd' Hat). reflexivity. }
    cbn [with_world py_world py_moved py_changed]. rewrite Ea, Ea'.
    set (values := map (hd 0) (ot_arrays ot)). unfold nothing. 
    assert (Hvals : incl values (concat (ot_arrays ot))).
    { intros x Hx. apply in_map_iff in Hx as (arrs & <- & Hx). pose proof (own_tensor_arrays _ _ (st_owners _ _ Hs)) as Hok. rewrite Forall_forall in Hok.
      specialize (Hok _ Hot). cbn [snd] in Hok. apply in_concat. exists arrs. split; [exact Hx|].
      destruct arrs as [|y arrs]; [|left; reflexivity]. exfalso. unfold tensor_arrays_ok in Hok.
      apply (in_map (@length nat)) in Hx. rewrite Hok in Hx. apply in_map_iff in Hx as (b & Hx & _). discriminate Hx. }
    assert (Hs' : safe (with_library s w' (Some t))).
    { eapply safe_library; [exact Hs|exact Hnext|exact Hown|exact Hplain|..].
      - intros o h n ws parent b _ Hblock. exists b. rewrite Ew. unfold block_at. cbn [set_errors w_blocks]. rewrite E1. split; [exact Hblock|]. split; [apply incl_refl|contradiction].
      - intros o t' l' ot' Ho' Ht'. destruct (Nat.eq_dec t' t) as [->|Hne].
        + exists (mk_owned_tensor moved arrays). split; [exact Hat|]. right. split; [reflexivity|]. cbn [ot_arrays]. intros a Ha.
          apply Hnew in Ha. apply (wrapper_next Hs). lia.
        + exists ot'. split; [|left; split; [reflexivity|congruence]]. rewrite Ew. unfold tensor_at. cbn [set_errors w_tensors]. rewrite E2. apply In_update; assumption. }
    destruct (wrap_children_same values (concat arrays) (with_world s w') creators) as [-> ->]. rewrite wrap_children_moved.
    change (with_moved (with_world s w') (t :: py_moved (with_world s w')) (py_changed (with_world s w'))) with (with_library s w' (Some t)).
    destruct (wrap_children_facts _ tensor t l (mk_owned_tensor moved arrays) values (concat arrays) (with_library s w' (Some t)) creators Hs') as (F1 & F2 & F3).
    + exact Ho.
    + exact Hat.
    + apply incl_refl.
    + intros a Ha. apply Hnew in Ha. split; [cbn [with_library py_world]; rewrite Ew; cbn [set_errors w_next_array]; lia|].
      intros Hin. apply Hvals in Hin. pose proof (tensor_owned_lt Hs _ _ _ Hot Hin). lia.
    + intros x o Hx Hw. apply Hvals in Hx. destruct (Hwr x o Hx Hw) as [Hch _]. eapply (grows_chain s); [|exact Hch].
      intros o' y Hy. exists y. split; [exact Hy|constructor].
    + split; [unfold safe; cbn [fst]; rewrite F2; exact F1|]. split; [discriminate|]. intros [T1 T2]. cbn [fst]. split; rewrite F2; cbn [with_library py_world].
      * intros h b Hin. rewrite Ew in Hin. unfold block_at in Hin. cbn [set_errors w_blocks] in Hin. rewrite E1 in Hin. destruct (T1 h b Hin) as [o (n & ws & parent & Hx)].
        exists o, n, ws, parent. apply F3; [exact Hx|discriminate].
      * intros h b Hin. rewrite Ew in Hin. unfold tensor_at in Hin. cbn [set_errors w_tensors] in Hin. rewrite E2 in Hin.
        assert (Hold : exists b', tensor_at (py_world s) h b') by (apply update_In in Hin as [->|Hin]; eauto). destruct Hold as [b' Hold].
        destruct (T2 h b' Hold) as [o (l' & Hx)]. exists o, l'. apply F3; [exact Hx|discriminate].
  - assert (Hs' : safe (with_world s w')).
    { rewrite <- with_library_same. eapply safe_library; [exact Hs|exact Hnext|exact Hown|exact Hplain|..].
      - intros o1 h n ws parent b _ Hblock. exists b. rewrite Ew. unfold block_at. cbn [set_errors w_blocks]. rewrite E1. split; [exact Hblock|]. split; [apply incl_refl|contradiction].
      - intros o1 t' l' ot' Ho' Ht'. exists ot'. rewrite Ew. unfold tensor_at. cbn [set_errors w_tensors]. rewrite E2. split; [exact Ht'|]. left. split; [reflexivity|discriminate]. }
    assert (Ht' : tidy s -> tidy (with_world s w')).
    { intros [T1 T2]. split; cbn [with_world py_world]; rewrite Ew; unfold block_at, tensor_at; cbn [set_errors w_blocks w_tensors]; [rewrite E1; exact T1|rewrite E2; exact T2]. }
    destruct Hor as [[e ->]|[m ->]]; (split; [exact Hs'|]); (split; [discriminate|exact Ht']).
Qed.

Lemma components_body p w t ot variables w' v o : owners w -> tensor_at w t ot ->
  call_body p 0 w (TensorComponentsToProperties (Some t) (Some variables)) = (w', v, o) ->
  w_blocks w' = w_blocks w
  /\ (w_tensors w' = w_tensors w \/ exists moved, w_tensors w' = update_handle t (mk_owned_tensor moved (ot_arrays ot)) (w_tensors w)).
Proof.
  intros Hw Ht. cbn [call_body]. unfold eqs_tensormap_components_to_properties. cbv zeta. intros H.
  match type of H with match ?x with _ => _ end = _ => destruct x as [[[h vs] t0]|e|m|r] eqn:E end; [|injection H as <- <- <-; auto..].
  apply bind_ok in E as (h1 & Eh & E). apply bind_ok in E as (k1 & _ & E). apply bind_ok in E as (k2 & _ & E). apply bind_ok in E as (t1 & Et & E).
  injection E as -> -> ->. injection Eh as ->. rewrite (tensor_get _ _ _ Hw Ht) in Et. injection Et as <-.
  destruct (components_to_properties (ot_tensor ot) vs) as [moved result]. injection H as <- <- <-. cbn. split; [reflexivity|]. right. exists moved. reflexivity.
Qed.

Lemma fine_components p s tensor variables : safe s -> fine s (py_components_to_properties p s tensor variables).
Proof.
  intros Hs. apply fine_read; [exact Hs|apply (tensor_pointer_defined Hs)|]. intros t E.
  destruct (tensor_pointer_ok Hs _ _ E) as (l & ot & Ho & Hot & Ea & Hwr). cbv zeta. set (arrays := concat _).
  destruct (safe_call _ p s (TensorComponentsToProperties (Some t) (Some (map Some variables))) Hs) as (w' & v & Hown & Hplain & Hnext & _ & Hends & _).
  { intros h Eh. injection Eh as <-. exists ot. exact Hot. }
  { cbn [arrays_called]. rewrite Ea. intros a o Hin Hw. apply (Hwr a o Hin Hw). }
  assert (Hbody : w_blocks w' = w_blocks (py_world s)
    /\ (w_tensors w' = w_tensors (py_world s) \/ exists moved, w_tensors w' = update_handle t (mk_owned_tensor moved (ot_arrays ot)) (w_tensors (py_world s)))).
  { inversion Hends as [w1 v1 errors Hb Ew|w1 v1 r errors o Hb Ew]; apply (components_body _ _ _ _ _ _ _ _ (st_owners _ _ Hs) Hot) in Hb; rewrite Ew; exact Hb. }
  destruct Hbody as [E1 E2].
  assert (Hs' : safe (with_world s w')).
  { rewrite <- with_library_same. eapply safe_library; [exact Hs|exact Hnext|exact Hown|exact Hplain|..].
    - intros o1 h n ws parent b _ Hblock. exists b. unfold block_at. rewrite E1. split; [exact Hblock|]. split; [apply incl_refl|contradiction].
    - intros o1 t' l' ot' Ho' Ht'. unfold tensor_at. destruct E2 as [E2|[moved E2]]; rewrite E2.
      + exists ot'. split; [exact Ht'|]. left. split; [reflexivity|discriminate].
      + destruct (Nat.eq_dec t' t) as [->|Hne].
        * exists (mk_owned_tensor moved (ot_arrays ot)). split; [eapply In_updated; exact Hot|]. left. cbn [ot_arrays].
          rewrite (tensor_at_one _ _ _ _ (st_owners _ _ Hs) Ht' Hot). split; [reflexivity|discriminate].
        * exists ot'. split; [apply In_update; assumption|]. left. split; [reflexivity|discriminate]. }
  assert (Ht' : tidy s -> tidy (with_moved (with_world s w') (py_moved s) (arrays ++ py_changed s))).
  { intros [T1 T2]. split; cbn [with_moved with_world py_world].
    - unfold block_at. rewrite E1. exact T1.
    - intros h b Hin. assert (Hold : exists b', tensor_at (py_world s) h b').
      { unfold tensor_at in Hin. destruct E2 as [E2|[moved E2]]; rewrite E2 in Hin; [eauto|]. apply update_In in Hin as [->|Hin]; eauto. }
      destruct Hold as [b' Hold]. exact (T2 h b' Hold). }
  pose proof (safe_changed _ _ (arrays ++ py_changed s) Hs') as Hs2.
  inversion Hends as [w1 v1 errors Hb Ew Ec|w1 v1 r errors o Hb Ew Hne Hor Ec]; cbn [and_then].
  - split; [exact Hs2|]. split; [discriminate|exact Ht'].
  - destruct Hor as [[e ->]|[m ->]]; (split; [exact Hs2|]); (split; [discriminate|exact Ht']).
Qed.

(** * NewTensor *)

Lemma take_pointers_facts next items : forall s s' flag, safe_with next s -> take_pointers s items = (s', flag) ->
  safe_with next s' /\ py_world s' = py_world s /\ py_moved s' = py_moved s /\ py_changed s' = py_changed s /\ py_wrapped s' = py_wrapped s
  /\ py_next s' = py_next s /\ grows s s'
  /\ (forall o x, (forall ptr n ow ws p, x <> PyBlock ptr n ow ws p) -> object_is s' o x -> object_is s o x)
  /\ (forall o h, frees_block s' o h -> frees_block s o h)
  /\ (forall o x, ~ In o items -> object_is s o x -> object_is s' o x)
  /\ (flag = true -> forall o, In o items -> (exists ptr n ws p, object_is s o (PyBlock ptr n true ws p)) /\ forall h, ~ frees_block s' o h).
Proof.
  induction items as [|i items IH]; intros s s' flag Hs H; cbn [take_pointers] in H.
  - injection H as <- <-. split; [exact Hs|]. do 5 (split; [reflexivity|]). split; [intros o x Hx; exists x; split; [exact Hx|constructor]|].
    do 3 (split; [auto|]). intros _ o [].
  - destruct (find_object s i) as [x|] eqn:Ex; [apply (safe_find Hs) in Ex|].
    2: { injection H as <- <-. split; [exact Hs|]. do 5 (split; [reflexivity|]). split; [intros o x Hx; exists x; split; [exact Hx|constructor]|].
         do 3 (split; [auto|]). discriminate. }
    destruct x as [a view children|ptr n owning ws parent|l|t l|m parent];
      try (injection H as <- <-; split; [exact Hs|]; do 5 (split; [reflexivity|]);
           split; [intros o x Hx; exists x; split; [exact Hx|constructor]|]; do 3 (split; [auto|]); discriminate).
    destruct owning;
      [|injection H as <- <-; split; [exact Hs|]; do 5 (split; [reflexivity|]);
           split; [intros o x Hx; exists x; split; [exact Hx|constructor]|]; do 3 (split; [auto|]); discriminate].
    set (x' := PyBlock BlockNull n true ws parent) in H. set (s1 := set_object s i x') in H.
    assert (Hgrown : grown (PyBlock ptr n true ws parent) x') by (apply grown_block; [apply incl_refl|right; auto]).
    assert (Hs1 : safe_with next s1).
    { eapply safe_grow; [exact Hs|exact Ex|exact Hgrown|]. intros r Hr. eapply (st_references _ _ Hs); [exact Ex|exact Hr]. }
    pose proof (st_ids _ _ Hs) as Hid.
    assert (Hx1 : object_is s1 i x') by (apply set_object_is; [exact Hid|left; split; [reflexivity|split; [reflexivity|eexists; exact Ex]]]).
    destruct (IH s1 s' flag Hs1 H) as (I1 & I2 & I3 & I4 & I5 & I6 & I7 & I8 & I9 & I10 & I11).
    assert (Hf : forall o h, frees_block s1 o h -> frees_block s o h).
    { intros o h (n0 & ws0 & p0 & Hx). apply set_object_is in Hx as [(_ & E & _)|[_ Hx]]; [discriminate E| |exact Hid]. exists n0, ws0, p0. exact Hx. }
    assert (Hni : forall h, ~ frees_block s1 i h).
    { intros h (n0 & ws0 & p0 & Hx). pose proof (safe_one Hs1 _ _ _ Hx Hx1) as E. discriminate E. }
    split; [exact I1|]. do 5 (split; [assumption|]). split; [|split; [|split; [|split]]].
    + intros o x Hx. destruct (Nat.eq_dec o i) as [->|Hne].
      * rewrite (safe_one Hs _ _ _ Hx Ex). destruct (I7 _ _ Hx1) as (y & Hy & Ey). exists y. split; [exact Hy|].
        inversion Ey as [|a v c c' Hi|ptr0 ptr' n0 ow ws0 ws' p0 Hi Hp]; subst; [exact Hgrown|]. apply grown_block; [exact Hi|]. right. destruct Hp as [->|[-> _]]; auto.
      * apply I7. apply set_object_is; [exact Hid|]. right. auto.
    + intros o x Hx Ho. apply I8 in Ho; [|exact Hx]. apply set_object_is in Ho as [(_ & E & _)|[_ Ho]]; [destruct (Hx _ _ _ _ _ E)|exact Ho|exact Hid].
    + intros o h Ho. apply Hf. apply I9. exact Ho.
    + intros o x Hn Ho. apply I10; [intros Hin; apply Hn; right; exact Hin|]. apply set_object_is; [exact Hid|]. right. split; [|exact Ho]. intros ->. apply Hn. left. reflexivity.
    + intros Hflag o [<-|Hin].
      * split; [exists ptr, n, ws, parent; exact Ex|]. intros h Hx. apply (Hni h). apply I9. exact Hx.
      * destruct (I11 Hflag o Hin) as [(ptr0 & n0 & ws0 & p0 & Hx) Hz]. split; [|exact Hz].
        apply set_object_is in Hx as [(-> & _ & _)|[_ Hx]]; [exists ptr, n, ws, parent; exact Ex|exists ptr0, n0, ws0, p0; exact Hx|exact Hid].
Qed.

Lemma tensor_body p w keys pointers w' v : owners w -> (forall b, In b pointers -> own_block w b) ->
  call_body p 0 w (TensorCreate keys pointers) = (w', v, Ok tt) ->
  exists t owned nulls, v = VTensor (Some (w_next_handle w)) nulls
    /\ Forall2 (fun b ob => exists h, b = BlockAt h /\ block_at w h ob) pointers owned
    /\ w_tensors w' = (w_next_handle w, mk_owned_tensor t (map ob_arrays owned)) :: w_tensors w
    /\ (forall h b, block_at w' h b -> block_at w h b /\ ~ In (BlockAt h) pointers).
Proof.
  intros Hw Hown. cbn [call_body]. unfold eqs_tensormap. destruct (labels_from_c keys) as [k|e|m|r]; [|discriminate..].
  destruct (Nat.eqb_spec (count_distinct block_ptr_eqb pointers) (length pointers)) as [E|E]; [|discriminate]. cbn [negb].
  apply (count_distinct_NoDup _ block_ptr_eqb_eq) in E.
  assert (Hf : exists owned, Forall2 (fun b ob => exists h, b = BlockAt h /\ block_at w h ob) pointers owned).
  { clear E. induction pointers as [|b pointers IH]; [exists []; constructor|]. destruct IH as [owned IH]; [intros; apply Hown; right; assumption|].
    destruct (Hown b (or_introl eq_refl)) as (h & ob & -> & Hb). exists (ob :: owned). constructor; [exists h; auto|exact IH]. }
  destruct Hf as [owned Hf]. pose proof (own_blocks _ _ Hw) as [Hnd _].
  destruct (take_blocks_all pointers w owned Hnd E Hf) as (w1 & -> & T1 & T2 & T3 & T4 & _). cbv zeta.
  destruct (tensor_map_new k (map ob_block owned)) as [t|e|m|r]; [|discriminate..]. cbn [box_tensor]. intros H. injection H as <- <-.
  exists t, owned, (map (fun _ => BlockNull) pointers). rewrite T4. split; [reflexivity|]. split; [exact Hf|]. cbn. rewrite T2. split; [reflexivity|]. intros h b Hb. apply T1. exact Hb.
Qed.

Lemma pointers_ok s items pointers : safe s -> mapM (pointer_in_list s) items = Ok pointers ->
  Forall2 (fun o ptr => exists n ow ws p, object_is s o (PyBlock ptr n ow ws p)) items pointers.
Proof.
  intros Hs H. apply mapM_ok in H. induction H as [|o ptr items pointers Ho H IH]; constructor; [|exact IH].
  unfold pointer_in_list in Ho. destruct (find_object s o) as [x|] eqn:Ex; [|discriminate Ho]. destruct x; try discriminate Ho. injection Ho as ->.
  apply (safe_find Hs) in Ex. eexists _, _, _, _. exact Ex.
Qed.

Lemma Forall2_In_l {A B} (R : A -> B -> Prop) l m a : Forall2 R l m -> In a l -> exists b, In b m /\ R a b.
Proof. induction 1 as [|x y l m Hxy H IH]; intros Hin; [destruct Hin|]. destruct Hin as [<-|Hin]; [exists y; split; [left; reflexivity|exact Hxy]|]. destruct (IH Hin) as (b & Hb & R'). exists b. split; [right; exact Hb|exact R']. Qed.
Lemma Forall2_In_r {A B} (R : A -> B -> Prop) l m b : Forall2 R l m -> In b m -> exists a, In a l /\ R a b.
Proof. induction 1 as [|x y l m Hxy H IH]; intros Hin; [destruct Hin|]. destruct Hin as [<-|Hin]; [exists x; split; [left; reflexivity|exact Hxy]|]. destruct (IH Hin) as (a & Ha & R'). exists a. split; [right; exact Ha|exact R']. Qed.

Definition fine_made {A} (s : py_state) (r : py_state * outcome A) : Prop :=
  safe (fst r) /\ defined (snd r) /\ (tidy s -> (exists v, snd r = Ok v) -> tidy (fst r)).

Lemma fine_made_read {A B} s (o : outcome A) (f : py_state -> A -> py_state * outcome B) : safe s -> defined o ->
  (forall a, o = Ok a -> fine_made s (f s a)) -> fine_made s (and_then (s, o) f).
Proof.
  intros Hs Ho Hf. destruct o as [a|e|m|r]; cbn [and_then]; [auto|..]; (split; [exact Hs|]); (split; [|auto]); try discriminate.
  intros m E. injection E as ->. apply (Ho m). reflexivity.
Qed.

Lemma made_failure {A} s s' (o : outcome A) : safe s' -> (exists e, o = Err e) \/ (exists m, o = Panic m) -> fine_made s (s', o).
Proof. intros Hs Ho. split; [exact Hs|]. destruct Ho as [[e ->]|[m ->]]; (split; [discriminate|]); intros _ [v E]; discriminate E. Qed.

Lemma fine_new_tensor p s keys labels blocks : safe s -> readable keys -> Forall (current_view s) labels -> fresh_blocks s blocks ->
  fine_made s (py_new_tensor p s keys labels blocks).
Proof.
  intros Hs Hr Hl Hfresh. apply fine_made_read; [exact Hs|apply list_items_defined; exact Hs|]. intros items Ei. apply (list_items_ok _ _ _ Hs) in Ei.
  apply fine_made_read; [exact Hs| |].
  { apply mapM_defined. intros o _. unfold pointer_in_list. destruct (find_object s o) as [x|]; [|discriminate]. destruct x; discriminate. }
  intros pointers Ep. apply (pointers_ok _ _ _ Hs) in Ep.
  destruct (take_pointers s items) as [s1 owning] eqn:Et.
  destruct (take_pointers_facts _ _ _ _ _ Hs Et) as (Hs1 & I2 & I3 & I4 & I5 & I6 & I7 & I8 & I9 & I10 & I11).
  assert (Hs1' : safe s1) by (unfold safe; rewrite I2; exact Hs1).
  destruct owning; cbn [negb]; [|apply made_failure; [exact Hs1'|left; eexists; reflexivity]]. specialize (I11 eq_refl).
  assert (Hlab : defined (each (read_view s1) labels)).
  { eapply read_views_defined; [exact Hs|exact Hs1|exact I2|exact I3|exact I4| |exact Hl]. intros o m parent. apply I8. discriminate. }
  destruct (each (read_view s1) labels) as [[]|e|m|r] eqn:Ev; cbn [and_then];
    [|apply made_failure; [exact Hs1'|left; eexists; reflexivity]|apply made_failure; [exact Hs1'|right; eexists; reflexivity]|destruct (Hlab r eq_refl)].
  assert (Hptr : forall ptr, In ptr pointers -> exists o h b n ws parent, In o items /\ ptr = BlockAt h /\ object_is s o (PyBlock (BlockAt h) n true ws parent)
     /\ block_at (py_world s) h b /\ forall a wr, In a (ob_arrays b) -> wrapper_of s a = Some wr -> In wr ws).
  { intros ptr Hin. destruct (Forall2_In_r _ _ _ _ Ep Hin) as (o & Ho & n & ow & ws & parent & Hx).
    destruct (I11 o Ho) as [(ptr1 & n1 & ws1 & p1 & Hx1) _]. pose proof (safe_one Hs _ _ _ Hx Hx1) as E. injection E as <- <- -> <- <-.
    pose proof (Hfresh _ _ _ _ _ _ _ Ei Ho Hx) as Hnn. pose proof (st_local _ _ Hs _ _ Hx) as Hloc. cbn [local_ok] in Hloc.
    destruct ptr as [|h|t i]; [congruence| |destruct Hloc as [Hloc _]; discriminate Hloc]. destruct Hloc as (_ & b & Hb & Hc).
    exists o, h, b, n, ws, parent. auto. }
  assert (Hcarr : forall a wr, In a (flat_map (arrays_at (py_world s)) pointers) -> wrapper_of s a = Some wr ->
     exists o n ptr ws parent, In o items /\ object_is s o (PyBlock ptr n true ws parent) /\ In wr ws).
  { intros a wr Ha Hw. apply in_flat_map in Ha as (ptr & Hin & Ha). destruct (Hptr ptr Hin) as (o & h & b & n & ws & parent & Ho & -> & Hx & Hb & Hc).
    exists o, n, (BlockAt h), ws, parent. split; [exact Ho|]. split; [exact Hx|]. apply (Hc a); [|exact Hw]. unfold arrays_at in Ha.
    rewrite (points_to_read _ _ b (st_owners _ _ Hs)) in Ha; [exact Ha|]. left. exists h. auto. }
  assert (Hownb : forall b, In b pointers -> own_block (py_world s) b).
  { intros b Hb. destruct (Hptr b Hb) as (o & h & blk & n & ws & parent & _ & -> & _ & Hblk & _). exists h, blk. auto. }
  destruct (safe_call _ p s1 (TensorCreate keys pointers) Hs1') as (w' & v & Hown & Hplain & Hnext & Hframe & Hends & _).
  { rewrite I2. split; [exact Hr|exact Hownb]. }
  { rewrite I2. cbn [arrays_called]. intros a wr Ha Hw. unfold wrapper_of in Hw. rewrite I5 in Hw.
    destruct (Hcarr a wr Ha Hw) as (o & n & ptr & ws & parent & _ & Hx & Hin).
    destruct (st_references _ _ Hs o _ wr Hx) as [y Hy]; [cbn [references]; apply in_or_app; left; exact Hin|]. apply I7 in Hy as (y' & Hy & _). exists y'. exact Hy. }
  assert (Hnochange : forall o h, frees_block s1 o h -> ~ In (BlockAt h) pointers).
  { intros o h Ho Hin. destruct (Hptr _ Hin) as (o' & h' & b & n & ws & parent & Ho' & E & Hx & _ & _). injection E as <-.
    assert (o = o') as -> by (eapply (st_block_owner _ _ Hs); [apply I9; exact Ho|exists n, ws, parent; exact Hx]).
    destruct (I11 o' Ho') as [_ Hz]. exact (Hz h Ho). }
  assert (Hs2 : safe (with_world s1 w')).
  { eapply quiet_world; [exact Hs1'|exact Hnext|exact Hown|exact Hplain|exact Hframe|exact Hnochange|intros o h _ []]. }
  inversion Hends as [w1 v1 errors Hb Ew Ec|w1 v1 r errors o Hb Ew Hne Hor Ec]; cbn [and_then].
  2: { destruct Hor as [[e ->]|[m ->]]; apply made_failure; try exact Hs2; [left|right]; eexists; reflexivity. }
  rewrite I2 in Hb. apply (tensor_body _ _ _ _ _ _ (st_owners _ _ Hs) Hownb) in Hb as (t & owned & nulls & -> & Hf & Etn & Hblk).
  set (h := w_next_handle (py_world s)) in *.
  assert (Hat : tensor_at w' h (mk_owned_tensor t (map ob_arrays owned))) by (rewrite Ew; unfold tensor_at; cbn [set_errors w_tensors]; rewrite Etn; left; reflexivity).
  assert (Hlist : object_is s1 blocks (PyList items)) by (apply I7 in Ei as (y & Hy & Ey); inversion Ey; subst; exact Hy).
  destruct (new_handle_free _ _ Hs1) as [_ Hnew]. rewrite I2 in Hnew. fold h in Hnew.
  split; [|split; [discriminate|]].
  - apply safe_give; [exact Hs2| | |discriminate|].
    + intros r [<-|[]]. exists (PyList items). exact Hlist.
    + cbn [local_ok]. exists (mk_owned_tensor t (map ob_arrays owned)). split; [exact Hat|]. cbn [ot_arrays]. intros a wr Ha Hw.
      assert (Hin : In a (flat_map (arrays_at (py_world s)) pointers)).
      { apply in_concat in Ha as (arrs & Ha1 & Ha2). apply in_map_iff in Ha1 as (ob & <- & Hob). destruct (Forall2_In_r _ _ _ _ Hf Hob) as (ptr & Hp & h' & -> & Hb').
        apply in_flat_map. exists (BlockAt h'). split; [exact Hp|]. unfold arrays_at. rewrite (points_to_read _ _ ob (st_owners _ _ Hs)); [exact Ha2|]. left. exists h'. auto. }
      change (wrapper_of s1 a = Some wr) in Hw. unfold wrapper_of in Hw. rewrite I5 in Hw. destruct (Hcarr a wr Hin Hw) as (o & n & ptr & ws & parent & Ho & Hx & Hwr).
      apply I7 in Hx as (y & Hy & Ey).
      assert (Hy2 : exists ptr' ws', y = PyBlock ptr' n true ws' parent /\ incl ws ws') by (inversion Ey; subst; eexists _, _; split; [reflexivity|apply incl_refl|reflexivity|assumption]).
      destruct Hy2 as (ptr' & ws' & -> & Hincl). exists blocks, items, o, ptr', n, true, ws', parent, wr. split; [reflexivity|]. split; [exact Hlist|].
      split; [exact Ho|]. split; [exact Hy|]. split; [apply Hincl; exact Hwr|apply keeps_self].
    + intros t0 l Eq o Ho. injection Eq as <- <-. apply (Hnew o). exact Ho.
  - intros [T1 T2] _. cbn [give fst]. split.
    + intros h' b Hb'. change (block_at w' h' b) in Hb'. rewrite Ew in Hb'. apply Hblk in Hb' as [Hb' Hn]. destruct (T1 h' b Hb') as [o (n & ws & parent & Hx)].
      exists o, n, ws, parent. right. apply I10; [|exact Hx]. intros Hin. destruct (Forall2_In_l _ _ _ _ Ep Hin) as (ptr & Hp & n1 & ow1 & ws1 & p1 & Hx1).
      pose proof (safe_one Hs _ _ _ Hx Hx1) as E. injection E as <- _ _ _ _. contradiction.
    + intros h' t' Ht'. change (tensor_at w' h' t') in Ht'. rewrite Ew in Ht'. unfold tensor_at in Ht'. cbn [set_errors w_tensors] in Ht'. rewrite Etn in Ht'.
      destruct Ht' as [E|Ht'].
      * injection E as <- _. exists (py_next s1), (Some blocks). left. reflexivity.
      * destruct (T2 h' t' Ht') as [o (l & Hx)]. exists o, l. right. apply I7 in Hx as (y & Hy & Ey). inversion Ey; subst. exact Hy.
Qed.
