(* Lemmas about Numpy.v *)
From Coq Require Import Permutation.
From Verif Require Import Base BaseFacts LayoutFacts Labels Array Strided Spec SpecTensor ArrayFacts ComponentsFacts StridedFacts Numpy SpecNumpy.
Local Open Scope list_scope.
Local Open Scope nat_scope.

(** * Positions *)

Lemma distance_row_major shape : forall idx, np_distance (map Z.of_nat (row_major_strides shape)) idx = Z.of_nat (ravel shape idx).
Proof.
  induction shape as [|n shape IH]; intros [|i idx]; cbn [row_major_strides map np_distance ravel]; try reflexivity.
  rewrite IH. lia.
Qed.

Lemma position_row_major shape : forall idx, position (row_major_strides shape) idx = ravel shape idx.
Proof.
  induction shape as [|n shape IH]; intros [|i idx]; cbn [row_major_strides position ravel]; try reflexivity.
  rewrite IH. reflexivity.
Qed.

Lemma all_in_order shape (l : list Z) : length l = prod shape -> map (fun idx => nth (ravel shape idx) l 0%Z) (all_indices shape) = l.
Proof.
  intros H. etransitivity; [|apply (standard_elements shape (row_major_strides shape) l);
    [apply row_major_length|exact H|apply row_major_offsets]].
  unfold st_elements, st_get. cbn [st_shape st_strides st_buffer]. apply map_ext. intros idx.
  rewrite position_row_major. reflexivity.
Qed.

Lemma ravel_inj shape idx idx' : in_bounds shape idx -> in_bounds shape idx' -> ravel shape idx = ravel shape idx' -> idx = idx'.
Proof.
  intros H H' E. pose proof (nth_error_all_indices _ _ H) as E1. rewrite E, (nth_error_all_indices _ _ H') in E1. congruence.
Qed.

Lemma elements_length m a : length (np_elements m a) = prod (np_shape a).
Proof. unfold np_elements. rewrite map_length. apply all_indices_length. Qed.

Lemma nd_get_np m a idx : in_bounds (np_shape a) idx -> nd_get (mk_nd (np_shape a) (np_elements m a)) idx = np_get m a idx.
Proof. intros H. change (mk_nd _ _) with (nd_tabulate (np_shape a) (np_get m a)). apply nd_get_tabulate. exact H. Qed.

(** * New arrays *)

Section New.
  Context (m : memory) (shape : list nat) (dtype : np_type) (elements : list Z).
  Context (H : length elements = prod shape).

  Lemma new_nth : nth_error (m ++ [elements]) (length m) = Some elements.
  Proof. rewrite nth_error_app2, Nat.sub_diag by lia. reflexivity. Qed.

  Lemma new_position idx : np_position (snd (np_new m shape dtype elements)) idx = Z.of_nat (ravel shape idx).
  Proof. unfold np_position. cbn. rewrite distance_row_major. reflexivity. Qed.

  Lemma new_in_memory : in_memory (fst (np_new m shape dtype elements)) (snd (np_new m shape dtype elements)).
  Proof.
    split; [cbn; rewrite map_length; apply row_major_length|]. exists elements. split; [exact new_nth|].
    intros idx Hb. rewrite new_position. apply ravel_lt in Hb. cbn [np_new snd np_shape] in Hb. lia.
  Qed.

  Lemma new_elements : np_elements (fst (np_new m shape dtype elements)) (snd (np_new m shape dtype elements)) = elements.
  Proof.
    etransitivity; [|exact (all_in_order shape elements H)]. unfold np_elements. apply map_ext. intros idx. unfold np_get.
    rewrite new_position, Nat2Z.id. cbn [np_new fst snd np_buffer]. rewrite (nth_error_nth _ _ _ new_nth). reflexivity.
  Qed.

  Lemma new_apart : apart_elements (snd (np_new m shape dtype elements)).
  Proof.
    intros idx idx' Hb Hb' E. rewrite !new_position in E. apply (ravel_inj shape); [exact Hb|exact Hb'|lia].
  Qed.
End New.

(** * Memory which is not used by an array *)

Lemma in_memory_lt m a : in_memory m a -> np_buffer a < length m.
Proof. intros (_ & b & H & _). apply nth_error_Some. congruence. Qed.

Lemma in_memory_app m m' a : in_memory m a -> in_memory (m ++ m') a.
Proof.
  intros H. pose proof (in_memory_lt _ _ H) as L. destruct H as (E & b & Hb & H). split; [exact E|].
  exists b. split; [rewrite nth_error_app1 by exact L; exact Hb|exact H].
Qed.

Lemma np_get_app m m' a idx : in_memory m a -> np_get (m ++ m') a idx = np_get m a idx.
Proof. intros H. unfold np_get. rewrite app_nth1 by (apply in_memory_lt; exact H). reflexivity. Qed.

Lemma elements_app m m' a : in_memory m a -> np_elements (m ++ m') a = np_elements m a.
Proof. intros H. apply map_ext. intros idx. apply np_get_app. exact H. Qed.

Lemma in_memory_set m i b b' a : nth_error m i = Some b -> length b' = length b -> in_memory m a -> in_memory (set_nth m i b') a.
Proof.
  intros Hi L (E & c & Hc & H). split; [exact E|]. rewrite nth_error_set_nth.
  destruct (Nat.eqb_spec (np_buffer a) i) as [Ei|]; cbn [andb]; [|eauto].
  destruct (i <? length m); [|eauto]. exists b'. split; [reflexivity|]. rewrite L. rewrite Ei, Hi in Hc.
  inversion Hc; subst c. exact H.
Qed.

Lemma nth_set_other {A} (l : list A) i j x d : i <> j -> nth j (set_nth l i x) d = nth j l d.
Proof. revert i j. induction l as [|y l IH]; intros [|i] [|j] H; cbn; try reflexivity; try lia. apply IH. lia. Qed.

Lemma nth_set_this {A} (l : list A) i x d : i < length l -> nth i (set_nth l i x) d = x.
Proof. revert i. induction l as [|y l IH]; intros [|i] H; cbn in *; try lia; [reflexivity|]. apply IH. lia. Qed.

Lemma elements_set m i b a : np_buffer a <> i -> np_elements (set_nth m i b) a = np_elements m a.
Proof.
  intros H. apply map_ext. intros idx. unfold np_get. rewrite nth_set_other by congruence. reflexivity.
Qed.

(** * Reshape and swap *)

Lemma elements_distances m a :
  np_elements m a
  = map (fun d => nth (Z.to_nat (np_offset a + d)) (nth (np_buffer a) m []) 0%Z) (map (np_distance (np_strides a)) (all_indices (np_shape a))).
Proof. unfold np_elements. rewrite map_map. reflexivity. Qed.

Lemma view_ok f m a shape strides : follows_numpy f -> in_memory m a -> prod shape = prod (np_shape a) ->
  np_view f (np_shape a) (np_strides a) shape = Some strides ->
  let a' := mk_np (np_buffer a) (np_offset a) shape strides (np_dtype a) in
  in_memory m a' /\ np_elements m a' = np_elements m a /\ (apart_elements a -> apart_elements a').
Proof.
  intros [_ Hf] (Hl & b & Hb & Hin) Hp Hv a'. destruct (Hf _ _ _ _ Hl Hp Hv) as [Hl' E].
  assert (Hex : forall idx', in_bounds shape idx' -> exists idx, in_bounds (np_shape a) idx /\ np_position a idx = np_position a' idx').
  { intros idx' Hb'. apply all_indices_In, (in_map (np_distance strides)) in Hb'. rewrite E in Hb'.
    apply in_map_iff in Hb' as (idx & E' & Hb'). exists idx. split; [apply all_indices_In; exact Hb'|].
    unfold np_position. cbn. lia. }
  split; [|split].
  - split; [exact Hl'|]. exists b. split; [exact Hb|]. intros idx' Hb'. destruct (Hex idx' Hb') as (idx & Hi & <-). apply Hin, Hi.
  - unfold a'. rewrite !elements_distances. cbn [np_strides np_shape np_offset np_buffer]. rewrite E. reflexivity.
  - intros Ha. assert (Hn : NoDup (map (np_distance strides) (all_indices shape))).
    { rewrite E. apply NoDup_map_inj_in; [|apply all_indices_NoDup]. intros x y Hx Hy Exy.
      apply all_indices_In in Hx, Hy. apply Ha; [exact Hx|exact Hy|]. unfold np_position. lia. }
    intros x y Hx Hy Exy. apply (NoDup_map_inj _ _ x y Hn); [apply all_indices_In; exact Hx|apply all_indices_In; exact Hy|].
    unfold np_position in Exy. cbn in Exy. lia.
Qed.

Lemma distance_sum strides : forall idx, length idx = length strides ->
  np_distance strides idx = fold_right (fun si acc => (Z.of_nat (snd si) * fst si + acc)%Z) 0%Z (combine strides idx).
Proof.
  induction strides as [|s strides IH]; intros [|i idx] H; cbn [np_distance combine fold_right length fst snd] in *; try lia.
  rewrite IH by lia. reflexivity.
Qed.

Lemma distance_sum_Permutation (l l' : list (Z * nat)) : Permutation l l' ->
  fold_right (fun si acc => (Z.of_nat (snd si) * fst si + acc)%Z) 0%Z l
  = fold_right (fun si acc => (Z.of_nat (snd si) * fst si + acc)%Z) 0%Z l'.
Proof. induction 1; cbn in *; lia. Qed.

Lemma distance_swap i j strides idx : i < length strides -> j < length strides -> length idx = length strides ->
  np_distance (swap_nth i j strides) (swap_nth i j idx) = np_distance strides idx.
Proof.
  intros Hi Hj E. rewrite !distance_sum by (rewrite ?swap_nth_length; assumption).
  rewrite combine_swap by assumption. apply distance_sum_Permutation, swap_nth_Permutation.
Qed.

Lemma swap_ok m a i j a' : in_memory m a -> np_swap_axes a i j = Some a' ->
  i < length (np_shape a) /\ j < length (np_shape a)
  /\ in_memory m a' /\ np_buffer a' = np_buffer a /\ np_dtype a' = np_dtype a
  /\ nd_swap_axes i j (mk_nd (np_shape a) (np_elements m a)) = Some (mk_nd (np_shape a') (np_elements m a'))
  /\ (apart_elements a -> apart_elements a').
Proof.
  intros (Hl & b & Hb & Hin) H. unfold np_swap_axes in H. destruct (_ && _) eqn:E; [|discriminate].
  pose proof E as E0. apply andb_prop in E as [Hi Hj]. apply Nat.ltb_lt in Hi, Hj. inversion H; subst a'; clear H.
  assert (Hpos : forall idx, in_bounds (swap_nth i j (np_shape a)) idx ->
     np_distance (swap_nth i j (np_strides a)) idx = np_distance (np_strides a) (swap_nth i j idx)).
  { intros idx Hx. apply in_bounds_length in Hx. rewrite swap_nth_length in Hx.
    rewrite <- (distance_swap i j _ (swap_nth i j idx)) by (rewrite ?swap_nth_length; lia). rewrite swap_swap by lia. reflexivity. }
  split; [exact Hi|]. split; [exact Hj|]. split; [|split; [reflexivity|split; [reflexivity|split]]].
  - split; [cbn; rewrite !swap_nth_length; exact Hl|]. exists b. split; [exact Hb|]. cbn [np_shape]. intros idx Hx.
    unfold np_position. cbn [np_offset np_strides]. rewrite Hpos by exact Hx. apply Hin. apply in_bounds_unswap; assumption.
  - unfold nd_swap_axes. cbn [nd_shape]. rewrite E0. unfold nd_tabulate. cbn [np_shape]. do 2 f_equal.
    unfold np_elements at 2. cbn [np_shape]. apply map_ext_in. intros idx Hx. apply all_indices_In in Hx.
    rewrite nd_get_np by (apply in_bounds_unswap; assumption). unfold np_get, np_position. cbn [np_offset np_strides np_buffer].
    rewrite Hpos by exact Hx. reflexivity.
  - intros Ha x y Hx Hy Exy. cbn [np_shape] in Hx, Hy. unfold np_position in Exy. cbn [np_offset np_strides] in Exy.
    rewrite !Hpos in Exy by assumption.
    assert (Es : swap_nth i j x = swap_nth i j y).
    { apply Ha; [apply in_bounds_unswap; assumption|apply in_bounds_unswap; assumption|unfold np_position; lia]. }
    apply in_bounds_length in Hx, Hy. rewrite swap_nth_length in Hx, Hy.
    rewrite <- (swap_swap i j x), <- (swap_swap i j y) by lia. rewrite Es. reflexivity.
Qed.

(** * Moving samples *)

(* only the buffer of the output changes *)
Lemma move_only_output f m input output samples start stop m' : np_move_samples f m input output samples start stop = Some m' ->
  exists b', m' = set_nth m (np_buffer output) b' /\ length b' = length (nth (np_buffer output) m []).
Proof.
  unfold np_move_samples. destruct (np_shape input) as [|n_in [|c_in in_shape]]; try discriminate.
  destruct (np_shape output) as [|n_out [|c_out out_shape]]; try discriminate. cbn [tl].
  destruct (_ && _); [|discriminate]. intros H. inversion H; subst m'; clear H. eexists. split; [reflexivity|].
  generalize (nth (np_buffer output) m []). generalize (combine (seq 0 (length samples)) samples).
  intros l. induction l as [|x l IH]; intros b; [reflexivity|]. cbn [fold_left]. rewrite IH. apply writes_length.
Qed.

Lemma flat_map_nth {A B} (g : A -> list B) L l : (forall x, In x l -> length (g x) = L) ->
  forall j x r, nth_error l j = Some x -> r < L -> nth_error (flat_map g l) (j * L + r) = nth_error (g x) r.
Proof.
  induction l as [|y l IH]; intros Hl [|j] x r Hj Hr; try discriminate; cbn [nth_error flat_map] in *.
  - inversion Hj; subst. rewrite nth_error_app1 by (rewrite Hl by (left; reflexivity); lia). reflexivity.
  - rewrite nth_error_app2 by (rewrite Hl by (left; reflexivity); lia). rewrite (Hl y) by (left; reflexivity).
    replace (S j * L + r - L) with (j * L + r) by lia. apply IH; [|exact Hj|exact Hr]. intros z Hz. apply Hl. right. exact Hz.
Qed.

Lemma strip_same n shape : length shape <= n -> strip_axes n shape = shape.
Proof.
  intros H. destruct shape as [|[|[|k]] shape]; try reflexivity. cbn [strip_axes].
  rewrite (proj2 (Nat.ltb_ge n _)) by exact H. reflexivity.
Qed.

(* what the assignments of the list do to an element *)
Lemma samples_written (output : np_array) (n : nat) (cs : list nat) (P start np : nat) (input : ndarray) (value : nat -> list nat -> Z)
    (ms : list sample_mapping) (b : list Z) :
  let write buffer (jm : nat * sample_mapping) :=
    fold_left (fun buffer local =>
        set_nth buffer
          (Z.to_nat (np_position output (sm_output (snd jm) :: set_last local (last local 0 + start))))
          (value (fst jm) local)) (all_indices (cs ++ [np])) buffer in
  np_shape output = n :: cs ++ [P] -> start + np <= P ->
  (forall idx, in_bounds (np_shape output) idx -> (0 <= np_position output idx < Z.of_nat (length b))%Z) ->
  apart_elements output ->
  Forall (fun s => sm_output s < n) ms ->
  forall j0, (forall j s local, nth_error ms j = Some s -> in_bounds (cs ++ [np]) local ->
     value (j0 + j) local = nd_get input (sm_input s :: local)) ->
  length (fold_left write (combine (seq j0 (length ms)) ms) b) = length b
  /\ forall i js k, in_bounds (np_shape output) (i :: js ++ [k]) ->
       nth (Z.to_nat (np_position output (i :: js ++ [k]))) (fold_left write (combine (seq j0 (length ms)) ms) b) 0%Z
       = match moved_list input start (start + np) ms i js k with
         | Some v => v
         | None => nth (Z.to_nat (np_position output (i :: js ++ [k]))) b 0%Z
         end.
Proof.
  intros write Hsh HP Hin Ha Hms. revert b Hin. induction Hms as [|s ms Hs Hms IH]; intros b Hin j0 Hval.
  - cbn. auto.
  - cbn [length seq combine fold_left moved_list].
    assert (Hbounds : forall local, in_bounds (cs ++ [np]) local ->
              in_bounds (np_shape output) (sm_output s :: set_last local (last local 0 + start))).
    { intros local Hb. apply in_bounds_snoc_inv in Hb as (js & k & -> & Hjs & Hk). rewrite Hsh, last_last, set_last_app.
      constructor; [exact Hs|]. apply in_bounds_snoc. split; [exact Hjs|lia]. }
    set (pos := fun local => Z.to_nat (np_position output (sm_output s :: set_last local (last local 0 + start)))).
    assert (Hw : write b (j0, s) = fold_left (fun b x => set_nth b (pos x) (value j0 x)) (all_indices (cs ++ [np])) b) by reflexivity.
    assert (Hl : length (write b (j0, s)) = length b) by (rewrite Hw; apply writes_length).
    destruct (IH (write b (j0, s)) ltac:(rewrite Hl; exact Hin) (S j0)) as [IHl IHg].
    { intros j s' local Hj Hloc. replace (S j0 + j) with (j0 + S j) by lia. apply Hval; assumption. }
    split; [rewrite IHl; exact Hl|]. intros i js k Hb. rewrite IHg by exact Hb.
    destruct (moved_list input start (start + np) ms i js k) as [v|]; [reflexivity|].
    assert (Hpos : forall local, In local (all_indices (cs ++ [np])) -> pos local < length b).
    { intros local Hx. apply all_indices_In, Hbounds, Hin in Hx. unfold pos. lia. }
    assert (Hinj : forall idx idx', in_bounds (np_shape output) idx -> in_bounds (np_shape output) idx' ->
              Z.to_nat (np_position output idx) = Z.to_nat (np_position output idx') -> idx = idx').
    { intros x y Hx Hy E. apply Ha; [exact Hx|exact Hy|]. pose proof (Hin x Hx). pose proof (Hin y Hy). lia. }
    rewrite Hw. pose proof Hb as Hb0. rewrite Hsh in Hb0. apply in_bounds_cons in Hb0 as [Hi Hjk]. apply in_bounds_snoc in Hjk as [Hjs Hk].
    unfold moved. destruct ((i =? sm_output s) && (start <=? k) && (k <? start + np)) eqn:Ec.
    + rewrite !andb_true_iff, Nat.eqb_eq, Nat.leb_le, Nat.ltb_lt in Ec. destruct Ec as ((-> & Hk1) & Hk2).
      assert (Hloc : in_bounds (cs ++ [np]) (js ++ [k - start])) by (apply in_bounds_snoc; split; [exact Hjs|lia]).
      assert (Ep : Z.to_nat (np_position output (sm_output s :: js ++ [k])) = pos (js ++ [k - start])).
      { unfold pos. rewrite last_last, set_last_app. replace (k - start + start) with k by lia. reflexivity. }
      rewrite Ep, (writes_hit pos (value j0)); [|exact Hpos| |apply all_indices_In; exact Hloc].
      * specialize (Hval 0 s (js ++ [k - start]) eq_refl Hloc). rewrite Nat.add_0_r in Hval. exact Hval.
      * apply NoDup_map_inj_in; [|apply all_indices_NoDup]. intros x y Hx Hy Exy. apply all_indices_In in Hx, Hy.
        apply (Hinj _ _ (Hbounds x Hx) (Hbounds y Hy)) in Exy.
        apply in_bounds_snoc_inv in Hx as (js1 & k1 & -> & _). apply in_bounds_snoc_inv in Hy as (js2 & k2 & -> & _).
        rewrite !last_last, !set_last_app in Exy. inversion Exy as [E']. apply app_inj_tail in E' as [-> E'].
        f_equal. f_equal. lia.
    + rewrite (writes_miss pos (value j0)); [reflexivity|exact Hpos|].
      intros Hx. apply in_map_iff in Hx as (local & Epos & Hlocal). apply all_indices_In in Hlocal.
      apply (Hinj _ _ (Hbounds local Hlocal) Hb) in Epos.
      apply in_bounds_snoc_inv in Hlocal as (js' & k' & -> & Hjs' & Hk'). rewrite last_last, set_last_app in Epos.
      inversion Epos as [[E1 E2]]. rewrite <- E1 in Ec. apply app_inj_tail in E2 as [-> <-].
      rewrite Nat.eqb_refl, (proj2 (Nat.leb_le start (k' + start))), (proj2 (Nat.ltb_lt (k' + start) (start + np))) in Ec by lia.
      discriminate.
Qed.

Lemma move_same f m input output samples start stop :
  follows_numpy f -> in_memory m input -> in_memory m output -> np_dtype input = np_dtype output -> apart_elements output ->
  same_components (np_shape input) (np_shape output) start stop ->
  nd_move_samples (mk_nd (np_shape input) (np_elements m input)) (mk_nd (np_shape output) (np_elements m output)) samples start stop
  = option_map (fun m' => mk_nd (np_shape output) (np_elements m' output)) (np_move_samples f m input output samples start stop).
Proof.
  intros [Hcast _] Hmi Hmo Ht Ha (n_in & n_out & cs & np & P & Hi & Ho & Hstop & HP).
  unfold nd_move_samples, np_move_samples. cbn [nd_shape].
  destruct (np_shape input) as [|ni [|ci si]] eqn:Ei; [discriminate|destruct cs; discriminate|].
  destruct (np_shape output) as [|no [|co so]] eqn:Eo; [discriminate|destruct cs; discriminate|].
  cbn [length tl Nat.ltb Nat.leb]. inversion Hi as [[Hn Hi1]]. inversion Ho as [[Hn' Ho1]]. subst ni no.
  rewrite Hi1, Ho1 in *. rename Ei into Hi', Eo into Ho'. clear Hi Ho. rename Hi' into Hi, Ho' into Ho.
  rewrite last_last, set_last_app.
  rewrite (Nat.min_l start P), (Nat.min_l stop P) by lia. replace (stop - start) with np by lia.
  rewrite strip_same by (cbn [length]; rewrite !app_length; cbn; lia). rewrite broadcastable_refl, andb_true_r.
  destruct (forallb _ samples) eqn:Ef.
  - rewrite forallb_forall in Ef.
    assert (Hms : Forall (fun s => sm_input s < n_in /\ sm_output s < n_out) samples).
    { apply Forall_forall. intros s Hs. apply Ef in Hs. apply andb_prop in Hs as [H1 H2]. apply Nat.ltb_lt in H1, H2. auto. }
    set (nd_in := mk_nd (n_in :: cs ++ [np]) (np_elements m input)).
    set (nd_out := mk_nd (n_out :: cs ++ [P]) (np_elements m output)).
    destruct (nd_move_loop_spec start stop nd_in n_in n_out cs np P samples eq_refl Hstop HP Hms nd_out eq_refl) as (o & Eo & Hs & Hw & Hg).
    { unfold wf_nd, nd_out. cbn [nd_data nd_shape]. rewrite elements_length, Ho. reflexivity. }
    rewrite Eo. cbn [option_map]. f_equal.
    destruct Hmo as (Hlo & b & Hb & Hin). pose proof (nth_error_nth _ _ [] Hb) as Hb'. rewrite Hb'.
    set (data := flat_map _ samples).
    assert (Hval : forall j s local, nth_error samples j = Some s -> in_bounds (cs ++ [np]) local ->
       nd_get (mk_nd (length samples :: cs ++ [np]) data)
         (rev (broadcast_index (rev (length samples :: cs ++ [np])) (rev (length samples :: cs ++ [np])) (rev (j :: local))))
       = nd_get nd_in (sm_input s :: local)).
    { intros j s local Hj Hloc. rewrite broadcast_index_refl.
      2:{ rewrite !rev_length. cbn [length]. apply in_bounds_length in Hloc. lia. }
      rewrite rev_involutive. unfold nd_get at 1. cbn [nd_shape nd_data ravel].
      apply nth_error_nth. unfold data.
      rewrite (flat_map_nth _ (prod (cs ++ [np]))) with (x := s); [| |exact Hj|apply ravel_lt; exact Hloc].
      2:{ intros x _. rewrite map_length. apply all_indices_length. }
      rewrite nth_error_map, nth_error_all_indices by exact Hloc. cbn [option_map]. rewrite Ht, Hcast. f_equal.
      unfold nd_in. rewrite <- Hi. symmetry. apply nd_get_np. rewrite Hi. constructor; [|exact Hloc].
      rewrite Forall_forall in Hms. apply Hms. eapply nth_error_In; exact Hj. }
    pose proof (samples_written output n_out cs P start np nd_in
      (fun j local => nd_get (mk_nd (length samples :: cs ++ [np]) data)
         (rev (broadcast_index (rev (length samples :: cs ++ [np])) (rev (length samples :: cs ++ [np])) (rev (j :: local)))))
      samples b Ho ltac:(lia) Hin Ha ltac:(eapply Forall_impl; [|exact Hms]; intros s [_ H]; exact H) 0 Hval) as [Hlen Hget].
    destruct o as [osh odata]. cbn [nd_shape nd_out] in Hs. subst osh. f_equal.
    unfold wf_nd in Hw. cbn [nd_shape nd_data] in Hw.
    etransitivity; [symmetry; exact (all_in_order _ odata Hw)|]. unfold np_elements. rewrite Ho. apply map_ext_in.
    intros idx Hx. apply all_indices_In in Hx. pose proof Hx as Hx0. destruct idx as [|i rest]; [inversion Hx0|]. apply in_bounds_cons in Hx0 as [Hi9 Hrest].
    apply in_bounds_snoc_inv in Hrest as (js & k & -> & Hjs & Hk).
    specialize (Hg i js k). cbn [nd_shape nd_out] in Hg. specialize (Hg Hx). unfold nd_get at 1 in Hg. cbn [nd_shape nd_data] in Hg.
    etransitivity; [exact Hg|].
    unfold np_get. rewrite nth_set_this by (apply nth_error_Some; congruence).
    etransitivity; [|symmetry; apply Hget; rewrite Ho; exact Hx].
    rewrite <- Hstop. destruct (moved_list nd_in start stop samples i js k); [reflexivity|].
    unfold nd_out. rewrite <- Ho. rewrite nd_get_np by (rewrite Ho; exact Hx). unfold np_get. rewrite Hb'. reflexivity.
  - cbn [option_map]. destruct (nd_move_loop _ _ _ _ samples) as [o|] eqn:El; [|reflexivity]. exfalso.
    eapply nd_move_loop_bounds in El; [|reflexivity|reflexivity]. rewrite <- not_true_iff_false in Ef. apply Ef.
    apply forallb_forall. rewrite Forall_forall in El. intros s Hs. apply El in Hs as [H1 H2].
    apply andb_true_intro. split; apply Nat.ltb_lt; assumption.
Qed.

(** * Arrays which do not share their memory *)

Lemma live_set {A} (l : list (option A)) i x j : live (set_nth l i x) j = if (j =? i) && (i <? length l) then x else live l j.
Proof. unfold live. rewrite nth_error_set_nth. destruct (_ && _); [destruct x; reflexivity|reflexivity]. Qed.

Lemma live_lt {A} (l : list (option A)) i a : live l i = Some a -> i < length l.
Proof. unfold live. intros H. apply nth_error_Some. destruct (nth_error l i); [discriminate|discriminate H]. Qed.

Lemma live_snoc {A} (l : list (option A)) (x : A) j b : live (l ++ [Some x]) j = Some b ->
  (j < length l /\ live l j = Some b) \/ (j = length l /\ b = x).
Proof.
  intros H. pose proof (live_lt _ _ _ H) as L. rewrite app_length in L. cbn in L. unfold live in *.
  destruct (Nat.eq_dec j (length l)) as [->|].
  - right. rewrite nth_error_app2, Nat.sub_diag in H by lia. inversion H. auto.
  - left. rewrite nth_error_app1 in H by lia. split; [lia|exact H].
Qed.

Record apart (n : nat) (m0 : memory) (s : np_state) : Prop := mk_apart {
  ap_memory : forall i a, live (np_arrays s) i = Some a -> in_memory (np_memory s) a;
  ap_new : forall i a, n <= i -> live (np_arrays s) i = Some a ->
    apart_elements a /\ length m0 <= np_buffer a
    /\ forall j b, j <> i -> live (np_arrays s) j = Some b -> np_buffer b <> np_buffer a;
  ap_user : firstn (length m0) (np_memory s) = m0;
  ap_length : n <= length (np_arrays s);
}.

Lemma apart_m0 n m0 s : apart n m0 s -> length m0 <= length (np_memory s).
Proof. intros H. pose proof (f_equal (@length _) (ap_user _ _ _ H)) as E. rewrite firstn_length in E. lia. Qed.

Lemma apart_add n m0 s shape dtype elements : apart n m0 s -> length elements = prod shape ->
  let '(m, a) := np_new (np_memory s) shape dtype elements in apart n m0 (mk_np_state m (np_arrays s ++ [Some a])).
Proof.
  intros H Hl. pose proof (apart_m0 _ _ _ H) as H0. destruct H as [Hm Hn Hu Hlen].
  pose proof (new_in_memory (np_memory s) shape dtype elements Hl) as N1.
  pose proof (new_apart (np_memory s) shape dtype elements Hl) as N2. cbn [np_new fst snd] in *. set (a := mk_np _ _ _ _ _) in *.
  split; cbn [np_memory np_arrays].
  - intros i b Hi. apply live_snoc in Hi as [[_ Hi]|[_ ->]]; [apply in_memory_app; eauto|exact N1].
  - intros i b Hni Hi. apply live_snoc in Hi as [[Hlt Hi]|[-> ->]].
    + destruct (Hn i b Hni Hi) as (H1 & H2 & H3). split; [exact H1|]. split; [exact H2|].
      intros j c Hj Hc. apply live_snoc in Hc as [[_ Hc]|[_ ->]]; [eauto|]. cbn. pose proof (in_memory_lt _ _ (Hm i b Hi)). lia.
    + split; [exact N2|]. split; [cbn; lia|]. intros j c Hj Hc. apply live_snoc in Hc as [[_ Hc]|[-> _]]; [|lia].
      cbn. pose proof (in_memory_lt _ _ (Hm j c Hc)). lia.
  - rewrite firstn_app, Hu. replace (length m0 - length (np_memory s)) with 0 by lia. apply app_nil_r.
  - rewrite app_length. lia.
Qed.

(* an array replaced by another one with the same memory *)
Lemma apart_view n m0 s i a a' : apart n m0 s -> live (np_arrays s) i = Some a -> in_memory (np_memory s) a' ->
  np_buffer a' = np_buffer a -> (apart_elements a -> apart_elements a') ->
  apart n m0 (mk_np_state (np_memory s) (set_nth (np_arrays s) i (Some a'))).
Proof.
  intros [Hm Hn Hu Hlen] Hi Ha' Eb Hel. pose proof (live_lt _ _ _ Hi) as Li. split; cbn [np_memory np_arrays].
  - intros j b. rewrite live_set. destruct (_ && _); [intros E; inversion E; subst; exact Ha'|apply Hm].
  - intros j b Hnj. rewrite live_set, (proj2 (Nat.ltb_lt _ _) Li), andb_true_r. destruct (Nat.eqb_spec j i) as [->|Hji].
    + intros E; inversion E; subst b. destruct (Hn i a Hnj Hi) as (H1 & H2 & H3). split; [auto|]. rewrite Eb. split; [exact H2|].
      intros k c Hk. rewrite live_set, (proj2 (Nat.ltb_lt _ _) Li), andb_true_r. destruct (Nat.eqb_spec k i); [lia|]. apply H3. exact Hk.
    + intros Hj. destruct (Hn j b Hnj Hj) as (H1 & H2 & H3). split; [exact H1|]. split; [exact H2|].
      intros k c Hk. rewrite live_set, (proj2 (Nat.ltb_lt _ _) Li), andb_true_r. destruct (Nat.eqb_spec k i) as [->|]; [|apply H3; exact Hk].
      intros E; inversion E; subst c. rewrite Eb. apply (H3 i a); [exact Hk|exact Hi].
  - exact Hu.
  - rewrite set_nth_length. exact Hlen.
Qed.

(* an array replaced by a new one *)
Lemma apart_replace n m0 s i a shape dtype elements : apart n m0 s -> live (np_arrays s) i = Some a -> length elements = prod shape ->
  let '(m, a') := np_new (np_memory s) shape dtype elements in apart n m0 (mk_np_state m (set_nth (np_arrays s) i (Some a'))).
Proof.
  intros H Hi Hl. pose proof (apart_m0 _ _ _ H) as H0. destruct H as [Hm Hn Hu Hlen]. pose proof (live_lt _ _ _ Hi) as Li.
  pose proof (new_in_memory (np_memory s) shape dtype elements Hl) as N1.
  pose proof (new_apart (np_memory s) shape dtype elements Hl) as N2. cbn [np_new fst snd] in *. set (a' := mk_np _ _ _ _ _) in *.
  split; cbn [np_memory np_arrays].
  - intros j b. rewrite live_set. destruct (_ && _); [intros E; inversion E; subst b; exact N1|].
    intros Hj. apply in_memory_app; eauto.
  - intros j b Hnj. rewrite live_set, (proj2 (Nat.ltb_lt _ _) Li), andb_true_r. destruct (Nat.eqb_spec j i) as [->|Hji].
    + intros E; inversion E; subst b. split; [exact N2|]. split; [cbn; lia|].
      intros k c Hk. rewrite live_set, (proj2 (Nat.ltb_lt _ _) Li), andb_true_r. destruct (Nat.eqb_spec k i); [lia|].
      intros Hc. cbn. pose proof (in_memory_lt _ _ (Hm k c Hc)). lia.
    + intros Hj. destruct (Hn j b Hnj Hj) as (H1 & H2 & H3). split; [exact H1|]. split; [exact H2|].
      intros k c Hk. rewrite live_set, (proj2 (Nat.ltb_lt _ _) Li), andb_true_r. destruct (Nat.eqb_spec k i) as [->|]; [|apply H3; exact Hk].
      intros E; inversion E; subst c. cbn. pose proof (in_memory_lt _ _ (Hm j b Hj)). lia.
  - rewrite firstn_app, Hu. replace (length m0 - length (np_memory s)) with 0 by lia. apply app_nil_r.
  - rewrite set_nth_length. exact Hlen.
Qed.

Lemma apart_destroy n m0 s i : apart n m0 s -> apart n m0 (mk_np_state (np_memory s) (set_nth (np_arrays s) i None)).
Proof.
  intros [Hm Hn Hu Hlen]. assert (Hs : forall j b, live (set_nth (np_arrays s) i None) j = Some b -> live (np_arrays s) j = Some b).
  { intros j b. rewrite live_set. destruct (_ && _); [discriminate|auto]. }
  split; cbn [np_memory np_arrays].
  - intros j b Hj. eauto.
  - intros j b Hnj Hj. destruct (Hn j b Hnj (Hs _ _ Hj)) as (H1 & H2 & H3). split; [exact H1|]. split; [exact H2|]. eauto.
  - exact Hu.
  - rewrite set_nth_length. exact Hlen.
Qed.

Lemma firstn_set {A} k (l : list A) i x : k <= i -> firstn k (set_nth l i x) = firstn k l.
Proof.
  revert k i. induction l as [|y l IH]; intros [|k] [|i] H; cbn; try reflexivity; try lia. rewrite IH by lia. reflexivity.
Qed.

Lemma apart_write n m0 s i a b' : apart n m0 s -> n <= i -> live (np_arrays s) i = Some a ->
  length b' = length (nth (np_buffer a) (np_memory s) []) ->
  apart n m0 (mk_np_state (set_nth (np_memory s) (np_buffer a) b') (np_arrays s)).
Proof.
  intros [Hm Hn Hu Hlen] Hni Hi Hl. destruct (Hn i a Hni Hi) as (_ & H2 & _).
  destruct (Hm i a Hi) as (_ & b & Hb & _). rewrite (nth_error_nth _ _ [] Hb) in Hl. split; cbn [np_memory np_arrays].
  - intros j c Hj. eapply in_memory_set; [exact Hb|exact Hl|eauto].
  - exact Hn.
  - rewrite firstn_set by exact H2. exact Hu.
  - exact Hlen.
Qed.

Lemma apart_step f n m0 s c : follows_numpy f -> apart n m0 s -> not_moved_to n c -> apart n m0 (fst (numpy_step f s c)).
Proof.
  intros Hf H Hc. destruct c as [i|i|i shape|i|i|i shape|i x y|o i samples start stop]; cbn [numpy_step fst]; try exact H.
  - destruct (live (np_arrays s) i) as [a|]; [|exact H].
    pose proof (apart_add n m0 s shape (np_dtype a) (repeat 0%Z (prod shape)) H (repeat_length _ _)) as G.
    unfold np_create. destruct (np_new _ _ _ _) as [m a']. exact G.
  - destruct (live (np_arrays s) i) as [a|]; [|exact H].
    pose proof (apart_add n m0 s (np_shape a) (np_dtype a) _ H (elements_length (np_memory s) a)) as G.
    unfold np_copy. destruct (np_new _ _ _ _) as [m a']. exact G.
  - destruct (live (np_arrays s) i) as [a|]; [|exact H]. apply apart_destroy. exact H.
  - destruct (live (np_arrays s) i) as [a|] eqn:Hi; [|exact H]. unfold np_reshape.
    destruct (prod shape =? prod (np_shape a)) eqn:Ep; [|exact H]. apply Nat.eqb_eq in Ep.
    destruct (np_view f (np_shape a) (np_strides a) shape) as [strides|] eqn:Ev; cbn [fst].
    + destruct (view_ok f (np_memory s) a shape strides Hf (ap_memory _ _ _ H i a Hi) Ep Ev) as (V1 & V2 & V3).
      eapply apart_view; [exact H|exact Hi|exact V1|reflexivity|exact V3].
    + pose proof (apart_replace n m0 s i a shape (np_dtype a) (np_elements (np_memory s) a) H Hi) as G.
      rewrite elements_length in G. specialize (G (eq_sym Ep)). destruct (np_new _ _ _ _) as [m a']. exact G.
  - destruct (live (np_arrays s) i) as [a|] eqn:Hi; [|exact H].
    destruct (np_swap_axes a x y) as [a'|] eqn:Es; [|exact H]. cbn [fst].
    destruct (swap_ok (np_memory s) a x y a' (ap_memory _ _ _ H i a Hi) Es) as (_ & _ & V1 & V2 & _ & _ & V3).
    eapply apart_view; [exact H|exact Hi|exact V1|exact V2|exact V3].
  - destruct (o =? i); [exact H|]. destruct (live (np_arrays s) o) as [output|] eqn:Ho; [|exact H].
    destruct (live (np_arrays s) i) as [input|] eqn:Hi; [|exact H].
    destruct (np_move_samples f (np_memory s) input output samples start stop) as [m'|] eqn:Em; cbn [fst].
    + apply move_only_output in Em as (b' & -> & Hl). eapply apart_write; [exact H|exact Hc|exact Ho|exact Hl].
    + apply apart_destroy. exact H.
Qed.

Lemma apart_start m arrays : Forall (in_memory m) arrays -> apart (length arrays) m (mk_np_state m (map Some arrays)).
Proof.
  intros H. assert (Hl : forall i a, live (map Some arrays) i = Some a -> In a arrays).
  { intros i a. unfold live. rewrite nth_error_map. destruct (nth_error arrays i) eqn:E; [|discriminate].
    cbn. intros E'; inversion E'; subst. eapply nth_error_In; exact E. }
  split; cbn [np_memory np_arrays].
  - intros i a Hi. rewrite Forall_forall in H. eauto.
  - intros i a Hi Ha. apply live_lt in Ha. rewrite map_length in Ha. lia.
  - apply firstn_all.
  - rewrite map_length. lia.
Qed.

Lemma apart_run f n m0 commands : forall s, follows_numpy f -> apart n m0 s -> Forall (not_moved_to n) commands ->
  apart n m0 (numpy_run f s commands).
Proof.
  induction commands as [|c commands IH]; intros s Hf H Hc; [exact H|]. inversion Hc; subst. cbn.
  apply IH; [exact Hf|apply apart_step; assumption|assumption].
Qed.

(* C86 *)
Lemma user_memory f m arrays commands :
  follows_numpy f -> Forall (in_memory m) arrays -> Forall (not_moved_to (length arrays)) commands ->
  firstn (length m) (np_memory (numpy_run f (mk_np_state m (map Some arrays)) commands)) = m.
Proof.
  intros Hf Hm Hc. exact (ap_user _ _ _ (apart_run f _ m commands _ Hf (apart_start m arrays Hm) Hc)).
Qed.

Lemma new_memory f m arrays commands i a :
  follows_numpy f -> Forall (in_memory m) arrays -> Forall (not_moved_to (length arrays)) commands ->
  let s := numpy_run f (mk_np_state m (map Some arrays)) commands in
  length arrays <= i -> live (np_arrays s) i = Some a ->
  in_memory (np_memory s) a /\ length m <= np_buffer a
  /\ forall j b, j <> i -> live (np_arrays s) j = Some b -> np_buffer b <> np_buffer a.
Proof.
  intros Hf Hm Hc s Hi Ha. pose proof (apart_run f _ m commands _ Hf (apart_start m arrays Hm) Hc) as H.
  destruct (ap_new _ _ _ H i a Hi Ha) as (_ & H1 & H2). split; [exact (ap_memory _ _ _ H i a Ha)|]. split; [exact H1|exact H2].
Qed.

(** * The same programs *)

Definition alike (origin : nat) (t : np_type) (m : memory) (a : option np_array) (b : option eqs_array) : Prop :=
  match a, b with
  | Some a, Some b => np_dtype a = t /\ shown origin m a b
  | None, None => True
  | _, _ => False
  end.

Lemma alike_live origin t m arrays arrays' i : Forall2 (alike origin t m) arrays arrays' ->
  match live arrays i, live arrays' i with
  | Some a, Some b => np_dtype a = t /\ shown origin m a b
  | None, None => True
  | _, _ => False
  end.
Proof.
  intros H. revert i. unfold live. induction H as [|a b l l' Hab H IH]; intros [|i]; cbn [nth_error]; try exact I; [|apply IH].
  destruct a, b; cbn in Hab; try contradiction; try exact I. exact Hab.
Qed.

Lemma alike_set origin t m arrays arrays' i a b : Forall2 (alike origin t m) arrays arrays' -> alike origin t m a b ->
  Forall2 (alike origin t m) (set_nth arrays i a) (set_nth arrays' i b).
Proof.
  intros H Hab. revert i. induction H as [|x y l l' Hxy H IH]; intros [|i]; cbn [set_nth]; try constructor; auto.
Qed.

(* the memory of the arrays can change, if their elements do not *)
Lemma alike_memory origin t m m' arrays arrays' : Forall2 (alike origin t m) arrays arrays' ->
  (forall i a, live arrays i = Some a -> np_elements m' a = np_elements m a) -> Forall2 (alike origin t m') arrays arrays'.
Proof.
  intros H. induction H as [|a b l l' Hab H IH]; intros Hm; constructor.
  - destruct a as [a|], b as [b|]; cbn in *; try exact Hab. destruct Hab as (H1 & H2 & H3 & H4).
    split; [exact H1|]. split; [exact H2|]. split; [|exact H4]. rewrite H3. f_equal. symmetry. apply (Hm 0 a). reflexivity.
  - apply IH. intros i c Hc. apply (Hm (S i) c). exact Hc.
Qed.

Lemma alike_write origin t m m' arrays arrays' o a b : Forall2 (alike origin t m) arrays arrays' -> nth_error arrays o = Some (Some a) ->
  alike origin t m' (Some a) b -> (forall j c, j <> o -> live arrays j = Some c -> np_elements m' c = np_elements m c) ->
  Forall2 (alike origin t m') arrays (set_nth arrays' o b).
Proof.
  intros H. revert o. induction H as [|x y l l' Hxy H IH]; intros [|o] Ho Hab Hm; cbn [set_nth nth_error] in *; try discriminate.
  - inversion Ho; subst x. constructor; [exact Hab|]. eapply alike_memory; [exact H|]. intros i c Hc. apply (Hm (S i) c); [lia|exact Hc].
  - constructor.
    + assert (F : Forall2 (alike origin t m') [x] [y]) by (eapply alike_memory; [constructor; [exact Hxy|constructor]|];
        intros [|i] c Hc; [apply (Hm 0 c); [lia|exact Hc]|destruct i; discriminate Hc]).
      inversion F. assumption.
    + apply IH; [exact Ho|exact Hab|]. intros j c Hj Hc. apply (Hm (S j) c); [lia|exact Hc].
Qed.

Lemma call_works {A} b op (body : outcome A) : (forall op, a_callbacks b op = Works) -> call b op body = body.
Proof. intros H. unfold call. destruct (a_kind b); [reflexivity|reflexivity|]. rewrite H. reflexivity. Qed.

Lemma steps_same f origin t n m0 s arrays c :
  follows_numpy f -> apart n m0 s -> Forall2 (alike origin t (np_memory s)) (np_arrays s) arrays -> regular_command n arrays c ->
  snd (numpy_step f s c) = snd (array_step arrays c)
  /\ Forall2 (alike origin t (np_memory (fst (numpy_step f s c)))) (np_arrays (fst (numpy_step f s c))) (fst (array_step arrays c)).
Proof.
  intros Hf Hap H Hc. destruct s as [m l]. cbn [np_memory np_arrays] in *.
  assert (Happ : forall m', Forall2 (alike origin t (m ++ m')) l arrays).
  { intros m'. eapply alike_memory; [exact H|]. intros i a Hi. apply elements_app. exact (ap_memory _ _ _ Hap i a Hi). }
  destruct c as [i|i|i shape|i|i|i shape|i x y|o i samples start stop]; cbn [numpy_step array_step np_memory np_arrays];
    try (pose proof (alike_live _ _ _ _ _ i H) as Hi; destruct (live l i) as [a|] eqn:Ea, (live arrays i) as [b|] eqn:Eb; try contradiction;
         [destruct Hi as (Ht & Hk & Hnd & Hcb)|cbn [fst snd np_memory np_arrays]; split; [reflexivity|exact H]]).
  - unfold array_shape. rewrite call_works by exact Hcb. rewrite Hnd. split; [reflexivity|exact H].
  - unfold array_data, array_shape. rewrite !call_works by exact Hcb. cbn [bind]. rewrite Hk, Hnd. split; [reflexivity|exact H].
  - unfold array_create. rewrite Hk, call_works by exact Hcb. cbn [fst snd np_create np_new np_memory np_arrays]. split; [reflexivity|].
    apply Forall2_app; [apply Happ|]. constructor; [|constructor].
    pose proof (new_elements m shape (np_dtype a) (repeat 0%Z (prod shape)) (repeat_length _ _)) as E. cbn [np_new fst snd] in E.
    split; [exact Ht|]. split; [exact Hk|]. split; [|exact Hcb]. rewrite E. reflexivity.
  - unfold array_clone. rewrite Hk, Hcb. cbn [fst snd np_copy np_new np_memory np_arrays]. split; [reflexivity|].
    apply Forall2_app; [apply Happ|]. constructor; [|constructor].
    pose proof (new_elements m (np_shape a) (np_dtype a) _ (elements_length m a)) as E. cbn [np_new fst snd] in E.
    split; [exact Ht|]. split; [exact Hk|]. split; [|exact Hcb]. rewrite E. exact Hnd.
  - cbn [fst snd np_memory np_arrays]. split; [reflexivity|]. apply alike_set; [exact H|exact I].
  - unfold array_reshape. rewrite Hk, call_works by exact Hcb. unfold nd_to_shape. rewrite Hnd. cbn [nd_data]. rewrite elements_length.
    unfold np_reshape. destruct (prod shape =? prod (np_shape a)) eqn:Ep.
    2:{ cbn [fst snd np_memory np_arrays]. split; [reflexivity|]. rewrite set_nth_same by exact Eb. exact H. }
    apply Nat.eqb_eq in Ep. destruct (np_view f (np_shape a) (np_strides a) shape) as [strides|] eqn:Ev; cbn [fst snd np_new np_memory np_arrays].
    + destruct (view_ok f m a shape strides Hf (ap_memory _ _ _ Hap i a Ea) Ep Ev) as (V1 & V2 & V3).
      split; [reflexivity|]. apply alike_set; [exact H|]. split; [exact Ht|]. split; [exact Hk|]. split; [|exact Hcb].
      cbn [with_nd a_nd np_shape]. rewrite V2. reflexivity.
    + split; [reflexivity|]. apply alike_set; [apply Happ|].
      pose proof (new_elements m shape (np_dtype a) (np_elements m a)) as E. rewrite elements_length in E. specialize (E (eq_sym Ep)).
      cbn [np_new fst snd] in E. split; [exact Ht|]. split; [exact Hk|]. split; [|exact Hcb]. cbn [with_nd a_nd np_shape]. rewrite E. reflexivity.
  - unfold array_swap_axes. rewrite Hk, call_works, Hnd by exact Hcb. destruct (np_swap_axes a x y) as [a'|] eqn:Es.
    + destruct (swap_ok m a x y a' (ap_memory _ _ _ Hap i a Ea) Es) as (_ & _ & V1 & V2 & V3 & V4 & V5). rewrite V4. cbn [fst snd np_memory np_arrays].
      split; [reflexivity|]. apply alike_set; [exact H|]. split; [congruence|]. split; [exact Hk|]. split; [reflexivity|exact Hcb].
    + unfold np_swap_axes in Es. unfold nd_swap_axes. cbn [nd_shape]. destruct (_ && _); [discriminate|]. cbn [fst snd np_memory np_arrays].
      split; [reflexivity|]. rewrite set_nth_same by exact Eb. exact H.
  - destruct (Nat.eqb_spec o i) as [|Hoi]; [split; [reflexivity|exact H]|].
    pose proof (alike_live _ _ _ _ _ o H) as Ho. pose proof (alike_live _ _ _ _ _ i H) as Hi.
    destruct (live l o) as [output|] eqn:Eo, (live arrays o) as [output'|] eqn:Eo'; try contradiction;
      [|split; [reflexivity|exact H]].
    destruct (live l i) as [input|] eqn:Ei, (live arrays i) as [input'|] eqn:Ei'; try contradiction;
      [|split; [reflexivity|exact H]].
    destruct Ho as (Hto & Hko & Hno & Hco), Hi as (Hti & Hki & Hni & Hci). destruct Hc as [Hn Hc].
    specialize (Hc _ _ Eo' Ei'). unfold shape_of in Hc. rewrite Hni, Hno in Hc. cbn [nd_shape] in Hc.
    destruct (ap_new _ _ _ Hap o output Hn Eo) as (Hel & _ & Hothers).
    pose proof (move_same f m input output samples start stop Hf (ap_memory _ _ _ Hap i input Ei) (ap_memory _ _ _ Hap o output Eo)
      ltac:(congruence) Hel Hc) as E.
    unfold array_move_samples_from. rewrite Hko, Hki, Nat.eqb_refl, call_works, Hni, Hno, E by exact Hco.
    destruct (np_move_samples f m input output samples start stop) as [m'|] eqn:Em; cbn [option_map fst snd np_memory np_arrays].
    + split; [reflexivity|]. apply move_only_output in Em as (b' & -> & _).
      assert (Hl : nth_error l o = Some (Some output)).
      { unfold live in Eo. destruct (nth_error l o) as [[x|]|]; try discriminate. congruence. }
      eapply alike_write; [exact H|exact Hl| |].
      * split; [exact Hto|]. split; [exact Hko|]. split; [reflexivity|exact Hco].
      * intros j c Hj Hc'. apply elements_set. exact (Hothers j c Hj Hc').
    + split; [reflexivity|]. apply alike_set; [exact H|exact I].
Qed.

(* C85 *)
Lemma programs_same f origin t p : forall n m0 s arrays,
  follows_numpy f -> apart n m0 s -> Forall2 (alike origin t (np_memory s)) (np_arrays s) arrays -> regular n p arrays ->
  run (numpy_step f) p s = run array_step p arrays.
Proof.
  induction p as [|c next IH]; intros n m0 s arrays Hf Hap H Hr; [reflexivity|]. destruct Hr as [Hc Hr]. cbn [run].
  destruct (steps_same f origin t n m0 s arrays c Hf Hap H Hc) as [E H'].
  assert (Hap' : apart n m0 (fst (numpy_step f s c))).
  { apply apart_step; [exact Hf|exact Hap|]. destruct c; try exact I. exact (proj1 Hc). }
  destruct (numpy_step f s c) as [s' r], (array_step arrays c) as [arrays' r']. cbn [fst snd] in *. subst r'.
  f_equal. exact (IH r n m0 s' arrays' Hf Hap' H' Hr).
Qed.

Lemma same_as_numpy f origin t m arrays arrays' p :
  follows_numpy f -> Forall (fun a => in_memory m a /\ np_dtype a = t) arrays -> Forall2 (shown origin m) arrays arrays' ->
  regular (length arrays) p (map Some arrays') ->
  run (numpy_step f) p (mk_np_state m (map Some arrays)) = run array_step p (map Some arrays').
Proof.
  intros Hf Hm Hs Hr. eapply programs_same; [exact Hf|apply apart_start| |exact Hr].
  - eapply Forall_impl; [|exact Hm]. intros a [Ha _]. exact Ha.
  - cbn [np_memory np_arrays]. clear Hr. induction Hs as [|a b l l' Hab Hs IH]; cbn; constructor; inversion Hm; subst; [|auto].
    split; [|exact Hab]. match goal with K : _ /\ _ |- _ => exact (proj2 K) end.
Qed.

(** * What the library reads *)

Lemma contiguous_snoc l n s : forall e, np_contiguous_loop (l ++ [(n, s)]) e
  = np_contiguous_loop l e && ((n =? 1) || (s =? e * Z.of_nat (prod (map fst l)))%Z).
Proof.
  induction l as [|[n' s'] l IH]; intros e; cbn [app np_contiguous_loop map fst prod fold_right].
  - change (prod []) with 1. replace (e * Z.of_nat 1)%Z with e by lia. destruct (n =? 1), (s =? e)%Z; reflexivity.
  - rewrite !IH. change (prod (n' :: map fst l)) with (n' * prod (map fst l)).
    destruct (Nat.eqb_spec n' 1) as [->|].
    + rewrite Nat.mul_1_l. reflexivity.
    + destruct (s' =? e)%Z; [|reflexivity]. rewrite Nat2Z.inj_mul, Z.mul_assoc. reflexivity.
Qed.

Lemma prod_rev l : prod (rev l) = prod l.
Proof.
  induction l as [|n l IH]; [reflexivity|]. cbn [rev]. rewrite prod_app, IH. change (prod (n :: l)) with (n * prod l). change (prod [n]) with (n * 1). lia.
Qed.

Lemma contiguous_cons n s shape strides : length strides = length shape ->
  np_contiguous_loop (rev (combine (n :: shape) (s :: strides))) 1
  = np_contiguous_loop (rev (combine shape strides)) 1 && ((n =? 1) || (s =? Z.of_nat (prod shape))%Z).
Proof.
  intros Hl. cbn [combine rev]. rewrite contiguous_snoc, map_rev, prod_rev, Z.mul_1_l.
  assert (E : map fst (combine shape strides) = shape).
  { revert strides Hl. induction shape as [|x shape IH]; intros [|y strides] Hl; cbn in *; try discriminate; [reflexivity|]. rewrite IH; congruence. }
  rewrite E. reflexivity.
Qed.

Lemma zero_shape shape idx : existsb (Nat.eqb 0) shape = true -> ~ in_bounds shape idx.
Proof.
  intros H Hb. induction Hb as [|n i shape idx Hi Hb IH]; cbn in H; [discriminate|]. apply orb_prop in H as [H|H]; [destruct n; [lia|discriminate]|auto].
Qed.

Lemma zeros_in_bounds shape : existsb (Nat.eqb 0) shape = false -> in_bounds shape (repeat 0 (length shape)).
Proof.
  induction shape as [|n shape IH]; cbn; intros H; [constructor|]. apply orb_false_elim in H as [H1 H2].
  constructor; [|apply IH; exact H2]. destruct n; [discriminate|lia].
Qed.

Lemma distance_zeros strides n : np_distance strides (repeat 0 n) = 0%Z.
Proof. revert strides. induction n as [|n IH]; intros [|s strides]; cbn; try reflexivity. rewrite IH. lia. Qed.

Lemma ravel_zeros shape n : ravel shape (repeat 0 n) = 0.
Proof. revert shape. induction n as [|n IH]; intros [|s shape]; cbn; try reflexivity. apply IH. Qed.

Lemma contiguous_distance shape : forall strides, length strides = length shape -> existsb (Nat.eqb 0) shape = false ->
  (np_contiguous_loop (rev (combine shape strides)) 1 = true
   <-> forall idx, in_bounds shape idx -> np_distance strides idx = Z.of_nat (ravel shape idx)).
Proof.
  induction shape as [|n shape IH]; intros [|s strides] Hl Hz; cbn [length] in Hl; try discriminate.
  - split; [|reflexivity]. intros _ idx Hb. inversion Hb. reflexivity.
  - cbn [existsb] in Hz. apply orb_false_elim in Hz as [Hn Hz]. rewrite contiguous_cons by lia. specialize (IH strides ltac:(lia) Hz).
    rewrite andb_true_iff, IH, orb_true_iff, Nat.eqb_eq, Z.eqb_eq. split.
    + intros [H Hs] idx Hb. inversion Hb as [|? i ? idx' Hi Hb']; subst. cbn [np_distance ravel]. rewrite (H idx' Hb').
      destruct Hs as [->| ->]; [replace i with 0 by lia|]; lia.
    + intros H. split.
      * intros idx Hb. specialize (H (0 :: idx)). cbn [np_distance ravel] in H. rewrite <- (Nat.add_0_l (ravel shape idx)), <- (Nat.mul_0_l (prod shape)), <- H; [lia|].
        constructor; [destruct n; [discriminate|lia]|exact Hb].
      * destruct (Nat.eq_dec n 1) as [|Hn1]; [left; assumption|right].
        specialize (H (1 :: repeat 0 (length shape))). cbn [np_distance ravel] in H. rewrite distance_zeros, ravel_zeros in H.
        rewrite Z.mul_1_l, Z.add_0_r in H. rewrite H; [lia|]. constructor; [destruct n; [discriminate|lia]|apply zeros_in_bounds; exact Hz].
Qed.

Lemma contiguous_iff a : length (np_strides a) = length (np_shape a) -> np_c_contiguous a = true <-> one_after_the_other a.
Proof.
  intros Hl. unfold np_c_contiguous, one_after_the_other. destruct (existsb (Nat.eqb 0) (np_shape a)) eqn:Hz; cbn [orb].
  - split; [|reflexivity]. intros _ idx Hb. exfalso. eapply zero_shape; eassumption.
  - rewrite contiguous_distance by assumption. split; intros H idx Hb; specialize (H idx Hb); [unfold np_position; rewrite H, offset_ravel by exact Hb; reflexivity|].
    unfold np_position in H. rewrite offset_ravel in H by exact Hb. lia.
Qed.

Lemma nth_error_seq_0 n k : k < n -> nth_error (seq 0 n) k = Some k.
Proof. intros H. rewrite (nth_error_nth' _ 0) by (rewrite seq_length; exact H). rewrite seq_nth by exact H. reflexivity. Qed.

Lemma nth_firstn_lt {A} (d : A) n k l : k < n -> nth k (firstn n l) d = nth k l d.
Proof. revert k l. induction n as [|n IH]; intros [|k] [|x l] H; cbn; try lia; try reflexivity. apply IH. lia. Qed.

Lemma nth_skipn_any {A} (d : A) n k l : nth k (skipn n l) d = nth (n + k) l d.
Proof. revert l. induction n as [|n IH]; intros [|x l]; cbn; try reflexivity; [destruct k; reflexivity|apply IH]. Qed.

Lemma index_at shape k : k < prod shape -> exists idx, in_bounds shape idx /\ ravel shape idx = k.
Proof.
  intros H. destruct (nth_error (all_indices shape) k) as [idx|] eqn:E.
  2:{ apply nth_error_None in E. rewrite all_indices_length in E. lia. }
  exists idx. split; [apply all_indices_In; eapply nth_error_In; exact E|].
  pose proof (all_in_order shape (map Z.of_nat (seq 0 (prod shape)))) as G. rewrite map_length, seq_length in G. specialize (G eq_refl).
  apply (f_equal (fun l => nth_error l k)) in G. rewrite !nth_error_map, E in G. cbn [option_map] in G.
  assert (Hb : in_bounds shape idx) by (apply all_indices_In; eapply nth_error_In; exact E).
  rewrite nth_error_seq_0 in G by exact H. cbn [option_map] in G.
  assert (G' : nth_error (map Z.of_nat (seq 0 (prod shape))) (ravel shape idx) = Some (Z.of_nat (ravel shape idx)))
    by (rewrite nth_error_map, nth_error_seq_0 by (apply ravel_lt; exact Hb); reflexivity).
  rewrite (nth_error_nth _ _ 0%Z G') in G. inversion G. lia.
Qed.

Lemma readable m a : in_memory m a -> forall data,
  np_data m a = Some data <-> np_dtype a = Float64 /\ one_after_the_other a /\ data = np_elements m a.
Proof.
  intros (Hl & b & Hb & Hin) data. unfold np_data. pose proof (contiguous_iff a Hl) as Hc.
  assert (E : one_after_the_other a -> firstn (prod (np_shape a)) (skipn (Z.to_nat (np_offset a)) (nth (np_buffer a) m [])) = np_elements m a).
  { intros H. destruct (Nat.eq_dec (prod (np_shape a)) 0) as [E0|E0].
    - rewrite E0. symmetry. apply length_zero_iff_nil. rewrite elements_length. exact E0.
    - rewrite (nth_error_nth _ _ [] Hb).
      destruct (index_at (np_shape a) 0) as (i0 & B0 & R0); [lia|].
      destruct (index_at (np_shape a) (prod (np_shape a) - 1)) as (i1 & B1 & R1); [lia|].
      pose proof (Hin i0 B0) as P0. pose proof (Hin i1 B1) as P1. rewrite (H i0 B0), offset_ravel, R0 in P0 by exact B0.
      rewrite (H i1 B1), offset_ravel, R1 in P1 by exact B1.
      set (l := firstn _ _). assert (Ll : length l = prod (np_shape a)) by (unfold l; rewrite firstn_length, skipn_length; lia).
      rewrite <- (all_in_order (np_shape a) l Ll). unfold np_elements. apply map_ext_in. intros idx Hi. apply all_indices_In in Hi.
      unfold np_get. rewrite (nth_error_nth _ _ [] Hb), (H idx Hi), offset_ravel by exact Hi. pose proof (ravel_lt _ _ Hi) as Hr.
      unfold l. rewrite nth_firstn_lt, nth_skipn_any by exact Hr. f_equal. lia. }
  destruct (np_c_contiguous a); cbn [andb].
  - pose proof (proj1 Hc eq_refl) as H. rewrite (E H). destruct (np_dtype a); cbn [np_type_eqb]; split; try discriminate.
    + intros E'. inversion E'. auto.
    + intros (_ & _ & ->). reflexivity.
    + intros (E' & _). discriminate.
  - split; [discriminate|]. intros (_ & H & _). apply Hc in H. discriminate.
Qed.

(** * Arrays which can be read *)

Definition in_order (a : np_array) : Prop := np_offset a = 0%Z /\ np_strides a = map Z.of_nat (row_major_strides (np_shape a)).

Lemma in_order_one_after a : in_order a -> one_after_the_other a.
Proof.
  intros [Ho Hs] idx Hb. unfold np_position. rewrite Ho, Hs, distance_row_major, offset_ravel by exact Hb. reflexivity.
Qed.

Lemma in_order_step f n m0 s c : apart n m0 s -> only_moved n c ->
  (forall i a, n <= i -> live (np_arrays s) i = Some a -> in_order a) ->
  forall i a, n <= i -> live (np_arrays (fst (numpy_step f s c))) i = Some a -> in_order a.
Proof.
  intros Hap Hc H j b Hj. pose proof (ap_length _ _ _ Hap) as Hlen.
  destruct c as [i|i|i shape|i|i|i shape|i x y|o i samples start stop]; cbn [numpy_step fst only_moved] in *; try (apply H; exact Hj).
  - destruct (live (np_arrays s) i) as [a|]; [|apply H; exact Hj]. cbn [np_create np_new fst np_arrays].
    intros Hb. apply live_snoc in Hb as [[_ Hb]|[_ ->]]; [exact (H j b Hj Hb)|split; reflexivity].
  - destruct (live (np_arrays s) i) as [a|]; [|apply H; exact Hj]. cbn [np_copy np_new fst np_arrays].
    intros Hb. apply live_snoc in Hb as [[_ Hb]|[_ ->]]; [exact (H j b Hj Hb)|split; reflexivity].
  - destruct (live (np_arrays s) i) as [a|]; [|apply H; exact Hj]. cbn [fst np_arrays]. rewrite live_set.
    destruct (_ && _); [discriminate|apply H; exact Hj].
  - destruct (live (np_arrays s) i) as [a|]; [|apply H; exact Hj].
    destruct (np_reshape f (np_memory s) a shape) as [[m a']|]; cbn [fst np_arrays]; [|apply H; exact Hj]. rewrite live_set.
    destruct (Nat.eqb_spec j i); [lia|]. apply H. exact Hj.
  - destruct (live (np_arrays s) i) as [a|]; [|apply H; exact Hj].
    destruct (np_swap_axes a x y) as [a'|]; cbn [fst np_arrays]; [|apply H; exact Hj]. rewrite live_set.
    destruct (Nat.eqb_spec j i); [lia|]. apply H. exact Hj.
  - destruct (o =? i); [apply H; exact Hj|]. destruct (live (np_arrays s) o) as [output|] eqn:Eo; [|apply H; exact Hj].
    destruct (live (np_arrays s) i) as [input|]; [|apply H; exact Hj].
    destruct (np_move_samples f (np_memory s) input output samples start stop); cbn [fst np_arrays]; [apply H; exact Hj|].
    rewrite live_set. destruct (_ && _); [discriminate|apply H; exact Hj].
Qed.

Lemma in_order_run f n m0 commands : forall s, follows_numpy f -> apart n m0 s -> Forall (only_moved n) commands ->
  (forall i a, n <= i -> live (np_arrays s) i = Some a -> in_order a) ->
  forall i a, n <= i -> live (np_arrays (numpy_run f s commands)) i = Some a -> in_order a.
Proof.
  induction commands as [|c commands IH]; intros s Hf Hap Hc H; [exact H|]. inversion Hc as [|? ? Hc1 Hc2]; subst. cbn.
  apply IH; [exact Hf| |exact Hc2|eapply in_order_step; eassumption].
  apply apart_step; [exact Hf|exact Hap|]. destruct c; try exact I. exact Hc1.
Qed.

(* C87 *)
Lemma created_readable f m arrays commands i a :
  follows_numpy f -> Forall (in_memory m) arrays -> Forall (only_moved (length arrays)) commands ->
  let s := numpy_run f (mk_np_state m (map Some arrays)) commands in
  length arrays <= i -> live (np_arrays s) i = Some a -> np_dtype a = Float64 ->
  np_data (np_memory s) a = Some (np_elements (np_memory s) a).
Proof.
  intros Hf Hm Hc s Hi Ha Ht. pose proof (apart_start m arrays Hm) as Hap.
  assert (Hmem : in_memory (np_memory s) a).
  { refine (ap_memory _ _ _ (apart_run f (length arrays) m commands _ Hf Hap _) i a Ha).
    eapply Forall_impl; [|exact Hc]. intros c. destruct c; cbn; auto. }
  apply (readable _ _ Hmem). split; [exact Ht|]. split; [|reflexivity]. apply in_order_one_after.
  eapply (in_order_run f (length arrays) m commands); [exact Hf|exact Hap|exact Hc| |exact Hi|exact Ha].
  intros j b Hj Hb. apply live_lt in Hb. cbn [np_arrays] in Hb. rewrite map_length in Hb. lia.
Qed.
