(* The layout of an array after swapping any two axes and merging the last two ones, as in
   components_to_properties *)
From Coq Require Import Permutation.
From Verif Require Import Base BaseFacts Layout LayoutFacts SwapLayoutFacts.
Local Open Scope list_scope.
Local Open Scope nat_scope.

(** * When reshape_dim_c finds strides *)

(* the next axis with several elements follows the stride [s] *)
Fixpoint follows (s : nat) (axes : list (nat * nat)) : Prop :=
  match axes with
  | [] => True
  | (n, s') :: axes' => if n =? 1 then follows s axes' else s = n * s'
  end.

(* axes which do not follow each other are separated in the new shape *)
Fixpoint fits (cuts : nat -> Prop) (acc : nat) (axes : list (nat * nat)) : Prop :=
  match axes with
  | [] => True
  | (n, s) :: axes' => (n = 1 \/ follows s axes' \/ cuts (acc * n)) /\ fits cuts (acc * n) axes'
  end.

Definition cut_of (shape : list nat) (x : nat) : Prop := exists k, prod (firstn k shape) = x.

Lemma fits_suffix cuts a : forall acc b, fits cuts acc (a ++ b) -> fits cuts (acc * prod (map fst a)) b.
Proof.
  induction a as [|[n s] a IH]; intros acc b; cbn [app fits map fst prod].
  - rewrite Nat.mul_1_r. auto.
  - intros [_ H]. rewrite Nat.mul_assoc. apply IH. exact H.
Qed.

Lemma prod_firstn_le k l : Forall (fun n => 0 < n) l -> prod (firstn k l) <= prod l.
Proof.
  intros H. rewrite <- (firstn_skipn k l) in H |- * at 2. apply Forall_app in H as [_ H]. rewrite prod_app.
  pose proof (prod_pos _ H). nia.
Qed.

Lemma no_cut_between used td to x : Forall (fun n => 0 < n) (used ++ td :: to) ->
  prod used < x -> x < prod (used ++ [td]) -> ~ cut_of (used ++ td :: to) x.
Proof.
  intros Hf H1 H2 [k <-]. rewrite firstn_app in H1, H2.
  apply Forall_app in Hf as [Hu Ht].
  destruct (le_lt_dec k (length used)) as [Hk|Hk].
  - replace (k - length used) with 0 in H1 by lia. cbn [firstn] in H1. rewrite app_nil_r in H1.
    pose proof (prod_firstn_le k used Hu). lia.
  - rewrite firstn_all2 in H2 by lia. destruct (k - length used) as [|k'] eqn:E; [lia|]. cbn [firstn] in H2.
    rewrite !prod_app in H2. cbn [prod] in H2. apply Forall_inv_tail in Ht.
    assert (0 < prod (firstn k' to)).
    { apply prod_pos. rewrite <- (firstn_skipn k' to) in Ht. apply Forall_app in Ht. apply Ht. }
    nia.
Qed.

Lemma combine_axes_complete shape fuel : forall fs fd whole td tp from to used0 acc,
  shape = used0 ++ td :: to -> prod used0 * td = acc * tp -> prod used0 < acc * fd -> 0 < acc -> 0 < fd ->
  Forall (fun n => 0 < n) shape -> Forall (fun n => 0 < n) (map fst from) ->
  (follows fs from \/ cut_of shape (acc * fd)) -> fits (cut_of shape) (acc * fd) from ->
  combine_axes fuel fs fd whole td tp from to <> inr IncompatibleLayout.
Proof.
  induction fuel as [|fuel IH]; intros fs fd whole td tp from to used0 acc Es Ep Hlt Hacc Hfd Hs Hf Hj Hfit;
    cbn [combine_axes]; [discriminate|].
  destruct (fd =? tp) eqn:E; [discriminate|]. apply Nat.eqb_neq in E.
  destruct (fd <? tp) eqn:E2.
  - apply Nat.ltb_lt in E2. destruct from as [|[f s] from1]; [discriminate|].
    cbn [map fst] in Hf. pose proof (Forall_inv Hf) as Hf0; pose proof (Forall_inv_tail Hf) as Hf1; cbv beta in Hf0.
    cbn [fits] in Hfit. destruct Hfit as [Hn Hfit]. cbn [follows] in Hj.
    destruct (1 <? f) eqn:E1.
    + apply Nat.ltb_lt in E1. replace (f =? 1) with false in Hj by (symmetry; apply Nat.eqb_neq; lia).
      destruct (fs =? f * s) eqn:E3.
      * apply (IH s (fd * f) whole td tp from1 to used0 acc); try assumption; try nia.
        -- rewrite Nat.mul_assoc. destruct Hn as [Hn|Hn]; [lia|exact Hn].
        -- rewrite Nat.mul_assoc. exact Hfit.
      * apply Nat.eqb_neq in E3. exfalso. destruct Hj as [Hj|Hj]; [contradiction|].
        rewrite Es in Hj, Hs. eapply (no_cut_between used0 td to (acc * fd)); try eassumption.
        rewrite prod_app. cbn [prod]. nia.
    + apply Nat.ltb_ge in E1. assert (f = 1) by lia. subst f. cbn [Nat.eqb] in Hj.
      apply (IH fs (fd * 1) whole td tp from1 to used0 acc); try assumption; try nia.
      * rewrite Nat.mul_1_r. exact Hj.
      * rewrite Nat.mul_1_r in Hfit |- *. exact Hfit.
  - apply Nat.ltb_ge in E2. destruct to as [|t to1]; [discriminate|].
    pose proof (IH fs fd (whole / td) t (tp * t) from to1 (used0 ++ [td]) acc) as G.
    assert (G' : combine_axes fuel fs fd (whole / td) t (tp * t) from to1 <> inr IncompatibleLayout).
    { apply G; try assumption.
      - rewrite <- app_assoc. exact Es.
      - rewrite prod_app. cbn [prod]. nia.
      - rewrite prod_app. cbn [prod]. nia. }
    destruct (combine_axes fuel fs fd (whole / td) t (tp * t) from to1) as [[[str f1] t1]|e]; [discriminate|].
    intros X. apply G'. inversion X. reflexivity.
Qed.

Lemma reshape_dim_c_complete shape fuel : forall from to used,
  shape = used ++ to -> Forall (fun n => 0 < n) shape -> Forall (fun n => 0 < n) (map fst from) ->
  fits (cut_of shape) (prod used) from ->
  reshape_dim_c fuel from to <> inr IncompatibleLayout.
Proof.
  induction fuel as [|fuel IH]; intros from to used Es Hs Hf Hfit.
  - destruct from as [|[fd fs] from]; cbn [reshape_dim_c]; [destruct (_ && _); discriminate|].
    destruct to; [destruct (_ && _); discriminate|discriminate].
  - destruct from as [|[fd fs] from]; cbn [reshape_dim_c]; [destruct (_ && _); discriminate|].
    destruct to as [|td to]; [destruct (_ && _); discriminate|].
    cbn [map fst] in Hf. pose proof (Forall_inv Hf) as Hf0; pose proof (Forall_inv_tail Hf) as Hf1; cbv beta in Hf0.
    assert (Hu : 0 < prod used) by (apply prod_pos; rewrite Es in Hs; apply Forall_app in Hs; apply Hs).
    assert (Ht0 : 0 < td) by (rewrite Es in Hs; apply Forall_app in Hs as [_ Hs]; exact (Forall_inv Hs)).
    pose proof Hfit as Hfit0. cbn [fits] in Hfit. destruct Hfit as [Hn Hfit].
    destruct (fd =? td) eqn:E1.
    { apply Nat.eqb_eq in E1. subst td.
      pose proof (IH from to (used ++ [fd])) as G. rewrite <- app_assoc, prod_app in G. cbn [app prod] in G. rewrite Nat.mul_1_r in G.
      specialize (G Es Hs Hf1 Hfit). destruct (reshape_dim_c fuel from to); [discriminate|]. intros X. apply G. inversion X. reflexivity. }
    destruct (fd =? 1) eqn:E2.
    { apply Nat.eqb_eq in E2. subst fd. rewrite Nat.mul_1_r in Hfit. apply (IH from (td :: to) used); assumption. }
    destruct (td =? 1) eqn:E3.
    { apply Nat.eqb_eq in E3. subst td.
      pose proof (IH ((fd, fs) :: from) to (used ++ [1])) as G. rewrite <- app_assoc, prod_app in G. cbn [app prod] in G. rewrite !Nat.mul_1_r in G.
      specialize (G Es Hs Hf Hfit0). destruct (reshape_dim_c fuel ((fd, fs) :: from) to); [discriminate|]. intros X. apply G. inversion X. reflexivity. }
    destruct ((fd =? 0) || (td =? 0)); [discriminate|]. apply Nat.eqb_neq in E1, E2, E3.
    assert (Ht1 : Forall (fun n => 0 < n) to).
    { rewrite Es in Hs. apply Forall_app in Hs as [_ Hs]. exact (Forall_inv_tail Hs). }
    pose proof (combine_axes_complete shape (S fuel) fs fd (fs * fd) td td from to used (prod used) Es eq_refl) as G.
    assert (G' : combine_axes (S fuel) fs fd (fs * fd) td td from to <> inr IncompatibleLayout).
    { apply G; try assumption; try nia. destruct Hn as [Hn|Hn]; [lia|exact Hn]. }
    clear G. destruct (combine_axes (S fuel) fs fd (fs * fd) td td from to) as [[[str f1] t1]|e] eqn:E.
    + apply (combine_axes_sound _ _ _ _ _ _ _ _ 1 (fs * fd)) in E; try assumption; try lia;
        try (rewrite Nat.div_1_r; reflexivity).
      destruct E as (uf & ut & s & -> & -> & _ & E7 & _).
      rewrite map_app in Hf1. apply Forall_app in Hf1 as [_ Hf1].
      apply fits_suffix in Hfit.
      pose proof (IH f1 t1 (used ++ td :: ut)) as G. rewrite <- app_assoc in G. cbn [app] in G.
      rewrite prod_app in G. cbn [prod] in G. rewrite <- E7, Nat.mul_assoc in G. specialize (G Es Hs Hf1 Hfit).
      destruct (reshape_dim_c fuel f1 t1); [discriminate|]. intros X. apply G. inversion X. reflexivity.
    + intros X. apply G'. inversion X. reflexivity.
Qed.

Lemma reshape_fits shape strides shape' : length strides = length shape ->
  Forall (fun n => 0 < n) shape -> Forall (fun n => 0 < n) shape' -> prod shape = prod shape' ->
  fits (cut_of shape') 1 (combine shape strides) ->
  exists view, reshape_dim shape strides shape' = inl view.
Proof.
  intros Hl Hs Hs' Ep Hfit. unfold reshape_dim.
  pose proof (reshape_dim_c_complete shape' (length shape + length shape') (combine shape strides) shape' [] eq_refl Hs') as G1.
  pose proof (reshape_dim_c_shape (length shape + length shape') (combine shape strides) shape') as G2.
  rewrite combine_fst in G1, G2 by exact Hl. specialize (G1 Hs Hfit).
  assert (length (combine shape strides) = length shape) by (rewrite combine_length, Hl; apply Nat.min_id).
  specialize (G2 ltac:(lia) Hs Hs' Ep).
  destruct (reshape_dim_c _ _ _) as [view|[|]]; [exists view; reflexivity|contradiction|contradiction].
Qed.

(* axes which follow each other *)
Lemma layout_app a : forall b c, layout_c_loop (a ++ b) c = true ->
  layout_c_loop a c = true /\ layout_c_loop b (c * prod (map fst a)) = true.
Proof.
  induction a as [|[n s] a IH]; intros b c; cbn [app layout_c_loop map fst prod].
  - rewrite Nat.mul_1_r. auto.
  - destruct (n =? 1) eqn:E.
    + apply Nat.eqb_eq in E. subst n. rewrite Nat.mul_1_l. apply IH.
    + destruct (s =? c); [|discriminate]. intros H. apply IH in H. rewrite Nat.mul_assoc. exact H.
Qed.

Lemma prod_rev l : prod (rev l) = prod l.
Proof. induction l as [|n l IH]; [reflexivity|]. cbn [rev]. rewrite prod_app. cbn [prod]. lia. Qed.

Lemma layout_cons n s axes c : layout_c_loop (rev ((n, s) :: axes)) c = true ->
  layout_c_loop (rev axes) c = true /\ (n = 1 \/ s = c * prod (map fst axes)).
Proof.
  cbn [rev]. intros H. apply layout_app in H as [H1 H2]. split; [exact H1|].
  rewrite map_rev, prod_rev in H2. cbn [layout_c_loop] in H2.
  destruct (n =? 1) eqn:E; [left; apply Nat.eqb_eq; exact E|right].
  destruct (Nat.eqb_spec s (c * prod (map fst axes))); [assumption|discriminate].
Qed.

Lemma layout_follows axes : forall c s, layout_c_loop (rev axes) c = true -> s = c * prod (map fst axes) -> follows s axes.
Proof.
  induction axes as [|[n s'] axes IH]; intros c s H E; [exact I|]. apply layout_cons in H as [H1 H2]. cbn [follows].
  cbn [map fst prod] in E. destruct (Nat.eqb_spec n 1) as [->|Hn].
  - apply (IH c); [exact H1|lia].
  - destruct H2 as [H2|H2]; [contradiction|]. rewrite H2, E. lia.
Qed.

Lemma follows_app s a b : existsb several a = true -> (follows s (a ++ b) <-> follows s a).
Proof.
  induction a as [|[n s'] a IH]; cbn [existsb]; [discriminate|]. unfold several at 1. cbn [fst app follows].
  destruct (n =? 1); [exact IH|reflexivity].
Qed.

Lemma ones_prod axes : existsb several axes = false -> prod (map fst axes) = 1.
Proof.
  induction axes as [|[n s] axes IH]; [reflexivity|]. cbn [existsb map fst prod]. unfold several at 1. cbn [fst].
  destruct (Nat.eqb_spec n 1) as [->|]; [|discriminate]. cbn [negb orb]. intros H. rewrite IH by exact H. reflexivity.
Qed.

Lemma segment_fits (cuts : nat -> Prop) axes : forall acc c rest, layout_c_loop (rev axes) c = true ->
  cuts (acc * prod (map fst axes)) -> fits cuts (acc * prod (map fst axes)) rest -> fits cuts acc (axes ++ rest).
Proof.
  induction axes as [|[n s] axes IH]; intros acc c rest H Hc Hr; cbn [app fits map fst prod] in *.
  - rewrite Nat.mul_1_r in Hr. exact Hr.
  - apply layout_cons in H as [H1 H2]. rewrite Nat.mul_assoc in Hc, Hr. split; [|apply (IH _ c); assumption].
    destruct H2 as [H2|H2]; [left; exact H2|right]. destruct (existsb several axes) eqn:E.
    + left. apply follows_app; [exact E|]. apply (layout_follows _ c); assumption.
    + right. rewrite (ones_prod _ E), Nat.mul_1_r in Hc. exact Hc.
Qed.

(** * Arrays without gaps *)

Lemma shifted_comm l1 l2 : Permutation (shifted l1 l2) (shifted l2 l1).
Proof.
  revert l2. induction l1 as [|x l1 IH]; intros l2.
  - change (shifted [] l2) with (@nil nat). induction l2 as [|y l2 IH2]; [constructor|]. exact IH2.
  - change (shifted (x :: l1) l2) with (map (Nat.add x) l2 ++ shifted l1 l2).
    rewrite (IH l2). clear IH. induction l2 as [|y l2 IH2]; [constructor|].
    change (shifted (y :: l2) l1) with (map (Nat.add y) l1 ++ shifted l2 l1).
    change (shifted (y :: l2) (x :: l1)) with ((y + x) :: map (Nat.add y) l1 ++ shifted l2 (x :: l1)).
    cbn [map app]. rewrite (Nat.add_comm y x). apply perm_skip.
    rewrite app_assoc, (Permutation_app_comm (map (Nat.add x) l2)), <- app_assoc. apply Permutation_app_head. exact IH2.
Qed.

Lemma shifted_perm a a' b b' : Permutation a a' -> Permutation b b' -> Permutation (shifted a b) (shifted a' b').
Proof.
  intros Ha Hb. transitivity (shifted a b').
  - clear Ha. induction a as [|x a IH]; [constructor|].
    change (Permutation (map (Nat.add x) b ++ shifted a b) (map (Nat.add x) b' ++ shifted a b')).
    apply Permutation_app; [apply Permutation_map; exact Hb|exact IH].
  - apply Permutation_flat_map. exact Ha.
Qed.

Lemma offsets_perm axes axes' : Permutation axes axes' -> Permutation (offsets axes) (offsets axes').
Proof.
  induction 1 as [|[n s] l l' H IH|[n s] [n' s'] l|l l' l'' H1 IH1 H2 IH2].
  - reflexivity.
  - rewrite !offsets_cons. apply shifted_perm; [reflexivity|exact IH].
  - rewrite !offsets_cons, <- !shifted_assoc. apply shifted_perm; [apply shifted_comm|reflexivity].
  - etransitivity; eassumption.
Qed.

Lemma insert_perm x l : Permutation (x :: l) (insert_axis x l).
Proof.
  induction l as [|y l IH]; [reflexivity|]. cbn [insert_axis]. destruct (snd x <=? snd y); [reflexivity|].
  rewrite perm_swap. apply perm_skip. exact IH.
Qed.

Lemma order_perm axes : Permutation axes (fastest_varying_order axes).
Proof.
  induction axes as [|x axes IH]; [reflexivity|].
  change (fastest_varying_order (x :: axes)) with (insert_axis x (fastest_varying_order axes)).
  rewrite <- insert_perm. apply perm_skip. exact IH.
Qed.

Lemma filter_offsets axes : offsets (filter several axes) = offsets axes.
Proof.
  induction axes as [|[n s] axes IH]; [reflexivity|]. cbn [filter]. unfold several at 1. cbn [fst].
  destruct (Nat.eqb_spec n 1) as [->|Hn]; cbn [negb].
  - rewrite offsets_cons, steps_1, shifted_0. exact IH.
  - rewrite !offsets_cons, IH. reflexivity.
Qed.

Lemma in_shifted x a b : In x (shifted a b) <-> exists i j, In i a /\ In j b /\ x = i + j.
Proof.
  unfold shifted. rewrite in_flat_map. split.
  - intros (i & Hi & H). apply in_map_iff in H as (j & <- & Hj). eauto.
  - intros (i & j & Hi & Hj & ->). exists i. split; [exact Hi|]. apply in_map. exact Hj.
Qed.

Lemma in_steps x n s : In x (steps n s) <-> exists i, i < n /\ x = i * s.
Proof.
  unfold steps. rewrite in_map_iff. split.
  - intros (i & <- & Hi). apply in_seq in Hi. exists i. split; [lia|reflexivity].
  - intros (i & Hi & ->). exists i. split; [reflexivity|]. apply in_seq. lia.
Qed.

Lemma zero_offset axes : Forall (fun n => 0 < n) (map fst axes) -> In 0 (offsets axes).
Proof.
  induction axes as [|[n s] axes IH]; cbn [map fst]; intros H; [left; reflexivity|].
  rewrite offsets_cons. apply in_shifted. exists 0, 0. split; [apply in_steps; exists 0; split; [exact (Forall_inv H)|reflexivity]|].
  split; [apply IH; exact (Forall_inv_tail H)|reflexivity].
Qed.

Lemma NoDup_shifted_inj a b i j i' j' : NoDup (shifted a b) -> In i a -> In i' a -> In j b -> In j' b ->
  i + j = i' + j' -> NoDup a -> i = i' /\ j = j'.
Proof.
  intros H Hi Hi' Hj Hj' E Ha. induction a as [|x a IH]; [destruct Hi|].
  change (shifted (x :: a) b) with (map (Nat.add x) b ++ shifted a b) in H. inversion Ha; subst.
  assert (Hsep : forall y, In y (map (Nat.add x) b) -> ~ In y (shifted a b)).
  { intros y Hy Hy'. apply in_split in Hy as (l1 & l2 & Es). rewrite Es, <- app_assoc in H. cbn [app] in H.
    apply NoDup_remove_2 in H. apply H. apply in_or_app. right. apply in_or_app. right. exact Hy'. }
  assert (H' : NoDup (shifted a b)).
  { clear -H. induction (map (Nat.add x) b) as [|y l IHl]; [exact H|]. apply IHl. inversion H; assumption. }
  destruct Hi as [<-|Hi], Hi' as [<-|Hi'].
  - split; [reflexivity|lia].
  - exfalso. apply (Hsep (x + j)); [apply in_map; exact Hj|]. apply in_shifted. exists i', j'. auto.
  - exfalso. apply (Hsep (x + j')); [apply in_map; exact Hj'|]. apply in_shifted. exists i, j. auto.
  - apply IH; assumption.
Qed.

Lemma steps_NoDup n s : 0 < s -> NoDup (steps n s).
Proof.
  intros Hs. unfold steps. apply FinFun.Injective_map_NoDup; [|apply seq_NoDup]. intros i j H. nia.
Qed.

(* the positions in the other axes, when those of the first one are contiguous *)
Lemma tiling n c N rest : 0 < c -> 0 < n -> In 0 rest ->
  Permutation (shifted (steps n c) rest) (steps (n * N) c) -> Permutation rest (steps N (n * c)).
Proof.
  intros Hc Hn H0 H.
  assert (Hnd : NoDup (shifted (steps n c) rest)).
  { eapply Permutation_NoDup; [symmetry; exact H|]. apply steps_NoDup. exact Hc. }
  assert (Hin : forall r, In r rest -> exists m, m < n * N /\ r = m * c).
  { intros r Hr. apply in_steps. eapply Permutation_in; [exact H|]. apply in_shifted. exists 0, r.
    split; [apply in_steps; exists 0; split; [exact Hn|reflexivity]|]. split; [exact Hr|reflexivity]. }
  assert (Hmult : forall m, In (m * c) rest -> exists q, m = q * n).
  { intros m. induction (lt_wf m) as [m _ IH]. intros Hm. exists (m / n).
    destruct (Nat.eq_dec (m mod n) 0) as [E|E]; [pose proof (Nat.div_mod m n ltac:(lia)); lia|]. exfalso.
    pose proof (Nat.div_mod m n ltac:(lia)) as Ed. pose proof (Nat.mod_upper_bound m n ltac:(lia)) as Eb.
    set (q := m / n) in *. set (t := m mod n) in *.
    destruct (Hin _ Hm) as (m' & Hm' & Em'). assert (m' = m) by nia. subst m'.
    assert (Hq : In (n * q * c) (shifted (steps n c) rest)).
    { eapply Permutation_in; [symmetry; exact H|]. apply in_steps. exists (n * q). split; [lia|reflexivity]. }
    apply in_shifted in Hq as (i & r & Hi & Hr & E1). apply in_steps in Hi as (i0 & Hi0 & ->).
    destruct (Hin _ Hr) as (mr & _ & ->). assert (E2 : n * q = i0 + mr) by nia.
    destruct (IH mr ltac:(lia) Hr) as [q' Eq']. assert (i0 = 0).
    { assert (i0 = n * (q - q')) by nia. destruct (q - q'); nia. }
    subst i0. assert (mr = n * q) by lia. subst mr.
    destruct (NoDup_shifted_inj (steps n c) rest 0 (m * c) (t * c) ((n * q) * c) Hnd) as [X _]; try assumption.
    - apply in_steps. exists 0. split; [exact Hn|reflexivity].
    - apply in_steps. exists t. split; [exact Eb|reflexivity].
    - rewrite <- H1. exact Hr.
    - rewrite Nat.add_0_l, <- Nat.mul_add_distr_r. f_equal. lia.
    - apply steps_NoDup. exact Hc.
    - destruct t; nia. }
  assert (Hl : length rest = N).
  { apply Permutation_length in H. rewrite shifted_length, !steps_length in H. nia. }
  assert (Hndr : NoDup rest).
  { assert (Hsub : forall a b, a <> [] -> NoDup (shifted a b) -> NoDup b).
    { intros [|x a] b Ha X; [congruence|]. change (shifted (x :: a) b) with (map (Nat.add x) b ++ shifted a b) in X.
      assert (Y : NoDup (map (Nat.add x) b)).
      { clear Ha. induction (map (Nat.add x) b) as [|y l IHl]; [constructor|]. cbn [app] in X. inversion X as [|? ? X1 X2]; subst.
        constructor; [intros Z; apply X1, in_or_app; left; exact Z|apply IHl; exact X2]. }
      apply NoDup_map_inv in Y. exact Y. }
    apply (Hsub (steps n c)); [destruct n; [lia|discriminate]|exact Hnd]. }
  apply NoDup_Permutation_bis; [exact Hndr|rewrite steps_length; lia|].
  intros r Hr. destruct (Hin _ Hr) as (m & Hm & ->). destruct (Hmult _ Hr) as [q ->].
  apply in_steps. exists q. split; [nia|nia].
Qed.

(* sorted axes with several elements *)
Lemma sorted_contiguous axes : forall c, 0 < c -> ascending axes -> Forall (fun a => 2 <= fst a) axes ->
  Permutation (offsets axes) (steps (prod (map fst axes)) c) -> contiguous_loop axes c = true.
Proof.
  induction axes as [|[n s] axes IH]; intros c Hc Ha Hf H; [reflexivity|].
  pose proof (Forall_inv Hf) as Hn. apply Forall_inv_tail in Hf. cbn [fst] in Hn.
  cbn [ascending snd] in Ha. destruct Ha as [Ha1 Ha2]. cbn [contiguous_loop].
  assert (Hpos : Forall (fun m => 0 < m) (map fst axes)).
  { clear -Hf. induction Hf as [|[m s'] l Hm Hf IHf]; cbn [map fst] in *; constructor; [lia|exact IHf]. }
  rewrite offsets_cons in H. cbn [map fst prod] in H. pose proof (prod_pos _ Hpos) as Hp.
  assert (Hs : s = c).
  { (* the position s is reached *)
    assert (Hin : In s (shifted (steps n s) (offsets axes))).
    { apply in_shifted. exists s, 0. split; [apply in_steps; exists 1; lia|]. split; [apply zero_offset; exact Hpos|lia]. }
    pose proof Hin as Hin'. apply (Permutation_in _ H) in Hin'. apply in_steps in Hin' as (m & Hm & Em).
    assert (Hs0 : 0 < s).
    { destruct (Nat.eq_dec s 0) as [->|]; [exfalso|lia].
      assert (Hnd : NoDup (shifted (steps n 0) (offsets axes))) by (eapply Permutation_NoDup; [symmetry; exact H|apply steps_NoDup; exact Hc]).
      destruct n as [|[|n]]; [lia|lia|]. unfold steps in Hnd. cbn [seq map] in Hnd.
      change (shifted (0 * 0 :: 1 * 0 :: map (fun i => i * 0) (seq 2 n)) (offsets axes))
        with (map (Nat.add 0) (offsets axes) ++ map (Nat.add 0) (offsets axes) ++ shifted (map (fun i => i * 0) (seq 2 n)) (offsets axes)) in Hnd.
      rewrite map_add_0 in Hnd. pose proof (zero_offset _ Hpos) as Z. apply in_split in Z as (l1 & l2 & El).
      rewrite El in Hnd. rewrite <- app_assoc in Hnd. cbn [app] in Hnd. apply NoDup_remove_2 in Hnd. apply Hnd.
      apply in_or_app. right. apply in_or_app. right. apply in_or_app. left. apply in_or_app. right. left. reflexivity. }
    (* the position c is reached, and is at least s *)
    assert (Hc1 : In c (shifted (steps n s) (offsets axes))).
    { eapply Permutation_in; [symmetry; exact H|]. apply in_steps. exists 1. split; [nia|lia]. }
    apply in_shifted in Hc1 as (i & j & Hi & Hj & E). apply in_steps in Hi as (i0 & Hi0 & ->).
    assert (Hj0 : j = 0 \/ s <= j).
    { clear -Ha1 Hj. revert j Hj. induction axes as [|[n' s'] axes IH]; intros j Hj.
      - destruct Hj as [<-|[]]. left. reflexivity.
      - rewrite offsets_cons in Hj. apply in_shifted in Hj as (a & b & Ha & Hb & ->). apply in_steps in Ha as (a0 & _ & ->).
        pose proof (Ha1 _ (or_introl eq_refl)) as Hs'. cbn [snd] in Hs'.
        destruct (IH (fun y Hy => Ha1 y (or_intror Hy)) b Hb) as [->|Hb']; [|right; lia].
        destruct a0 as [|a0]; [left; reflexivity|right; nia]. }
    destruct i0 as [|i0]; [destruct Hj0 as [->|Hj0]; [lia|]|]; destruct m as [|m]; nia. }
  subst s. rewrite Nat.eqb_refl, orb_true_r.
  apply (tiling n c (prod (map fst axes)) (offsets axes) Hc ltac:(lia) (zero_offset _ Hpos)) in H.
  apply IH; [nia|exact Ha2|exact Hf|]. rewrite (Nat.mul_comm c n). exact H.
Qed.

Lemma perm_contiguous shape strides : length strides = length shape -> length shape <> 1 ->
  Forall (fun n => 0 < n) shape ->
  Permutation (offsets (combine shape strides)) (seq 0 (prod shape)) -> is_contiguous shape strides = true.
Proof.
  intros Hl H1 Hf H. unfold is_contiguous. destruct (list_eq_dec _ _ _); [reflexivity|].
  rewrite (proj2 (Nat.eqb_neq _ _) H1). rewrite <- contiguous_filter, filter_order.
  set (axes := filter several (combine shape strides)).
  assert (Hp : prod (map fst axes) = prod shape).
  { unfold axes. rewrite <- offsets_length, filter_offsets, offsets_length, combine_fst by exact Hl. reflexivity. }
  assert (Hpp : prod (map fst (fastest_varying_order axes)) = prod shape).
  { rewrite <- Hp, <- !offsets_length. apply Permutation_length, offsets_perm. symmetry. apply order_perm. }
  apply sorted_contiguous; [lia|apply order_ascending| |].
  - apply Forall_forall. intros a Ha. apply (Permutation_in _ (Permutation_sym (order_perm axes))) in Ha.
    unfold axes in Ha. apply filter_In in Ha as [Ha E]. unfold several in E. destruct a as [k s]. cbn [fst] in *.
    apply in_combine_l in Ha. rewrite Forall_forall in Hf. specialize (Hf _ Ha). destruct (Nat.eqb_spec k 1); [discriminate|lia].
  - rewrite Hpp, steps_seq, <- H. rewrite <- (filter_offsets (combine shape strides)). fold axes.
    apply offsets_perm. symmetry. apply order_perm.
Qed.
