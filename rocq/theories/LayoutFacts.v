(* Lemmas about Layout.v: reshaping without moving the elements visits them in
   the same order *)
From Coq Require Import Permutation.
From Verif Require Import Base BaseFacts Layout.
Local Open Scope list_scope.
Local Open Scope nat_scope.

(* the positions in memory of all the elements, in logical order; an axis is its
   length and its stride *)
Fixpoint offsets (axes : list (nat * nat)) : list nat :=
  match axes with
  | [] => [0]
  | (n, s) :: r => flat_map (fun i => map (Nat.add (i * s)) (offsets r)) (seq 0 n)
  end.

(* [n] positions, from 0, at the distance [s] *)
Definition steps (n s : nat) : list nat := map (fun i => i * s) (seq 0 n).

(* the positions [l2] from each of the positions [l1] *)
Definition shifted (l1 l2 : list nat) : list nat := flat_map (fun o => map (Nat.add o) l2) l1.

Lemma map_add_0 l : map (Nat.add 0) l = l.
Proof. induction l as [|x l IH]; cbn [map]; [reflexivity|]. rewrite IH. reflexivity. Qed.

Lemma flat_map_map {A B C} (f : B -> list C) (g : A -> B) l : flat_map f (map g l) = flat_map (fun x => f (g x)) l.
Proof. induction l as [|x l IH]; cbn; [reflexivity|]. rewrite IH. reflexivity. Qed.

Lemma map_flat_map {A B C} (f : B -> C) (g : A -> list B) l : map f (flat_map g l) = flat_map (fun x => map f (g x)) l.
Proof. induction l as [|x l IH]; cbn; [reflexivity|]. rewrite map_app, IH. reflexivity. Qed.

Lemma flat_map_flat_map {A B C} (f : B -> list C) (g : A -> list B) l :
  flat_map f (flat_map g l) = flat_map (fun x => flat_map f (g x)) l.
Proof. induction l as [|x l IH]; cbn; [reflexivity|]. rewrite flat_map_app, IH. reflexivity. Qed.

Lemma offsets_cons n s r : offsets ((n, s) :: r) = shifted (steps n s) (offsets r).
Proof. unfold shifted, steps. rewrite flat_map_map. reflexivity. Qed.

Lemma shifted_0 l : shifted [0] l = l.
Proof. unfold shifted. cbn [flat_map]. rewrite app_nil_r. apply map_add_0. Qed.

Lemma shifted_assoc l1 l2 l3 : shifted (shifted l1 l2) l3 = shifted l1 (shifted l2 l3).
Proof.
  unfold shifted. rewrite flat_map_flat_map. apply flat_map_ext. intros o. rewrite flat_map_map, map_flat_map.
  apply flat_map_ext. intros p. rewrite map_map. apply map_ext. intros q. lia.
Qed.

Lemma shifted_0_r l : shifted l [0] = l.
Proof.
  induction l as [|x l IH]; [reflexivity|].
  change (shifted (x :: l) [0]) with ((x + 0) :: shifted l [0]). rewrite IH, Nat.add_0_r. reflexivity.
Qed.

Lemma offsets_app l1 l2 : offsets (l1 ++ l2) = shifted (offsets l1) (offsets l2).
Proof.
  induction l1 as [|[n s] l1 IH]; cbn [app].
  - cbn [offsets]. rewrite shifted_0. reflexivity.
  - rewrite !offsets_cons, IH. symmetry. apply shifted_assoc.
Qed.

Lemma offsets_one n s : offsets [(n, s)] = steps n s.
Proof. rewrite offsets_cons. apply shifted_0_r. Qed.

Lemma steps_1 s : steps 1 s = [0].
Proof. reflexivity. Qed.

Lemma map_add_seq a b k : map (fun j => a + j) (seq k b) = seq (a + k) b.
Proof. revert k. induction b as [|b IH]; intros k; cbn [seq map]; [reflexivity|]. f_equal. rewrite IH. f_equal. lia. Qed.

Lemma seq_flat n m : flat_map (fun i => map (fun j => i * m + j) (seq 0 m)) (seq 0 n) = seq 0 (n * m).
Proof.
  induction n as [|n IH]; [reflexivity|].
  replace (S n * m) with (n * m + m) by lia. rewrite seq_app, seq_S, flat_map_app, IH. f_equal.
  cbn [flat_map]. rewrite app_nil_r. cbn [Nat.add]. rewrite map_add_seq. f_equal. lia.
Qed.

Lemma steps_mul n m s : shifted (steps n (m * s)) (steps m s) = steps (n * m) s.
Proof.
  unfold shifted, steps. rewrite flat_map_map, <- seq_flat, map_flat_map. apply flat_map_ext. intros i.
  rewrite !map_map. apply map_ext. intros j. lia.
Qed.

Lemma steps_seq n : steps n 1 = seq 0 n.
Proof. unfold steps. rewrite (map_ext (fun i => i * 1) (fun i => i)) by (intros; lia). apply map_id. Qed.

Lemma prod_app l1 l2 : prod (l1 ++ l2) = prod l1 * prod l2.
Proof. induction l1 as [|n l1 IH]; cbn [app prod]; [lia|]. rewrite IH. lia. Qed.

Lemma prod_pos l : Forall (fun n => 0 < n) l -> 0 < prod l.
Proof. induction 1 as [|n l Hn H IH]; cbn [prod]; [lia|]. apply Nat.mul_pos_pos; assumption. Qed.

Lemma prod_zero l : prod l = 0 <-> In 0 l.
Proof.
  induction l as [|n l IH]; cbn [prod In]; [split; [discriminate|tauto]|]. rewrite Nat.eq_mul_0, IH. intuition.
Qed.

Lemma prod_nonzero l : prod l <> 0 -> Forall (fun n => 0 < n) l.
Proof.
  intros H. apply Forall_forall. intros n Hn. destruct n; [|lia]. exfalso. apply H, prod_zero. assumption.
Qed.

Lemma offsets_length axes : length (offsets axes) = prod (map fst axes).
Proof.
  induction axes as [|[n s] axes IH]; [reflexivity|]. cbn [offsets map fst prod].
  generalize 0. induction n as [|n IHn]; intros k; [reflexivity|]. cbn [seq flat_map].
  rewrite app_length, map_length, IH, IHn. reflexivity.
Qed.

Lemma combine_app_eq {A B} (l1 l2 : list A) (r1 r2 : list B) : length r1 = length l1 ->
  combine (l1 ++ l2) (r1 ++ r2) = combine l1 r1 ++ combine l2 r2.
Proof.
  revert r1. induction l1 as [|x l1 IH]; intros [|y r1] H; cbn in *; try lia; [reflexivity|].
  rewrite IH by lia. reflexivity.
Qed.

(** * Reshaping *)

Lemma combine_axes_sound fuel : forall fs fd whole td tp from to P W strides from' to',
  combine_axes fuel fs fd whole td tp from to = inl (strides, from', to') ->
  0 < fd -> 0 < td -> 0 < P ->
  Forall (fun n => 0 < n) (map fst from) -> Forall (fun n => 0 < n) to ->
  tp = P * td -> whole = W / P -> W = fd * fs ->
  exists used_from used_to s,
    from = used_from ++ from' /\ to = used_to ++ to' /\ length strides = S (length used_to)
    /\ fd * prod (map fst used_from) = tp * prod used_to
    /\ fs = prod (map fst used_from) * s
    /\ offsets used_from = steps (prod (map fst used_from)) s
    /\ W = tp * prod used_to * s
    /\ offsets (combine (td :: used_to) strides) = steps (td * prod used_to) s.
Proof.
  induction fuel as [|fuel IH]; intros fs fd whole td tp from to P W strides from' to' H Hfd Htd HP Hf Ht Etp Ew EW;
    cbn [combine_axes] in H; [discriminate|].
  destruct (fd =? tp) eqn:E; [|destruct (fd <? tp) eqn:E2].
  - apply Nat.eqb_eq in E. inversion H; subst strides from' to'. exists [], [], fs.
    split; [reflexivity|]. split; [reflexivity|]. split; [reflexivity|]. cbn [map prod]. split; [lia|]. split; [lia|].
    split; [reflexivity|]. split; [rewrite EW, E; lia|]. cbn [combine]. rewrite offsets_one. f_equal; [lia|].
    rewrite Ew, Nat.div_div by lia. rewrite <- Etp, <- E, EW, Nat.mul_comm. apply Nat.div_mul. lia.
  - destruct from as [|[f s] from1]; [discriminate|]. cbn [map fst] in Hf. pose proof (Forall_inv Hf) as Hf0; pose proof (Forall_inv_tail Hf) as Hf1; cbv beta in Hf0.
    destruct (1 <? f) eqn:E1.
    + destruct (fs =? f * s) eqn:E3; [|discriminate]. apply Nat.eqb_eq in E3.
      apply (IH _ _ _ _ _ _ _ P W) in H; try assumption; try lia; try (apply Nat.mul_pos_pos; lia); try (rewrite EW, E3; lia).
      destruct H as (uf & ut & s' & E4 & E5 & E6 & E7 & E8 & E9 & E10 & E11).
      exists ((f, s) :: uf), ut, s'. cbn [map fst prod]. split; [rewrite E4; reflexivity|]. split; [exact E5|].
      split; [exact E6|]. split; [lia|]. split; [rewrite E3, E8; lia|].
      split; [rewrite offsets_cons, E9, E8; apply steps_mul|]. split; [exact E10|exact E11].
    + apply Nat.ltb_ge in E1. assert (f = 1) by lia. subst f.
      apply (IH _ _ _ _ _ _ _ P W) in H; try assumption; try lia.
      destruct H as (uf & ut & s' & E4 & E5 & E6 & E7 & E8 & E9 & E10 & E11).
      exists ((1, s) :: uf), ut, s'. cbn [map fst prod]. split; [rewrite E4; reflexivity|]. split; [exact E5|].
      split; [exact E6|]. split; [lia|]. split; [lia|].
      split; [rewrite offsets_cons, steps_1, shifted_0, E9; f_equal; lia|]. split; [exact E10|exact E11].
  - destruct to as [|t to1]; [discriminate|]. pose proof (Forall_inv Ht) as Ht0; pose proof (Forall_inv_tail Ht) as Ht1; cbv beta in Ht0.
    destruct (combine_axes fuel fs fd (whole / td) t (tp * t) from to1) as [[[str f1] t1]|e] eqn:E3; [|discriminate].
    inversion H; subst strides f1 t1.
    apply (IH _ _ _ _ _ _ _ (P * td) W) in E3; try assumption; try lia;
      try (apply Nat.mul_pos_pos; lia); try (rewrite Ew; apply Nat.div_div; lia).
    destruct E3 as (uf & ut & s' & E4 & E5 & E6 & E7 & E8 & E9 & E10 & E11).
    exists uf, (t :: ut), s'. cbn [map fst prod length]. split; [exact E4|]. split; [rewrite E5; reflexivity|].
    split; [rewrite E6; reflexivity|]. split; [lia|]. split; [exact E8|]. split; [exact E9|]. split; [lia|].
    change (combine (td :: t :: ut) (whole / td :: str)) with ((td, whole / td) :: combine (t :: ut) str).
    rewrite offsets_cons, E11.
    assert (Ed : whole / td = t * prod ut * s').
    { rewrite Ew, Nat.div_div by lia. rewrite E10. rewrite Etp.
      replace (P * td * t * prod ut * s') with ((t * prod ut * s') * (P * td)) by lia.
      apply Nat.div_mul. apply Nat.neq_mul_0. lia. }
    rewrite Ed, steps_mul. reflexivity.
Qed.

Lemma combine_axes_shape fuel : forall fs fd whole td tp from to,
  length from + length to < fuel ->
  0 < fd -> 0 < tp -> Forall (fun n => 0 < n) (map fst from) -> Forall (fun n => 0 < n) to ->
  fd * prod (map fst from) = tp * prod to ->
  combine_axes fuel fs fd whole td tp from to <> inr IncompatibleShape.
Proof.
  induction fuel as [|fuel IH]; intros fs fd whole td tp from to Hfuel Hfd Htp Hf Ht E; [lia|]. cbn [combine_axes].
  destruct (fd =? tp) eqn:E1; [discriminate|]. apply Nat.eqb_neq in E1.
  destruct (fd <? tp) eqn:E2.
  - apply Nat.ltb_lt in E2. pose proof (prod_pos _ Ht) as Hp.
    destruct from as [|[f s] from1]; cbn [map fst prod] in E.
    + assert (tp * 1 <= tp * prod to) by (apply Nat.mul_le_mono_l; lia). lia.
    + cbn [map fst] in Hf. pose proof (Forall_inv Hf) as Hf0; pose proof (Forall_inv_tail Hf) as Hf1; cbv beta in Hf0. cbn [length] in Hfuel.
      assert (0 < fd * f) by (apply Nat.mul_pos_pos; lia).
      destruct (1 <? f); [destruct (fs =? f * s); [|discriminate]|]; apply IH; try assumption; try lia.
  - apply Nat.ltb_ge in E2. pose proof (prod_pos _ Hf) as Hp.
    destruct to as [|t to1]; cbn [prod] in E.
    + assert (fd * 1 <= fd * prod (map fst from)) by (apply Nat.mul_le_mono_l; lia). lia.
    + pose proof (Forall_inv Ht) as Ht0; pose proof (Forall_inv_tail Ht) as Ht1; cbv beta in Ht0. cbn [length] in Hfuel.
      assert (0 < tp * t) by (apply Nat.mul_pos_pos; lia).
      pose proof (IH fs fd (whole / td) t (tp * t) from to1 ltac:(lia) Hfd ltac:(lia) Hf Ht1 ltac:(lia)) as G.
      destruct (combine_axes fuel fs fd (whole / td) t (tp * t) from to1) as [[[str f1] t1]|e]; [discriminate|].
      intros E3. apply G. inversion E3. reflexivity.
Qed.

Lemma ones_offsets axes : forallb (fun axis => fst axis =? 1) axes = true -> offsets axes = [0].
Proof.
  induction axes as [|[n s] axes IH]; [reflexivity|]. cbn [forallb fst]. rewrite andb_true_iff, Nat.eqb_eq.
  intros [-> H]. rewrite offsets_cons, steps_1, shifted_0. apply IH. assumption.
Qed.

Lemma reshape_dim_c_sound fuel : forall from to strides,
  reshape_dim_c fuel from to = inl strides ->
  Forall (fun n => 0 < n) (map fst from) -> Forall (fun n => 0 < n) to ->
  length strides = length to /\ offsets (combine to strides) = offsets from.
Proof.
  assert (Hbase : forall from to strides,
    (if forallb (fun axis : nat * nat => fst axis =? 1) from && forallb (Nat.eqb 1) to
     then inl (map (fun _ => 1) to) else inr IncompatibleShape) = inl strides ->
    length strides = length to /\ offsets (combine to strides) = offsets from).
  { intros from to strides H. destruct (_ && _) eqn:E; [|discriminate]. apply andb_prop in E as [E1 E2].
    inversion H; subst strides. split; [apply map_length|].
    rewrite (ones_offsets from E1). apply ones_offsets. clear -E2. induction to as [|t to IH]; [reflexivity|].
    cbn [forallb map combine fst] in *. apply andb_prop in E2 as [E E2]. rewrite Nat.eqb_sym, E. apply IH. assumption. }
  induction fuel as [|fuel IH]; intros from to strides H Hf Ht.
  - destruct from as [|[fd fs] from]; [apply Hbase; exact H|]. destruct to; [apply Hbase; exact H|discriminate H].
  - destruct from as [|[fd fs] from]; [apply Hbase; exact H|]. destruct to as [|td to]; [apply Hbase; exact H|].
    clear Hbase. cbn [map fst] in Hf. pose proof (Forall_inv Hf) as Hf0; pose proof (Forall_inv_tail Hf) as Hf1; cbv beta in Hf0. pose proof (Forall_inv Ht) as Ht0; pose proof (Forall_inv_tail Ht) as Ht1; cbv beta in Ht0.
    cbn [reshape_dim_c] in H.
    destruct (fd =? td) eqn:E1.
    { apply Nat.eqb_eq in E1. subst td. destruct (reshape_dim_c fuel from to) as [str|e] eqn:E; [|discriminate].
      inversion H; subst strides. destruct (IH _ _ _ E Hf1 Ht1) as [H1 H2]. split; [cbn [length]; lia|].
      cbn [combine]. rewrite !offsets_cons, H2. reflexivity. }
    destruct (fd =? 1) eqn:E2.
    { apply Nat.eqb_eq in E2. subst fd. destruct (IH _ _ _ H Hf1 Ht) as [H1 H2]. split; [assumption|].
      rewrite H2, offsets_cons, steps_1, shifted_0. reflexivity. }
    destruct (td =? 1) eqn:E3.
    { apply Nat.eqb_eq in E3. subst td. destruct (reshape_dim_c fuel ((fd, fs) :: from) to) as [str|e] eqn:E; [|discriminate].
      inversion H; subst strides. destruct (IH _ _ _ E Hf Ht1) as [H1 H2]. split; [cbn [length]; lia|].
      cbn [combine]. rewrite offsets_cons, steps_1, shifted_0. exact H2. }
    destruct ((fd =? 0) || (td =? 0)) eqn:E4; [discriminate|].
    destruct (combine_axes (S fuel) fs fd (fs * fd) td td from to) as [[[str f1] t1]|e] eqn:E; [|discriminate].
    destruct (reshape_dim_c fuel f1 t1) as [str'|e] eqn:E'; [|discriminate]. inversion H; subst strides.
    apply (combine_axes_sound _ _ _ _ _ _ _ _ 1 (fs * fd)) in E; try assumption; try lia;
      try (rewrite Nat.div_1_r; reflexivity).
    destruct E as (uf & ut & s & -> & -> & E6 & E7 & E8 & E9 & _ & E11).
    rewrite map_app in Hf1. apply Forall_app in Hf1 as [_ Hf1]. apply Forall_app in Ht1 as [_ Ht1].
    destruct (IH _ _ _ E' Hf1 Ht1) as [H1 H2]. split; [rewrite app_length; cbn [length]; rewrite app_length; lia|].
    change (td :: ut ++ t1) with ((td :: ut) ++ t1).
    rewrite combine_app_eq by (cbn [length]; lia). rewrite offsets_app, E11, H2.
    change ((fd, fs) :: uf ++ f1) with (((fd, fs) :: uf) ++ f1). rewrite offsets_app, offsets_cons, E9, E8, steps_mul.
    rewrite E7. reflexivity.
Qed.

Lemma reshape_dim_c_shape fuel : forall from to,
  length from + length to <= fuel ->
  Forall (fun n => 0 < n) (map fst from) -> Forall (fun n => 0 < n) to ->
  prod (map fst from) = prod to ->
  reshape_dim_c fuel from to <> inr IncompatibleShape.
Proof.
  assert (Hbase : forall (from : list (nat * nat)) to,
    from = [] \/ to = [] -> Forall (fun n => 0 < n) (map fst from) -> Forall (fun n => 0 < n) to ->
    prod (map fst from) = prod to ->
    (if forallb (fun axis : nat * nat => fst axis =? 1) from && forallb (Nat.eqb 1) to
     then inl (map (fun _ => 1) to) else inr IncompatibleShape) <> inr IncompatibleShape).
  { intros from to Hor Hf Ht E.
    assert (H1 : prod (map fst from) = 1) by (destruct Hor as [->| ->]; [reflexivity|exact E]).
    assert (Hones : forall l, prod l = 1 -> Forall (fun n => n = 1) l).
    { induction l as [|n l IHl]; cbn [prod]; [constructor|]. intros H. apply Nat.eq_mul_1 in H as [-> H].
      constructor; [reflexivity|]. apply IHl. assumption. }
    assert (E1 : forallb (fun axis : nat * nat => fst axis =? 1) from = true).
    { pose proof (Hones _ H1) as H. apply forallb_forall. intros [n s] Hin. cbn [fst]. apply Nat.eqb_eq.
      rewrite Forall_forall in H. apply H. apply in_map_iff. exists (n, s). auto. }
    assert (E2 : forallb (Nat.eqb 1) to = true).
    { rewrite E in H1. pose proof (Hones _ H1) as H. apply forallb_forall. intros n Hin.
      rewrite Forall_forall in H. rewrite (H n Hin). reflexivity. }
    rewrite E1, E2. discriminate. }
  induction fuel as [|fuel IH]; intros from to Hl Hf Ht E.
  - destruct from as [|[fd fs] from]; [apply Hbase; auto|cbn [length] in Hl; lia].
  - destruct from as [|[fd fs] from]; [apply Hbase; auto|]. destruct to as [|td to]; [apply Hbase; auto|].
    clear Hbase. pose proof Hf as Hf'. pose proof Ht as Ht'. pose proof E as E0.
    cbn [map fst] in Hf. pose proof (Forall_inv Hf) as Hf0; pose proof (Forall_inv_tail Hf) as Hf1; cbv beta in Hf0. pose proof (Forall_inv Ht) as Ht0; pose proof (Forall_inv_tail Ht) as Ht1; cbv beta in Ht0.
    cbn [map fst prod length] in *. cbn [reshape_dim_c].
    destruct (fd =? td) eqn:E1.
    { apply Nat.eqb_eq in E1. subst td.
      pose proof (IH from to ltac:(lia) Hf1 Ht1 ltac:(apply (Nat.mul_cancel_l _ _ fd); lia)) as G.
      destruct (reshape_dim_c fuel from to); [discriminate|]. intros H; inversion H; subst. apply G. reflexivity. }
    destruct (fd =? 1) eqn:E2.
    { apply Nat.eqb_eq in E2. subst fd. apply IH; try assumption; cbn [length prod]; lia. }
    destruct (td =? 1) eqn:E3.
    { apply Nat.eqb_eq in E3. subst td.
      pose proof (IH ((fd, fs) :: from) to ltac:(cbn [length]; lia) Hf' Ht1 ltac:(cbn [map fst prod]; lia)) as G.
      destruct (reshape_dim_c fuel ((fd, fs) :: from) to); [discriminate|]. intros H; inversion H; subst. apply G. reflexivity. }
    destruct ((fd =? 0) || (td =? 0)) eqn:E4.
    { apply orb_prop in E4 as [E4|E4]; apply Nat.eqb_eq in E4; lia. }
    destruct (combine_axes (S fuel) fs fd (fs * fd) td td from to) as [[[str f1] t1]|e] eqn:Ec.
    + apply (combine_axes_sound _ _ _ _ _ _ _ _ 1 (fs * fd)) in Ec; try assumption; try lia;
        try (rewrite Nat.div_1_r; reflexivity).
      destruct Ec as (uf & ut & s & -> & -> & E6 & E7 & E8 & E9 & _ & E11).
      rewrite map_app in Hf1, E0. apply Forall_app in Hf1 as [Hf2 Hf1]. apply Forall_app in Ht1 as [Ht2 Ht1].
      rewrite !prod_app in E0. rewrite !app_length in Hl.
      assert (G : reshape_dim_c fuel f1 t1 <> inr IncompatibleShape).
      { apply IH; try assumption; [lia|]. apply (Nat.mul_cancel_l _ _ (td * prod ut)).
        - apply Nat.neq_mul_0. pose proof (prod_pos _ Ht2). lia.
        - rewrite <- E7 at 1. lia. }
      destruct (reshape_dim_c fuel f1 t1); [discriminate|]. intros H; inversion H; subst. apply G. reflexivity.
    + intros H. inversion H; subst e. revert Ec. apply combine_axes_shape; try assumption; lia.
Qed.

(** * Layouts *)

Lemma combine_fst {A B} (l : list A) (l' : list B) : length l' = length l -> map fst (combine l l') = l.
Proof. revert l'. induction l as [|x l IH]; intros [|y l'] H; cbn in *; try lia; [reflexivity|]. rewrite IH; [reflexivity|lia]. Qed.

Lemma row_major_length shape : length (row_major_strides shape) = length shape.
Proof. induction shape as [|n shape IH]; cbn; congruence. Qed.

Lemma default_strides_length shape : length (default_strides shape) = length shape.
Proof. unfold default_strides. destruct (prod shape =? 0); [apply repeat_length|apply row_major_length]. Qed.

Lemma row_major_offsets shape : offsets (combine shape (row_major_strides shape)) = seq 0 (prod shape).
Proof.
  rewrite <- steps_seq. induction shape as [|n shape IH]; [reflexivity|]. cbn [row_major_strides combine prod].
  rewrite offsets_cons, IH. rewrite <- (Nat.mul_1_r (prod shape)) at 1. apply steps_mul.
Qed.

Lemma no_offsets axes : prod (map fst axes) = 0 -> offsets axes = [].
Proof. intros H. rewrite <- offsets_length in H. apply length_zero_iff_nil. assumption. Qed.

Lemma default_offsets shape : offsets (combine shape (default_strides shape)) = seq 0 (prod shape).
Proof.
  unfold default_strides. destruct (prod shape =? 0) eqn:E; [|apply row_major_offsets].
  apply Nat.eqb_eq in E. rewrite E. apply no_offsets. rewrite combine_fst by apply repeat_length. assumption.
Qed.

Lemma layout_c_offsets axes : forall c, layout_c_loop (rev axes) c = true -> offsets axes = steps (prod (map fst axes)) c.
Proof.
  induction axes as [|[n s] axes IH] using rev_ind; intros c H; [reflexivity|].
  rewrite rev_app_distr in H. cbn [rev app layout_c_loop] in H.
  rewrite offsets_app, offsets_one, map_app, prod_app. cbn [map fst prod]. rewrite Nat.mul_1_r.
  destruct (n =? 1) eqn:E.
  - apply Nat.eqb_eq in E. subst n. rewrite (IH _ H), steps_1, shifted_0_r. f_equal. lia.
  - destruct (s =? c) eqn:E2; [|discriminate]. apply Nat.eqb_eq in E2. subst s.
    rewrite (IH _ H), (Nat.mul_comm c n). apply steps_mul.
Qed.

Lemma existsb_zero shape : existsb (Nat.eqb 0) shape = true <-> prod shape = 0.
Proof.
  rewrite prod_zero, existsb_exists. split.
  - intros (x & Hin & E). apply Nat.eqb_eq in E. subst x. assumption.
  - intros H. exists 0. split; [assumption|reflexivity].
Qed.

Lemma standard_offsets shape strides : length strides = length shape ->
  is_standard_layout shape strides = true -> offsets (combine shape strides) = seq 0 (prod shape).
Proof.
  intros Hl H. unfold is_standard_layout in H. apply orb_prop in H as [H|H].
  - apply existsb_zero in H. rewrite H. apply no_offsets. rewrite combine_fst; assumption.
  - apply layout_c_offsets in H. rewrite combine_fst, steps_seq in H by assumption. assumption.
Qed.

Lemma layout_c_row_major shape : forall c rest,
  (forall n s, In (n, s) rest -> True) ->
  layout_c_loop (rev (combine shape (map (Nat.mul c) (row_major_strides shape))) ++ rest) c
  = layout_c_loop rest (c * prod shape).
Proof.
  induction shape as [|n shape IH]; intros c rest _; [cbn; f_equal; lia|].
  cbn [row_major_strides map combine rev]. rewrite <- app_assoc. rewrite IH by auto. cbn [app layout_c_loop prod].
  destruct (n =? 1) eqn:E; [apply Nat.eqb_eq in E; subst n; f_equal; lia|].
  rewrite Nat.eqb_refl. f_equal. lia.
Qed.

Lemma default_standard shape : is_standard_layout shape (default_strides shape) = true.
Proof.
  unfold is_standard_layout, default_strides. destruct (prod shape =? 0) eqn:E.
  - apply Nat.eqb_eq in E. apply existsb_zero in E. rewrite E. reflexivity.
  - apply orb_true_iff. right. pose proof (layout_c_row_major shape 1 [] ltac:(auto)) as H.
    rewrite app_nil_r in H. rewrite (map_ext (Nat.mul 1) (fun x => x)), map_id in H by (intros; lia). rewrite H. reflexivity.
Qed.

(* to_shape and to_owned keep the logical order *)
Lemma to_shape_defined shape strides shape' : length strides = length shape ->
  prod shape' = prod shape -> exists strides', to_shape_strides shape strides shape' = Some strides'.
Proof.
  intros Hl E. unfold to_shape_strides. rewrite (proj2 (Nat.eqb_eq _ _) E).
  destruct (prod shape =? 0) eqn:E0; [eauto|]. apply Nat.eqb_neq in E0.
  pose proof (reshape_dim_c_shape (length shape + length shape') (combine shape strides) shape') as H.
  rewrite combine_fst in H by assumption. rewrite combine_length, Hl, Nat.min_id in H.
  specialize (H (le_n _) (prod_nonzero _ E0) (prod_nonzero _ ltac:(rewrite E; assumption)) (eq_sym E)).
  unfold reshape_dim. destruct (reshape_dim_c _ _ _) as [v|[|]]; [eauto|congruence|eauto].
Qed.
