(* The layout of an array after swapping any two axes and merging the last two ones:
   when there are strides for the new shape, and in which order the elements are *)
From Coq Require Import Permutation.
From Verif Require Import Base BaseFacts Layout LayoutFacts SwapLayoutFacts SwapAnyFacts.
Local Open Scope list_scope.
Local Open Scope nat_scope.

Lemma nth_0_offsets axes : nth 0 (offsets axes) 0 = 0.
Proof.
  induction axes as [|[n s] axes IH]; [reflexivity|]. rewrite offsets_cons. destruct n as [|n]; [reflexivity|].
  destruct (offsets axes) as [|o l] eqn:E.
  - destruct (shifted (steps (S n) s) []) eqn:E'; [reflexivity|]. apply (f_equal (@length nat)) in E'.
    rewrite shifted_length in E'. cbn [length] in E'. lia.
  - pose proof (nth_shifted (steps (S n) s) (o :: l) 0 0) as X. rewrite steps_length in X. cbn [length] in X.
    specialize (X ltac:(lia) ltac:(lia)). change (0 * S (length l) + 0) with 0 in X. rewrite X, nth_steps by lia.
    cbn [nth] in IH |- *. lia.
Qed.

(* axes exchanged in memory must be separated in the new shape *)
Lemma cut_needed P L M : 0 < P -> 2 <= L -> 2 <= M -> forall shape v q, length v = length shape ->
  Forall (fun n => 0 < n) shape -> 1 <= q -> prod shape = q * M ->
  (forall i j, i < q -> j < M -> nth (i * M + j) (offsets (combine shape v)) 0 = i * P + j * (L * P)) ->
  cut_of shape q.
Proof.
  intros HP HL HM. induction shape as [|n shape IH]; intros v q Hl Hf Hq Ep H.
  - cbn [prod] in Ep. nia.
  - destruct v as [|s v]; [discriminate|]. cbn [length] in Hl. assert (Hl' : length v = length shape) by lia.
    pose proof (Forall_inv Hf) as Hn. apply Forall_inv_tail in Hf. cbv beta in Hn. cbn [combine prod] in *.
    rewrite offsets_cons in H.
    destruct (Nat.eq_dec n 1) as [->|Hn1].
    { rewrite steps_1, shifted_0 in H. rewrite Nat.mul_1_l in Ep. destruct (IH v q Hl' Hf Hq Ep H) as [k Hk].
      exists (S k). cbn [firstn prod]. lia. }
    destruct (Nat.eq_dec q 1) as [->|Hq1]; [exists 0; reflexivity|].
    set (B := prod shape) in *. assert (HB : 0 < B) by (apply prod_pos; exact Hf).
    set (o := offsets (combine shape v)) in *.
    assert (Lo : length o = B) by (unfold o; rewrite offsets_length, combine_fst by exact Hl'; reflexivity).
    assert (X : forall i j, i < n -> j < B -> nth (i * B + j) (shifted (steps n s) o) 0 = i * s + nth j o 0).
    { intros i j Hi Hj. pose proof (nth_shifted (steps n s) o i j) as Y. rewrite steps_length, Lo in Y.
      rewrite Y by assumption. rewrite nth_steps by exact Hi. reflexivity. }
    pose proof (nth_0_offsets (combine shape v)) as O0. fold o in O0.
    pose proof (X 1 0 ltac:(lia) HB) as Xs. rewrite O0 in Xs.
    destruct (le_lt_dec M B) as [HMB|HMB].
    + (* at least one run of the second axis *)
      pose proof (Nat.div_mod B M ltac:(lia)) as Ed. pose proof (Nat.mod_upper_bound B M ltac:(lia)) as Eb.
      set (t := B / M) in *. set (b := B mod M) in *. assert (Ht : 1 <= t) by (destruct t; nia).
      destruct (Nat.eq_dec b 0) as [Hb|Hb].
      * assert (Eq : q = n * t) by nia. destruct (IH v t Hl' Hf Ht ltac:(nia)) as [k Hk].
        -- intros i j Hi Hj. assert (Hij : i * M + j < B) by nia. fold o. specialize (X 0 _ ltac:(lia) Hij).
           rewrite Nat.mul_0_l, !Nat.add_0_l in X. rewrite <- X. apply H; nia.
        -- exists (S k). cbn [firstn prod]. rewrite Hk. symmetry. exact Eq.
      * exfalso. assert (Htq : S t < q) by nia.
        pose proof (H t b ltac:(lia) Eb) as H1. replace (t * M + b) with (1 * B + 0) in H1 by lia. rewrite Xs in H1.
        pose proof (X 1 (M - b) ltac:(lia) ltac:(lia)) as X1. pose proof (X 0 (M - b) ltac:(lia) ltac:(lia)) as X0.
        pose proof (H (S t) 0 Htq ltac:(lia)) as H2. pose proof (H 0 (M - b) ltac:(lia) ltac:(lia)) as H3.
        replace (0 * M + (M - b)) with (0 * B + (M - b)) in H3 by lia. rewrite X0 in H3.
        replace (S t * M + 0) with (1 * B + (M - b)) in H2 by nia. rewrite X1 in H2.
        rewrite Nat.mul_0_l in H3. assert (E1 : b * (L * P) + (M - b) * (L * P) = M * (L * P)) by (rewrite <- Nat.mul_add_distr_r; f_equal; lia).
        assert (P = M * (L * P)) by lia. assert (2 * P <= L * P) by (apply Nat.mul_le_mono_r; exact HL).
        assert (2 * (L * P) <= M * (L * P)) by (apply Nat.mul_le_mono_r; exact HM). lia.
    + (* several runs of the first axis in the second one *)
      exfalso. pose proof (Nat.div_mod M B ltac:(lia)) as Ed. pose proof (Nat.mod_upper_bound M B ltac:(lia)) as Eb.
      set (a := M / B) in *. set (b := M mod B) in *. assert (Ha : 1 <= a) by (destruct a; nia). assert (Han : a < n) by nia.
      pose proof (H 0 B ltac:(lia) HMB) as H1. replace (0 * M + B) with (1 * B + 0) in H1 by lia. rewrite Xs in H1.
      pose proof (H 1 0 ltac:(lia) ltac:(lia)) as H2. replace (1 * M + 0) with (a * B + b) in H2 by lia.
      rewrite (X a b Han Eb) in H2. assert (s = B * (L * P)) by lia. subst s. 
      assert (B * (L * P) <= a * (B * (L * P))) by nia. assert (2 * P <= L * P) by nia. assert (L * P <= B * (L * P)) by nia. lia.
Qed.

Section swapped.
Context (pre ms s0 sm : list nat) (A L P sa sl sp : nat) (r : list nat).
Let M := prod ms.
Let shape := pre ++ A :: ms ++ [L; P].
Let strides := s0 ++ sa :: sm ++ [sl; sp].
Let swapped := pre ++ L :: ms ++ [A; P].
Let swapped_strides := s0 ++ sl :: sm ++ [sa; sp].
Let shape' := pre ++ ms ++ [L; A * P].

Context (Hl0 : length s0 = length pre) (Hlm : length sm = length ms).
Context (Hs : is_standard_layout shape strides = true).
Context (H : to_shape_strides swapped swapped_strides shape' = Some r).

Let several_axes := (2 <= A /\ 2 <= M) \/ (2 <= A /\ 2 <= L) \/ (2 <= M /\ 2 <= L).
Let exchanged := (A = 1 \/ P = 1) /\ cut_of (ms ++ [L]) L /\ several_axes.

Lemma prod_shape : prod shape = prod pre * (A * (M * (L * P))).
Proof. unfold shape, M. rewrite prod_app. cbn [prod]. rewrite prod_app. cbn [prod]. lia. Qed.

Lemma prod_swapped : prod swapped = prod shape.
Proof. rewrite prod_shape. unfold swapped, M. rewrite prod_app. cbn [prod]. rewrite prod_app. cbn [prod]. lia. Qed.

Lemma prod_shape' : prod shape' = prod shape.
Proof. rewrite prod_shape. unfold shape', M. rewrite !prod_app. cbn [prod]. lia. Qed.

Section not_empty.
Context (Hpre : Forall (fun n => 0 < n) pre) (Hms : Forall (fun n => 0 < n) ms) (HA : 0 < A) (HL : 0 < L) (HP : 0 < P).

Lemma M_pos : 0 < M.
Proof. apply prod_pos. exact Hms. Qed.

Lemma all_axes : combine shape strides = combine pre s0 ++ (A, sa) :: combine ms sm ++ [(L, sl); (P, sp)].
Proof. unfold shape, strides. rewrite combine_app_eq by exact Hl0. cbn [combine]. rewrite combine_app_eq by exact Hlm. reflexivity. Qed.

Lemma swapped_axes : combine swapped swapped_strides = combine pre s0 ++ (L, sl) :: combine ms sm ++ [(A, sa); (P, sp)].
Proof. unfold swapped, swapped_strides. rewrite combine_app_eq by exact Hl0. cbn [combine]. rewrite combine_app_eq by exact Hlm. reflexivity. Qed.

Lemma axes_strides : layout_c_loop (rev (combine pre s0)) (A * (M * (L * P))) = true /\ (A = 1 \/ sa = M * (L * P))
  /\ layout_c_loop (rev (combine ms sm)) (L * P) = true /\ (L = 1 \/ sl = P) /\ (P = 1 \/ sp = 1).
Proof.
  unfold is_standard_layout in Hs. apply orb_prop in Hs as [X|X].
  { apply existsb_zero in X. rewrite prod_shape in X. pose proof (prod_pos _ Hpre). pose proof M_pos. nia. }
  rewrite all_axes, rev_app_distr in X. apply layout_app in X as [X Xp].
  rewrite map_rev, prod_rev in Xp. cbn [map fst prod] in Xp. rewrite map_app, prod_app in Xp. cbn [map fst prod] in Xp.
  rewrite combine_fst in Xp by exact Hlm. fold M in Xp. rewrite Nat.mul_1_l, Nat.mul_1_r in Xp. split; [exact Xp|].
  apply layout_cons in X as [X Xa]. rewrite map_app, prod_app, combine_fst in Xa by exact Hlm. cbn [map fst prod] in Xa. fold M in Xa.
  rewrite Nat.mul_1_l, Nat.mul_1_r in Xa. split; [exact Xa|].
  rewrite rev_app_distr in X. apply layout_app in X as [X Xm]. rewrite map_rev, prod_rev in Xm. cbn [map fst prod] in Xm.
  rewrite Nat.mul_1_l, Nat.mul_1_r in Xm. split; [exact Xm|].
  apply layout_cons in X as [X Xl]. cbn [map fst prod] in Xl. apply layout_cons in X as [_ Xp']. cbn [map fst prod] in Xp'.
  split; [destruct Xl; [left; assumption|right; lia]|destruct Xp'; [left; assumption|right; lia]].
Qed.

(* positions of the elements *)
Lemma steps_one_or n s s' : n = 1 \/ s = s' -> steps n s = steps n s'.
Proof. intros [->| ->]; reflexivity. Qed.

Let opre := offsets (combine pre s0).

Lemma offsets_all : offsets (combine shape strides)
  = shifted opre (shifted (steps A (M * (L * P))) (shifted (steps M (L * P)) (shifted (steps L P) (steps P 1)))).
Proof.
  destruct axes_strides as (_ & Xa & Xm & Xl & Xp). rewrite all_axes, offsets_app. fold opre. f_equal.
  rewrite offsets_cons, offsets_app, offsets_cons, offsets_one, (steps_one_or _ _ _ Xa), (steps_one_or _ _ _ Xl), (steps_one_or _ _ _ Xp).
  rewrite (layout_c_offsets (combine ms sm) (L * P)) by exact Xm.
  rewrite combine_fst by exact Hlm. reflexivity.
Qed.

Lemma offsets_swapped : offsets (combine swapped swapped_strides)
  = shifted opre (shifted (steps L P) (shifted (steps M (L * P)) (shifted (steps A (M * (L * P))) (steps P 1)))).
Proof.
  destruct axes_strides as (_ & Xa & Xm & Xl & Xp). rewrite swapped_axes, offsets_app. fold opre. f_equal.
  rewrite offsets_cons, offsets_app, offsets_cons, offsets_one, (steps_one_or _ _ _ Xa), (steps_one_or _ _ _ Xl), (steps_one_or _ _ _ Xp).
  rewrite (layout_c_offsets (combine ms sm) (L * P)) by exact Xm.
  rewrite combine_fst by exact Hlm. reflexivity.
Qed.

Lemma all_in_order : offsets (combine shape strides) = seq 0 (prod shape).
Proof.
  apply standard_offsets; [|exact Hs]. unfold shape, strides. rewrite !app_length. cbn [length]. rewrite !app_length. cbn [length]. lia.
Qed.

Lemma swapped_permutation : Permutation (offsets (combine swapped swapped_strides)) (seq 0 (prod shape)).
Proof.
  rewrite <- all_in_order, all_axes, swapped_axes. apply offsets_perm. apply Permutation_app_head.
  change ((L, sl) :: combine ms sm ++ [(A, sa); (P, sp)]) with ([(L, sl)] ++ combine ms sm ++ [(A, sa)] ++ [(P, sp)]).
  change ((A, sa) :: combine ms sm ++ [(L, sl); (P, sp)]) with ([(A, sa)] ++ combine ms sm ++ [(L, sl)] ++ [(P, sp)]).
  rewrite !(app_assoc (combine ms sm)), !(app_assoc [_] _ [(P, sp)]). apply Permutation_app_tail.
  rewrite (Permutation_app_comm [(L, sl)]), <- app_assoc. rewrite (Permutation_app_comm [(A, sa)] (_ ++ _)), <- app_assoc.
  apply Permutation_app_head. apply perm_swap.
Qed.

Lemma swapped_length : length swapped_strides = length swapped.
Proof. unfold swapped, swapped_strides. rewrite !app_length. cbn [length]. rewrite !app_length. cbn [length]. lia. Qed.

Lemma prod_shape_pos : 0 < prod shape.
Proof. rewrite prod_shape. pose proof (prod_pos _ Hpre). pose proof M_pos. nia. Qed.

Lemma shape'_pos : Forall (fun n => 0 < n) shape'.
Proof. apply prod_nonzero. rewrite prod_shape'. pose proof prod_shape_pos. lia. Qed.

(* strides for the new shape *)
Lemma view_exists : A = 1 \/ P = 1 -> cut_of (ms ++ [L]) L ->
  exists view, reshape_dim swapped swapped_strides shape' = inl view.
Proof.
  intros HAP [k Hk]. destruct axes_strides as (Xz & Xa & Xm & Xl & Xp).
  apply reshape_fits; [exact swapped_length| |exact shape'_pos|rewrite prod_swapped, prod_shape'; reflexivity|].
  { apply prod_nonzero. rewrite prod_swapped. pose proof prod_shape_pos. lia. }
  rewrite swapped_axes.
  assert (Es : shape' = pre ++ (ms ++ [L]) ++ [A * P]) by (unfold shape'; rewrite <- app_assoc; reflexivity).
  assert (Hcut : forall x, cut_of (ms ++ [L]) x -> cut_of shape' (prod pre * x)).
  { intros x [j <-]. exists (length pre + Nat.min j (length (ms ++ [L]))). rewrite Es, firstn_app_2, prod_app. f_equal.
    rewrite (firstn_app _ (ms ++ [L])). replace (_ - length (ms ++ [L])) with 0 by lia. cbn [firstn]. rewrite app_nil_r.
    destruct (le_lt_dec j (length (ms ++ [L]))); [f_equal; f_equal; lia|]. rewrite !firstn_all2 by lia. reflexivity. }
  assert (C0 : cut_of (ms ++ [L]) 1) by (exists 0; reflexivity).
  assert (C1 : cut_of (ms ++ [L]) (L * M)).
  { exists (length (ms ++ [L])). rewrite firstn_all, prod_app. fold M. cbn [prod]. lia. }
  apply (segment_fits _ _ _ _ _ Xz); rewrite Nat.mul_1_l, combine_fst by exact Hl0.
  { rewrite <- (Nat.mul_1_r (prod pre)). apply Hcut. exact C0. }
  change ((L, sl) :: combine ms sm ++ [(A, sa); (P, sp)]) with ([(L, sl)] ++ combine ms sm ++ [(A, sa); (P, sp)]).
  apply (segment_fits _ [(L, sl)] _ P).
  { cbn [rev app layout_c_loop]. destruct (Nat.eqb_spec L 1); [reflexivity|]. destruct Xl as [Xl|Xl]; [contradiction|].
    rewrite Xl, Nat.eqb_refl. reflexivity. }
  1, 2: cbn [map fst prod]; rewrite Nat.mul_1_r.
  { apply Hcut. exists k. exact Hk. }
  apply (segment_fits _ _ _ _ _ Xm); rewrite combine_fst by exact Hlm; fold M; rewrite <- Nat.mul_assoc.
  { apply Hcut. exact C1. }
  rewrite <- (app_nil_r [(A, sa); (P, sp)]).
  assert (Xap : exists c, layout_c_loop (rev [(A, sa); (P, sp)]) c = true).
  { destruct HAP as [-> | ->].
    - exists 1. cbn [rev app layout_c_loop Nat.eqb]. destruct (Nat.eqb_spec P 1); [reflexivity|].
      destruct Xp as [Xp|Xp]; [contradiction|]. rewrite Xp. reflexivity.
    - exists sa. cbn [rev app layout_c_loop Nat.eqb]. rewrite Nat.eqb_refl. destruct (A =? 1); reflexivity. }
  destruct Xap as [c Xap]. apply (segment_fits _ _ _ _ _ Xap); [|exact I].
  cbn [map fst prod]. rewrite Nat.mul_1_r. exists (length shape'). rewrite firstn_all, prod_shape', prod_shape. lia.
Qed.

Section view.
Context (view : list nat) (Hv : length view = length shape')
  (Ho : offsets (combine shape' view) = offsets (combine swapped swapped_strides)).

Lemma view_contiguous : is_contiguous shape' view = true.
Proof.
  apply perm_contiguous; [exact Hv| |exact shape'_pos|].
  - unfold shape'. rewrite !app_length. cbn [length]. lia.
  - rewrite Ho, prod_shape'. exact swapped_permutation.
Qed.

(* the positions for the new axes *)
Lemma view_parts : exists v1 s1, length v1 = length (ms ++ [L])
  /\ forall i q k, i < L * M -> q < A -> k < P ->
       nth i (offsets (combine (ms ++ [L]) v1)) 0 + (q * P + k) * s1
       = nth i (shifted (steps L P) (steps M (L * P))) 0 + (q * (M * (L * P)) + k).
Proof.
  assert (Es : shape' = pre ++ (ms ++ [L]) ++ [A * P]) by (unfold shape'; rewrite <- app_assoc; reflexivity).
  assert (Lv : length view = length pre + length (ms ++ [L]) + 1) by (rewrite Hv, Es, !app_length; cbn [length]; lia).
  set (v0 := firstn (length pre) view). set (v1 := firstn (length (ms ++ [L])) (skipn (length pre) view)).
  destruct (skipn (length (ms ++ [L])) (skipn (length pre) view)) as [|s1 [|? ?]] eqn:E.
  1, 3: apply (f_equal (@length nat)) in E; rewrite !skipn_length in E; cbn [length] in E; lia.
  assert (Ev : view = v0 ++ v1 ++ [s1]) by (rewrite <- E; unfold v0, v1; rewrite !firstn_skipn; reflexivity).
  assert (L0 : length v0 = length pre) by (unfold v0; apply firstn_length_le; lia).
  assert (L1 : length v1 = length (ms ++ [L])) by (unfold v1; apply firstn_length_le; rewrite skipn_length; lia).
  exists v1, s1. split; [exact L1|]. intros i q k Hi Hq Hk.
  rewrite offsets_swapped, Ev, Es in Ho. rewrite combine_app_eq, offsets_app in Ho by exact L0.
  rewrite combine_app_eq, offsets_app in Ho by exact L1. cbn [combine] in Ho. rewrite offsets_one in Ho.
  rewrite <- (shifted_assoc (steps L P)) in Ho. set (o1 := offsets (combine (ms ++ [L]) v1)) in *.
  set (o2 := shifted (steps L P) (steps M (L * P))) in *.
  assert (N1 : length o1 = L * M) by (unfold o1; rewrite offsets_length, combine_fst, prod_app by exact L1; cbn [prod]; fold M; lia).
  assert (N2 : length o2 = L * M) by (unfold o2; rewrite shifted_length, !steps_length; reflexivity).
  assert (Hqk : q * P + k < A * P) by nia.
  assert (N3 : length (offsets (combine pre v0)) = prod pre) by (rewrite offsets_length, combine_fst by exact L0; reflexivity).
  assert (N4 : length opre = prod pre) by (unfold opre; rewrite offsets_length, combine_fst by exact Hl0; reflexivity).
  pose proof (prod_pos _ Hpre) as P0. set (x := i * (A * P) + (q * P + k)).
  assert (Hx : x < L * M * (A * P)) by (unfold x; nia).
  pose proof (nth_shifted (offsets (combine pre v0)) (shifted o1 (steps (A * P) s1)) 0 x) as Y.
  rewrite N3, shifted_length, N1, steps_length, nth_0_offsets in Y. specialize (Y P0 Hx).
  pose proof (nth_shifted o1 (steps (A * P) s1) i (q * P + k)) as Y'. rewrite N1, steps_length in Y'. specialize (Y' Hi Hqk).
  rewrite nth_steps in Y' by exact Hqk. fold x in Y'. rewrite Y' in Y.
  pose proof (nth_shifted opre (shifted o2 (shifted (steps A (M * (L * P))) (steps P 1))) 0 x) as Z.
  rewrite N4, !shifted_length, N2, !steps_length in Z. unfold opre in Z. rewrite nth_0_offsets in Z. fold opre in Z. specialize (Z P0 Hx).
  pose proof (nth_shifted o2 (shifted (steps A (M * (L * P))) (steps P 1)) i (q * P + k)) as Z'.
  rewrite N2, shifted_length, !steps_length in Z'. specialize (Z' Hi Hqk). fold x in Z'. rewrite Z' in Z.
  pose proof (nth_shifted (steps A (M * (L * P))) (steps P 1) q k) as W. rewrite !steps_length in W. specialize (W Hq Hk).
  rewrite !nth_steps in W by assumption. rewrite W in Z.
  cbn [Nat.mul Nat.add] in Y, Z. rewrite Ho in Y. fold x in Z. rewrite Z in Y. lia.
Qed.

Lemma last_axis : 2 <= A -> 2 <= P -> M = 1 /\ L = 1.
Proof.
  intros HA2 HP2. destruct view_parts as (v1 & s1 & _ & X). pose proof M_pos as HM.
  assert (HLM : 0 < L * M) by nia.
  pose proof (X 0 0 0 HLM ltac:(lia) ltac:(lia)) as X0. pose proof (X 0 0 1 HLM ltac:(lia) ltac:(lia)) as X1.
  pose proof (X 0 1 0 HLM ltac:(lia) ltac:(lia)) as X2. rewrite nth_0_offsets in *.
  assert (s1 = 1) by lia. subst s1. assert (M * L * P = P) by nia. assert (M * L = 1) by nia. nia.
Qed.

Lemma separated : cut_of (ms ++ [L]) L.
Proof.
  pose proof M_pos as HM.
  destruct (le_lt_dec 2 L) as [HL2|HL2]; [|exists 0; cbn [firstn prod]; lia].
  destruct (le_lt_dec 2 M) as [HM2|HM2].
  2: { exists (length (ms ++ [L])). rewrite firstn_all, prod_app. fold M. cbn [prod]. nia. }
  destruct view_parts as (v1 & s1 & Hv1 & X).
  apply (cut_needed P L M HP HL2 HM2 _ v1); [exact Hv1| |lia|rewrite prod_app; fold M; cbn [prod]; lia|].
  - apply Forall_app. split; [exact Hms|]. constructor; [exact HL|constructor].
  - intros i j Hi Hj. pose proof (X (i * M + j) 0 0 ltac:(nia) HA HP) as Y. cbn [Nat.mul Nat.add] in Y. rewrite !Nat.add_0_r in Y.
    rewrite Y. pose proof (nth_shifted (steps L P) (steps M (L * P)) i j) as Z. rewrite !steps_length in Z.
    rewrite Z by assumption. rewrite !nth_steps by assumption. reflexivity.
Qed.

Lemma view_standard : is_standard_layout shape' view = true <-> offsets (combine swapped swapped_strides) = seq 0 (prod shape).
Proof. rewrite (standard_iff shape' view Hv), Ho, prod_shape'. reflexivity. Qed.

End view.

Lemma in_order_iff : A = 1 \/ P = 1 -> (offsets (combine swapped swapped_strides) = seq 0 (prod shape) <-> ~ several_axes).
Proof.
  intros HAP. pose proof M_pos as HM. split.
  - intros E X. assert (N4 : length opre = prod pre) by (unfold opre; rewrite offsets_length, combine_fst by exact Hl0; reflexivity).
    pose proof (prod_pos _ Hpre) as P0.
    assert (G : forall l m q k, l < L -> m < M -> q < A -> k < P ->
      l * (M * (A * P)) + (m * (A * P) + (q * P + k)) = l * P + (m * (L * P) + (q * (M * (L * P)) + k))).
    { intros l m q k Hll Hm Hq Hk. set (x := l * (M * (A * P)) + (m * (A * P) + (q * P + k))).
      assert (B1 : q * P + k < A * P) by nia. assert (B2 : m * (A * P) + (q * P + k) < M * (A * P)) by nia.
      assert (B3 : x < L * (M * (A * P))) by (unfold x; nia).
      rewrite offsets_swapped in E. 
      pose proof (nth_shifted opre (shifted (steps L P) (shifted (steps M (L * P)) (shifted (steps A (M * (L * P))) (steps P 1)))) 0 x) as Z.
      rewrite E, N4, !shifted_length, !steps_length in Z. unfold opre in Z. rewrite nth_0_offsets in Z. fold opre in Z. specialize (Z P0 B3).
      change (0 * (L * (M * (A * P))) + x) with x in Z. rewrite seq_nth in Z by (rewrite prod_shape; nia). rewrite Nat.add_0_l in Z. rewrite Z. rewrite Nat.add_0_l.
      pose proof (nth_shifted (steps L P) (shifted (steps M (L * P)) (shifted (steps A (M * (L * P))) (steps P 1))) l (m * (A * P) + (q * P + k))) as Z1.
      rewrite !shifted_length, !steps_length in Z1. fold x in Z1. rewrite Z1 by assumption. rewrite nth_steps by exact Hll. f_equal.
      pose proof (nth_shifted (steps M (L * P)) (shifted (steps A (M * (L * P))) (steps P 1)) m (q * P + k)) as Z2.
      rewrite !shifted_length, !steps_length in Z2. rewrite Z2 by assumption. rewrite nth_steps by exact Hm. f_equal.
      pose proof (nth_shifted (steps A (M * (L * P))) (steps P 1) q k) as Z3.
      rewrite !steps_length in Z3. rewrite Z3 by assumption. rewrite !nth_steps by assumption. lia. }
    destruct (le_lt_dec 2 L) as [HL2|HL2].
    + pose proof (G 1 0 0 0 ltac:(lia) HM HA HP) as Y. rewrite !Nat.mul_0_l, !Nat.add_0_r, !Nat.mul_1_l in Y.
      assert (M * A * P = P) by lia. assert (M * A = 1) by nia. assert (M = 1 /\ A = 1) by nia. unfold several_axes in X. lia.
    + assert (L = 1) by lia. unfold several_axes in X. destruct HAP as [HAP|HAP]; [lia|].
      pose proof (G 0 0 1 0 ltac:(lia) HM ltac:(lia) HP) as Y. rewrite HAP in Y. rewrite !Nat.mul_0_l, !Nat.add_0_r, !Nat.add_0_l, !Nat.mul_1_l in Y. nia.
  - intros X. unfold several_axes in X. rewrite <- all_in_order, offsets_all, offsets_swapped. f_equal.
    assert (C : (M = 1 /\ A = 1) \/ (A = 1 /\ L = 1) \/ (M = 1 /\ L = 1)) by lia.
    destruct C as [[C1 C2]|[[C1 C2]|[C1 C2]]]; rewrite C1, C2, !steps_1, !shifted_0; reflexivity.
Qed.

Lemma not_empty_standard : is_standard_layout shape' r = true <-> ~ exchanged.
Proof.
  pose proof prod_shape_pos as Hp. pose proof M_pos as HM.
  destruct (to_shape_cases _ _ _ _ swapped_length H ltac:(rewrite prod_swapped; exact Hp)) as (_ & [(view & Er & Hv & Ho & Hr)|[[e Er] Hr]]); rewrite Hr.
  - rewrite (view_contiguous view Hv Ho), (view_standard view Hv Ho).
    destruct (Nat.eq_dec A 1) as [EA|EA]; [|destruct (Nat.eq_dec P 1) as [EP|EP]].
    1, 2: rewrite in_order_iff by auto; unfold exchanged; pose proof (separated view Hv Ho); tauto.
    destruct (last_axis view Hv Ho ltac:(lia) ltac:(lia)) as [E1 E2]. split; [intros _ [[X|X] _]; contradiction|intros _].
    rewrite <- all_in_order, offsets_all, offsets_swapped. f_equal. rewrite E1, E2, !steps_1, !shifted_0. reflexivity.
  - split; [intros _ (HAP & Hc & _)|intros _; apply default_standard].
    destruct (view_exists HAP Hc) as [view Ev]. congruence.
Qed.

End not_empty.

Lemma any_standard : is_standard_layout shape' r = true <-> ~ (prod shape <> 0 /\ exchanged).
Proof.
  destruct (Nat.eq_dec (prod shape) 0) as [E|E].
  - split; [intros _ [X _]; contradiction|intros _]. unfold is_standard_layout.
    replace (existsb (Nat.eqb 0) shape') with true; [reflexivity|]. symmetry. apply existsb_zero. rewrite prod_shape'. exact E.
  - pose proof (prod_nonzero _ E) as F. unfold shape in F. apply Forall_app in F as [F1 F2].
    pose proof (Forall_inv F2) as HA. apply Forall_inv_tail in F2. apply Forall_app in F2 as [F2 F3].
    pose proof (Forall_inv F3) as HL. pose proof (Forall_inv (Forall_inv_tail F3)) as HP. cbv beta in HA, HL, HP.
    rewrite not_empty_standard by assumption. tauto.
Qed.

End swapped.
