(* Lemmas about the helpers of Base.v *)
From Coq Require Import Permutation Sorting.Sorted.
From Verif Require Import Base.
Local Open Scope list_scope.
Local Open Scope nat_scope.

(** * Outcomes *)

Lemma bind_ok {A B} (o : outcome A) (f : A -> outcome B) b :
  bind o f = Ok b <-> exists a, o = Ok a /\ f a = Ok b.
Proof.
  split.
  - destruct o; simpl; intros H; try discriminate. eauto.
  - intros (a & -> & H). exact H.
Qed.

Lemma expect_ok {A} m (o : outcome A) a : expect m o = Ok a <-> o = Ok a.
Proof. destruct o; simpl; split; congruence. Qed.

Lemma expect_some_ok {A} m (o : option A) a : expect_some m o = Ok a <-> o = Some a.
Proof. destruct o; simpl; split; congruence. Qed.

Lemma assert_ok c m u : assert_ c m = Ok u <-> c = true.
Proof. unfold assert_; destruct c, u; split; congruence. Qed.

Lemma debug_assert_true p m : debug_assert p true m = Ok tt.
Proof. destruct p; reflexivity. Qed.

Ltac bind_inv H :=
  let a := fresh "a" in
  let Ha := fresh "Hb" in
  apply bind_ok in H; destruct H as (a & Ha & H).

Lemma mapM_ok {A B} (f : A -> outcome B) l ys :
  mapM f l = Ok ys <-> Forall2 (fun x y => f x = Ok y) l ys.
Proof.
  revert ys; induction l as [|x l IH]; simpl; intros ys; split.
  - intros H; inversion H; constructor.
  - intros H; inversion H; reflexivity.
  - intros H. bind_inv H. bind_inv H. inversion H; subst. constructor; auto.
    apply IH; assumption.
  - intros H. inversion H as [|? y ? ys' Hy Hys]; subst. rewrite Hy. simpl.
    apply IH in Hys. rewrite Hys. reflexivity.
Qed.

Lemma mapM_ext {A B} (f g : A -> outcome B) l :
  (forall x, In x l -> f x = g x) -> mapM f l = mapM g l.
Proof.
  induction l as [|x l IH]; simpl; intros H; [reflexivity|].
  rewrite (H x) by auto. rewrite IH by auto. reflexivity.
Qed.

Lemma mapM_ok_map {A B} (f : A -> outcome B) (g : A -> B) l :
  (forall x, In x l -> f x = Ok (g x)) -> mapM f l = Ok (map g l).
Proof.
  induction l as [|x l IH]; simpl; intros H; [reflexivity|].
  rewrite (H x) by auto. simpl. rewrite IH by auto. reflexivity.
Qed.

Lemma foldM_app {A S} (f : S -> A -> outcome S) l1 l2 s :
  foldM f (l1 ++ l2) s = bind (foldM f l1 s) (foldM f l2).
Proof.
  revert s; induction l1 as [|x l1 IH]; simpl; intros s; [reflexivity|].
  destruct (f s x); simpl; auto.
Qed.

Lemma foldM_inv {A S} (f : S -> A -> outcome S) (P : S -> Prop) l s s' :
  (forall s x s', In x l -> P s -> f s x = Ok s' -> P s') ->
  P s -> foldM f l s = Ok s' -> P s'.
Proof.
  revert s; induction l as [|x l IH]; simpl; intros s Hstep Hs H.
  - inversion H; subst; assumption.
  - bind_inv H. eapply IH; [| |exact H].
    + intros; eapply Hstep; eauto.
    + eapply Hstep; eauto.
Qed.

Lemma Forall2_impl {A B} (P Q : A -> B -> Prop) l r :
  (forall x y, P x y -> Q x y) -> Forall2 P l r -> Forall2 Q l r.
Proof. intros H; induction 1; constructor; auto. Qed.

Lemma Forall2_len {A B} (P : A -> B -> Prop) l1 l2 : Forall2 P l1 l2 -> length l1 = length l2.
Proof. induction 1; simpl; congruence. Qed.

Lemma Forall2_nth_error_l {A B} (P : A -> B -> Prop) l1 l2 i x :
  Forall2 P l1 l2 -> nth_error l1 i = Some x ->
  exists y, nth_error l2 i = Some y /\ P x y.
Proof.
  intros H; revert i; induction H as [|a b l1 l2 Hab H IH]; intros [|i] Hi; simpl in *; try discriminate.
  - inversion Hi; subst; eauto.
  - eauto.
Qed.

Lemma Forall2_nth_error_r {A B} (P : A -> B -> Prop) l1 l2 i y :
  Forall2 P l1 l2 -> nth_error l2 i = Some y ->
  exists x, nth_error l1 i = Some x /\ P x y.
Proof.
  intros H; revert i; induction H as [|a b l1 l2 Hab H IH]; intros [|i] Hi; simpl in *; try discriminate.
  - inversion Hi; subst; eauto.
  - eauto.
Qed.

Lemma Forall2_In_l {A B} (P : A -> B -> Prop) l1 l2 x :
  Forall2 P l1 l2 -> In x l1 -> exists y, In y l2 /\ P x y.
Proof.
  intros H Hx. apply In_nth_error in Hx as [i Hi].
  destruct (Forall2_nth_error_l _ _ _ _ _ H Hi) as (y & Hy & Hp).
  eauto using nth_error_In.
Qed.

Lemma Forall2_In_r {A B} (P : A -> B -> Prop) l1 l2 y :
  Forall2 P l1 l2 -> In y l2 -> exists x, In x l1 /\ P x y.
Proof.
  intros H Hx. apply In_nth_error in Hx as [i Hi].
  destruct (Forall2_nth_error_r _ _ _ _ _ H Hi) as (y' & Hy & Hp).
  eauto using nth_error_In.
Qed.

Lemma Forall2_map_eq {A B C} (f : A -> C) (g : B -> C) l1 l2 :
  Forall2 (fun x y => f x = g y) l1 l2 -> map f l1 = map g l2.
Proof. induction 1; simpl; congruence. Qed.

Lemma Forall2_nth_error_intro {A B} (P : A -> B -> Prop) l1 l2 :
  length l1 = length l2 ->
  (forall i x y, nth_error l1 i = Some x -> nth_error l2 i = Some y -> P x y) ->
  Forall2 P l1 l2.
Proof.
  revert l2; induction l1 as [|x l1 IH]; intros [|y l2] Hl H; simpl in *; try discriminate; constructor.
  - apply (H 0); reflexivity.
  - apply IH; [lia|]. intros i a b Ha Hb. apply (H (S i)); assumption.
Qed.

(** * Boolean equality *)

Lemma list_eqb_spec {A} (eqb : A -> A -> bool) :
  (forall x y, eqb x y = true <-> x = y) ->
  forall l1 l2, list_eqb eqb l1 l2 = true <-> l1 = l2.
Proof.
  intros Heq; induction l1 as [|x l1 IH]; intros [|y l2]; simpl; split; try congruence.
  - rewrite andb_true_iff, Heq, IH. intros [-> ->]; reflexivity.
  - intros H; inversion H; subst. rewrite andb_true_iff, Heq, IH. auto.
Qed.

Lemma row_eqb_eq r1 r2 : row_eqb r1 r2 = true <-> r1 = r2.
Proof. apply list_eqb_spec. intros; apply Z.eqb_eq. Qed.

Lemma names_eqb_eq r1 r2 : names_eqb r1 r2 = true <-> r1 = r2.
Proof. apply list_eqb_spec. intros; apply String.eqb_eq. Qed.

Lemma row_eqb_refl r : row_eqb r r = true.
Proof. apply row_eqb_eq; reflexivity. Qed.

Lemma row_eqb_neq r1 r2 : row_eqb r1 r2 = false <-> r1 <> r2.
Proof. rewrite <- not_true_iff_false, row_eqb_eq. reflexivity. Qed.

Lemma names_eqb_refl r : names_eqb r r = true.
Proof. apply names_eqb_eq; reflexivity. Qed.

Lemma mem_spec {A} (eqb : A -> A -> bool) (Heq : forall x y, eqb x y = true <-> x = y) x l :
  mem eqb x l = true <-> In x l.
Proof.
  unfold mem. rewrite existsb_exists. split.
  - intros (y & Hy & He). apply Heq in He; subst; assumption.
  - intros H. exists x. split; [assumption|apply Heq; reflexivity].
Qed.

Lemma mem_false {A} (eqb : A -> A -> bool) (Heq : forall x y, eqb x y = true <-> x = y) x l :
  mem eqb x l = false <-> ~ In x l.
Proof. rewrite <- (mem_spec eqb Heq x l), not_true_iff_false. reflexivity. Qed.

Lemma memS x l : mem String.eqb x l = true <-> In x l.
Proof. apply mem_spec. apply String.eqb_eq. Qed.

Lemma memS_false x l : mem String.eqb x l = false <-> ~ In x l.
Proof. apply mem_false. apply String.eqb_eq. Qed.

Lemma memR x l : mem row_eqb x l = true <-> In x l.
Proof. apply mem_spec. apply row_eqb_eq. Qed.

Lemma memR_false x l : mem row_eqb x l = false <-> ~ In x l.
Proof. apply mem_false. apply row_eqb_eq. Qed.

Lemma count_distinct_le {A} (eqb : A -> A -> bool) l : count_distinct eqb l <= length l.
Proof. induction l as [|x l IH]; simpl; [lia|]. destruct (mem eqb x l); lia. Qed.

Lemma count_distinct_NoDup {A} (eqb : A -> A -> bool) (Heq : forall x y, eqb x y = true <-> x = y) l :
  count_distinct eqb l = length l <-> NoDup l.
Proof.
  induction l as [|x l IH]; simpl.
  - split; [constructor|reflexivity].
  - destruct (mem eqb x l) eqn:Hm.
    + apply (mem_spec eqb Heq) in Hm. split.
      * intros H. pose proof (count_distinct_le eqb l). lia.
      * intros H; inversion H; contradiction.
    + apply (mem_false eqb Heq) in Hm. split.
      * intros H. constructor; [assumption|]. apply IH. lia.
      * intros H; inversion H; subst. f_equal. apply IH; assumption.
Qed.

(** * Association lists *)

Section HashMap.
  Context {K V : Type} (eqb : K -> K -> bool).
  Hypothesis Heq : forall x y, eqb x y = true <-> x = y.

  Lemma hm_get_In (m : list (K * V)) k v : hm_get eqb m k = Some v -> In (k, v) m.
  Proof.
    induction m as [|[k' v'] m IH]; simpl; [discriminate|].
    destruct (eqb k k') eqn:E.
    - apply Heq in E; subst. intros H; inversion H; subst; auto.
    - auto.
  Qed.

  Lemma hm_get_None (m : list (K * V)) k : hm_get eqb m k = None <-> ~ In k (map fst m).
  Proof.
    induction m as [|[k' v'] m IH]; simpl; [tauto|].
    destruct (eqb k k') eqn:E.
    - apply Heq in E; subst. split; [discriminate|]. intros H; exfalso; auto.
    - rewrite IH. split.
      + intros H [->|H']; [|contradiction]. rewrite (proj2 (Heq k k) eq_refl) in E; discriminate.
      + intros H H'; apply H; auto.
  Qed.

  Lemma In_hm_get (m : list (K * V)) k v :
    NoDup (map fst m) -> In (k, v) m -> hm_get eqb m k = Some v.
  Proof.
    induction m as [|[k' v'] m IH]; simpl; intros Hnd Hin; [contradiction|].
    inversion Hnd; subst. destruct Hin as [Hin|Hin].
    - inversion Hin; subst. rewrite (proj2 (Heq k k) eq_refl). reflexivity.
    - destruct (eqb k k') eqn:E.
      + apply Heq in E; subst. exfalso. apply H1. change k' with (fst (k', v)). apply in_map; assumption.
      + auto.
  Qed.

  Lemma hm_get_iff (m : list (K * V)) k v :
    NoDup (map fst m) -> (hm_get eqb m k = Some v <-> In (k, v) m).
  Proof. intros H; split; [apply hm_get_In | apply In_hm_get; assumption]. Qed.

  Lemma hm_get_app (m1 m2 : list (K * V)) k :
    hm_get eqb (m1 ++ m2) k = match hm_get eqb m1 k with Some v => Some v | None => hm_get eqb m2 k end.
  Proof.
    induction m1 as [|[k' v'] m1 IH]; simpl; [reflexivity|].
    destruct (eqb k k'); auto.
  Qed.

  Lemma hm_contains_spec (m : list (K * V)) k : hm_contains eqb m k = true <-> In k (map fst m).
  Proof.
    unfold hm_contains. destruct (hm_get eqb m k) eqn:E.
    - split; [|reflexivity]. intros _. apply hm_get_In in E. change k with (fst (k, v)). apply in_map; assumption.
    - apply hm_get_None in E. split; [discriminate|contradiction].
  Qed.

  Lemma hm_get_map {W} (f : V -> W) (m : list (K * V)) k :
    hm_get eqb (map (fun kv => (fst kv, f (snd kv))) m) k = option_map f (hm_get eqb m k).
  Proof.
    induction m as [|[k' v'] m IH]; simpl; [reflexivity|].
    destruct (eqb k k'); auto.
  Qed.

  Lemma hm_get_perm (m1 m2 : list (K * V)) k :
    NoDup (map fst m1) -> Permutation m1 m2 -> hm_get eqb m1 k = hm_get eqb m2 k.
  Proof.
    intros Hnd Hp.
    assert (Hnd2 : NoDup (map fst m2)).
    { eapply Permutation_NoDup; [|exact Hnd]. apply Permutation_map; assumption. }
    destruct (hm_get eqb m1 k) as [v|] eqn:E1.
    - apply hm_get_In in E1. symmetry. apply In_hm_get; [assumption|].
      eapply Permutation_in; eauto.
    - symmetry. apply hm_get_None. apply hm_get_None in E1. intros H; apply E1.
      eapply Permutation_in; [|exact H]. apply Permutation_map. symmetry; assumption.
  Qed.
End HashMap.

(** * List surgery *)

Lemma set_nth_length {A} (l : list A) i x : length (set_nth l i x) = length l.
Proof. revert i; induction l as [|y l IH]; intros [|i]; simpl; auto. Qed.

Lemma nth_error_set_nth {A} (l : list A) i j x :
  nth_error (set_nth l i x) j =
  if (j =? i) && (i <? length l) then Some x else nth_error l j.
Proof.
  revert i j; induction l as [|y l IH]; intros [|i] [|j]; simpl; try reflexivity.
  - rewrite andb_false_r. reflexivity.
  - rewrite IH. reflexivity.
Qed.

Lemma set_slice_ok {A} (l : list A) i x l' :
  set_slice l i x = Ok l' <-> i < length l /\ l' = set_nth l i x.
Proof.
  unfold set_slice. destruct (i <? length l) eqn:E.
  - apply Nat.ltb_lt in E. split; [|intros [_ ->]; reflexivity]. intros H; inversion H; auto.
  - apply Nat.ltb_ge in E. split; [discriminate|]. intros [H _]; lia.
Qed.

Lemma index_slice_ok {A} (l : list A) i x : index_slice l i = Ok x <-> nth_error l i = Some x.
Proof. unfold index_slice. destruct (nth_error l i); split; congruence. Qed.

Lemma nth_error_firstn_lt {A} (l : list A) n i : i < n -> nth_error (firstn n l) i = nth_error l i.
Proof.
  revert n i; induction l as [|x l IH]; intros [|n] [|i] H; simpl; try lia; try reflexivity.
  apply IH; lia.
Qed.

Lemma nth_error_skipn {A} (l : list A) n i : nth_error (skipn n l) i = nth_error l (n + i).
Proof.
  revert l; induction n as [|n IH]; intros l; simpl; [reflexivity|].
  destruct l as [|x l]; simpl; [destruct i; reflexivity|apply IH].
Qed.

Lemma nth_error_ext {A} (l1 l2 : list A) :
  (forall i, nth_error l1 i = nth_error l2 i) -> l1 = l2.
Proof.
  revert l2; induction l1 as [|x l1 IH]; intros [|y l2] H.
  - reflexivity.
  - specialize (H 0); discriminate.
  - specialize (H 0); discriminate.
  - f_equal; [specialize (H 0); simpl in H; congruence|].
    apply IH. intros i. apply (H (S i)).
Qed.

Lemma nth_error_seq start n i : nth_error (seq start n) i = if i <? n then Some (start + i) else None.
Proof.
  revert start i; induction n as [|n IH]; intros start [|i]; simpl; try reflexivity.
  - f_equal; lia.
  - rewrite IH. destruct (i <? n) eqn:E.
    + assert (S i <? S n = true) as -> by (apply Nat.ltb_lt; apply Nat.ltb_lt in E; lia). f_equal; lia.
    + assert (S i <? S n = false) as -> by (apply Nat.ltb_ge; apply Nat.ltb_ge in E; lia). reflexivity.
Qed.

Lemma nth_error_combine {A B} (l1 : list A) (l2 : list B) i x y :
  nth_error (combine l1 l2) i = Some (x, y) <-> nth_error l1 i = Some x /\ nth_error l2 i = Some y.
Proof.
  revert l2 i; induction l1 as [|a l1 IH]; intros [|b l2] [|i]; simpl; split; intros H;
    try discriminate; try (destruct H; discriminate).
  - inversion H; auto.
  - destruct H as [H1 H2]; congruence.
  - apply IH; assumption.
  - apply IH; assumption.
Qed.

Lemma combine_length_eq {A B} (l1 : list A) (l2 : list B) :
  length l1 = length l2 -> length (combine l1 l2) = length l1.
Proof. intros H; rewrite combine_length, H, Nat.min_id; reflexivity. Qed.

Lemma NoDup_nth_error_inj {A} (l : list A) i j x :
  NoDup l -> nth_error l i = Some x -> nth_error l j = Some x -> i = j.
Proof.
  intros Hnd Hi Hj. apply (proj1 (NoDup_nth_error l) Hnd).
  - apply nth_error_Some; congruence.
  - congruence.
Qed.

Lemma firstn_app_exact {A} n (a b : list A) : length a = n -> firstn n (a ++ b) = a.
Proof. intros <-. rewrite firstn_app, Nat.sub_diag, firstn_all. simpl. apply app_nil_r. Qed.

Lemma skipn_app_exact {A} n (a b : list A) : length a = n -> skipn n (a ++ b) = b.
Proof. intros <-. rewrite skipn_app, Nat.sub_diag, skipn_all. reflexivity. Qed.

(** * chunks_exact *)

Lemma firstn_skipn_concat {A} (n : nat) (rows : list (list A)) i r :
  Forall (fun r => length r = n) rows ->
  nth_error rows i = Some r ->
  firstn n (skipn (i * n) (concat rows)) = r.
Proof.
  intros Hf; revert i; induction Hf as [|r0 rows Hr Hf IH]; intros [|i] Hi; simpl in *; try discriminate.
  - inversion Hi; subst. rewrite firstn_app, Nat.sub_diag, firstn_all. simpl. rewrite app_nil_r. reflexivity.
  - rewrite skipn_app. rewrite (skipn_all2 r0) by lia. simpl.
    replace (n + i * n - length r0) with (i * n) by lia. auto.
Qed.

Lemma length_concat_const {A} (n : nat) (rows : list (list A)) :
  Forall (fun r => length r = n) rows -> length (concat rows) = length rows * n.
Proof. induction 1 as [|r rows Hr Hf IH]; simpl; [reflexivity|]. rewrite app_length, IH, Hr. lia. Qed.

Lemma chunks_exact_concat {A} (n : nat) (rows : list (list A)) :
  n <> 0 -> Forall (fun r => length r = n) rows -> chunks_exact n (concat rows) = rows.
Proof.
  intros Hn Hf. unfold chunks_exact. rewrite (length_concat_const n) by assumption.
  rewrite Nat.div_mul by assumption.
  apply nth_error_ext. intros i. rewrite nth_error_map, nth_error_seq.
  destruct (i <? length rows) eqn:E; simpl.
  - apply Nat.ltb_lt in E. destruct (nth_error rows i) as [r|] eqn:Er.
    + f_equal. apply firstn_skipn_concat; assumption.
    + apply nth_error_None in Er; lia.
  - apply Nat.ltb_ge in E. symmetry. apply nth_error_None; assumption.
Qed.

Lemma chunks_exact_length {A} n (l : list A) : length (chunks_exact n l) = length l / n.
Proof. unfold chunks_exact. rewrite map_length, seq_length. reflexivity. Qed.

Lemma chunks_exact_rows {A} n (l : list A) :
  n <> 0 -> Forall (fun r => length r = n) (chunks_exact n l).
Proof.
  intros Hn. unfold chunks_exact. apply Forall_forall. intros r Hr.
  apply in_map_iff in Hr as (i & <- & Hi). apply in_seq in Hi.
  rewrite firstn_length, skipn_length.
  assert (n * (length l / n) <= length l) by (apply Nat.mul_div_le; assumption).
  assert ((i + 1) * n <= (length l / n) * n) by (apply Nat.mul_le_mono_r; lia).
  nia.
Qed.

Lemma concat_chunks_exact {A} n (l : list A) :
  n <> 0 -> (exists k, length l = k * n) -> concat (chunks_exact n l) = l.
Proof.
  intros Hn [k Hk].
  assert (exists rows, l = concat rows /\ Forall (fun r => length r = n) rows) as (rows & -> & Hf).
  { revert l Hk. induction k as [|k IH]; intros l Hk.
    - destruct l; [|discriminate]. exists []. auto.
    - destruct (IH (skipn n l)) as (rows & E & Hf).
      + rewrite skipn_length. nia.
      + exists (firstn n l :: rows). simpl. rewrite <- E, firstn_skipn. split; [reflexivity|].
        constructor; [|assumption]. rewrite firstn_length. nia. }
  rewrite chunks_exact_concat by assumption. reflexivity.
Qed.

(** * IndexSet: order of first appearance *)

Fixpoint nub (l : list (list Z)) : list (list Z) :=
  match l with
  | [] => []
  | x :: r => x :: filter (fun y => negb (row_eqb y x)) (nub r)
  end.

Lemma filter_filter {A} (f g : A -> bool) l : filter f (filter g l) = filter (fun x => g x && f x) l.
Proof.
  induction l as [|x l IH]; simpl; [reflexivity|].
  destruct (g x); simpl; [destruct (f x); rewrite IH; reflexivity | exact IH].
Qed.

Lemma filter_true {A} (f : A -> bool) l : (forall x, In x l -> f x = true) -> filter f l = l.
Proof.
  induction l as [|x l IH]; simpl; intros H; [reflexivity|].
  rewrite (H x) by auto. rewrite IH by auto. reflexivity.
Qed.

Lemma is_insert_all_acc l : forall s,
  is_insert_all row_eqb s l = s ++ filter (fun y => negb (mem row_eqb y s)) (nub l).
Proof.
  induction l as [|x l IH]; intros s; simpl.
  - rewrite app_nil_r. reflexivity.
  - unfold is_insert_all in *. simpl. rewrite IH. unfold is_insert.
    destruct (mem row_eqb x s) eqn:E; simpl.
    + f_equal. rewrite filter_filter. apply filter_ext. intros y.
      destruct (row_eqb y x) eqn:Ey; simpl; [|reflexivity].
      apply row_eqb_eq in Ey; subst. rewrite E. reflexivity.
    + rewrite <- app_assoc. simpl. f_equal. f_equal. rewrite filter_filter. apply filter_ext. intros y.
      unfold mem. rewrite existsb_app. simpl. rewrite orb_false_r, negb_orb, andb_comm. reflexivity.
Qed.

Lemma is_insert_all_nub l : is_insert_all row_eqb [] l = nub l.
Proof. rewrite is_insert_all_acc. simpl. apply filter_true. reflexivity. Qed.

Lemma nub_In x l : In x (nub l) <-> In x l.
Proof.
  induction l as [|y l IH]; simpl; [tauto|]. rewrite filter_In, IH. split.
  - intros [H|[H _]]; auto.
  - intros [H|H]; [auto|]. destruct (row_eqb x y) eqn:E.
    + apply row_eqb_eq in E; subst; auto.
    + right. split; [assumption|]. reflexivity.
Qed.

Lemma nub_NoDup l : NoDup (nub l).
Proof.
  induction l as [|y l IH]; simpl; constructor.
  - rewrite filter_In. intros [_ H]. rewrite row_eqb_refl in H. discriminate.
  - apply NoDup_filter; assumption.
Qed.

Lemma nub_NoDup_id l : NoDup l -> nub l = l.
Proof.
  induction 1 as [|x l Hx Hnd IH]; simpl; [reflexivity|].
  rewrite IH. f_equal. apply filter_true. intros y Hy.
  destruct (row_eqb y x) eqn:E; [|reflexivity]. apply row_eqb_eq in E; subst; contradiction.
Qed.

(** * Lexicographic order *)

Lemma row_compare_eq r1 r2 : row_compare r1 r2 = Eq <-> r1 = r2.
Proof.
  revert r2; induction r1 as [|x r1 IH]; intros [|y r2]; simpl; split; try congruence.
  - destruct (Z.compare_spec x y); try discriminate. subst. intros H'. apply IH in H'. congruence.
  - intros H; inversion H; subst. rewrite Z.compare_refl. apply IH; reflexivity.
Qed.

Lemma row_compare_antisym r1 r2 : row_compare r2 r1 = CompOpp (row_compare r1 r2).
Proof.
  revert r2; induction r1 as [|x r1 IH]; intros [|y r2]; simpl; try reflexivity.
  rewrite (Z.compare_antisym x y). destruct (Z.compare x y); simpl; auto.
Qed.

Lemma row_compare_trans r1 r2 r3 :
  row_compare r1 r2 = Lt -> row_compare r2 r3 = Lt -> row_compare r1 r3 = Lt.
Proof.
  revert r2 r3; induction r1 as [|x r1 IH]; intros [|y r2] [|z r3]; simpl; try congruence.
  intros H1 H2.
  destruct (Z.compare_spec x y); destruct (Z.compare_spec y z); try discriminate; subst.
  - rewrite Z.compare_refl. eauto.
  - rewrite (proj2 (Z.compare_lt_iff y z)) by assumption. reflexivity.
  - rewrite (proj2 (Z.compare_lt_iff x z)) by assumption. reflexivity.
  - rewrite (proj2 (Z.compare_lt_iff x z)) by lia. reflexivity.
Qed.

Definition row_lt (r1 r2 : list Z) : Prop := row_compare r1 r2 = Lt.

Lemma btree_insert_In s x y : In y (btree_insert s x) <-> y = x \/ In y s.
Proof.
  induction s as [|z s IH]; simpl; [intuition congruence|].
  destruct (row_compare x z) eqn:E; simpl.
  - apply row_compare_eq in E; subst. intuition congruence.
  - intuition congruence.
  - rewrite IH. intuition congruence.
Qed.

Lemma btree_insert_sorted s x : StronglySorted row_lt s -> StronglySorted row_lt (btree_insert s x).
Proof.
  induction 1 as [|z s Hs IH Hz]; simpl.
  - repeat constructor.
  - destruct (row_compare x z) eqn:E.
    + constructor; assumption.
    + constructor; [constructor; assumption|]. constructor; [exact E|].
      eapply Forall_impl; [|exact Hz]. intros a Ha. eapply row_compare_trans; eauto.
    + constructor; [assumption|]. apply Forall_forall. intros y Hy.
      apply btree_insert_In in Hy as [->|Hy].
      * unfold row_lt. rewrite row_compare_antisym, E. reflexivity.
      * rewrite Forall_forall in Hz. auto.
Qed.

Lemma sorted_NoDup s : StronglySorted row_lt s -> NoDup s.
Proof.
  induction 1 as [|z s Hs IH Hz]; constructor; auto.
  intros Hin. rewrite Forall_forall in Hz. specialize (Hz _ Hin).
  unfold row_lt in Hz. rewrite (proj2 (row_compare_eq z z) eq_refl) in Hz. discriminate.
Qed.

Lemma sorted_unique s1 s2 :
  StronglySorted row_lt s1 -> StronglySorted row_lt s2 ->
  (forall x, In x s1 <-> In x s2) -> s1 = s2.
Proof.
  intros H1; revert s2; induction H1 as [|x s1 Hs IH Hx]; intros s2 H2 Heq.
  - destruct s2 as [|y s2]; [reflexivity|]. exfalso. apply (Heq y). simpl; auto.
  - destruct H2 as [|y s2 Hs2 Hy].
    + exfalso. apply (Heq x). simpl; auto.
    + rewrite Forall_forall in Hx, Hy.
      assert (Hxx : forall z, ~ row_lt z z).
      { intros z Hz. unfold row_lt in Hz. rewrite (proj2 (row_compare_eq z z) eq_refl) in Hz. discriminate. }
      assert (x = y).
      { destruct (proj1 (Heq x) (or_introl eq_refl)) as [|Hin1]; [congruence|].
        destruct (proj2 (Heq y) (or_introl eq_refl)) as [|Hin2]; [congruence|].
        exfalso. apply (Hxx x). eapply row_compare_trans; [apply Hx; exact Hin2 | apply Hy; exact Hin1]. }
      subst y. f_equal. apply IH; [assumption|]. intros z. split; intros Hz.
      * destruct (proj1 (Heq z) (or_intror Hz)) as [<-|]; [|assumption].
        exfalso; apply (Hxx x); apply Hx; assumption.
      * destruct (proj2 (Heq z) (or_intror Hz)) as [<-|]; [|assumption].
        exfalso; apply (Hxx x); apply Hy; assumption.
Qed.

Lemma fold_btree_insert_In l : forall s y, In y (fold_left btree_insert l s) <-> In y s \/ In y l.
Proof.
  induction l as [|x l IH]; intros s y; simpl; [tauto|].
  rewrite IH, btree_insert_In. intuition congruence.
Qed.

Lemma fold_btree_insert_sorted l : forall s,
  StronglySorted row_lt s -> StronglySorted row_lt (fold_left btree_insert l s).
Proof.
  induction l as [|x l IH]; intros s Hs; simpl; [assumption|].
  apply IH, btree_insert_sorted; assumption.
Qed.

Lemma sort_insert_perm x s : Permutation (sort_insert x s) (x :: s).
Proof.
  induction s as [|y s IH]; simpl; [reflexivity|].
  destruct (row_compare x y); try reflexivity.
  rewrite IH. apply perm_swap.
Qed.

Lemma sort_rows_perm l : Permutation (sort_rows l) l.
Proof.
  induction l as [|x l IH]; simpl; [reflexivity|].
  rewrite sort_insert_perm, IH. reflexivity.
Qed.

Lemma sort_insert_sorted x s :
  ~ In x s -> StronglySorted row_lt s -> StronglySorted row_lt (sort_insert x s).
Proof.
  intros Hx Hs; induction Hs as [|y s Hs IH Hy]; simpl.
  - repeat constructor.
  - destruct (row_compare x y) eqn:E.
    + apply row_compare_eq in E; subst. exfalso; apply Hx; simpl; auto.
    + constructor; [constructor; assumption|]. constructor; [exact E|].
      eapply Forall_impl; [|exact Hy]. intros a Ha. eapply row_compare_trans; eauto.
    + constructor; [apply IH; simpl in Hx; tauto|]. apply Forall_forall. intros z Hz.
      apply (Permutation_in _ (sort_insert_perm x s)) in Hz. destruct Hz as [<-|Hz].
      * unfold row_lt. rewrite row_compare_antisym, E. reflexivity.
      * rewrite Forall_forall in Hy. auto.
Qed.

Lemma sort_rows_sorted l : NoDup l -> StronglySorted row_lt (sort_rows l).
Proof.
  induction 1 as [|x l Hx Hnd IH]; simpl; [constructor|].
  apply sort_insert_sorted; [|assumption].
  intros H. apply Hx. eapply Permutation_in; [apply sort_rows_perm|exact H].
Qed.

Lemma sort_rows_In x l : In x (sort_rows l) <-> In x l.
Proof.
  split; apply Permutation_in; [|symmetry]; apply sort_rows_perm.
Qed.

Lemma sort_rows_NoDup l : NoDup l -> NoDup (sort_rows l).
Proof. intros H. eapply Permutation_NoDup; [symmetry; apply sort_rows_perm|assumption]. Qed.
