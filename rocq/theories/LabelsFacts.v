(* Lemmas about Labels.v *)
From Coq Require Import Permutation.
From Verif Require Import Base BaseFacts Labels Spec.
Local Open Scope string_scope.
Local Open Scope list_scope.
Local Open Scope nat_scope.

(** * Names *)

Lemma identifier_cons c s :
  identifier (String c s) <->
  (is_letter_code (nat_of_ascii c) \/ is_underscore_code (nat_of_ascii c))
  /\ Forall (fun c => is_letter_code c \/ is_digit_code c \/ is_underscore_code c) (codes s).
Proof.
  unfold identifier, codes; simpl. split.
  - intros (c' & rest & E & H1 & H2). inversion E; subst. auto.
  - intros [H1 H2]. eauto.
Qed.

Lemma ascii_eqb_underscore c : Ascii.eqb c "_"%char = true <-> nat_of_ascii c = 95.
Proof.
  rewrite Ascii.eqb_eq. split; [intros ->; reflexivity|].
  intros H. rewrite <- (ascii_nat_embedding c), H. reflexivity.
Qed.

Lemma alphanumeric_spec c :
  is_ascii_alphanumeric c = true <-> is_letter_code (nat_of_ascii c) \/ is_digit_code (nat_of_ascii c).
Proof.
  unfold is_ascii_alphanumeric, is_ascii_digit, is_letter_code, is_digit_code.
  rewrite !orb_true_iff, !andb_true_iff, !Nat.leb_le. tauto.
Qed.

Lemma digit_spec c : is_ascii_digit c = true <-> is_digit_code (nat_of_ascii c).
Proof. unfold is_ascii_digit, is_digit_code. rewrite andb_true_iff, !Nat.leb_le. tauto. Qed.

Lemma label_name_chars_S i s :
  label_name_chars (S i) s = true <->
  Forall (fun c => is_letter_code c \/ is_digit_code c \/ is_underscore_code c) (codes s).
Proof.
  revert i; induction s as [|c s IH]; intros i; simpl.
  - split; [constructor|reflexivity].
  - unfold codes; simpl. destruct (is_ascii_alphanumeric c || Ascii.eqb c "_"%char) eqn:E; simpl.
    + rewrite IH. apply orb_true_iff in E.
      rewrite alphanumeric_spec, ascii_eqb_underscore in E. unfold is_underscore_code in *.
      split.
      * intros H. constructor; [tauto|exact H].
      * intros H; inversion H; subst. assumption.
    + split; [discriminate|]. intros H; inversion H as [|x l Hx Hl]; subst.
      apply orb_false_iff in E as [E1 E2].
      rewrite <- not_true_iff_false, alphanumeric_spec in E1.
      rewrite <- not_true_iff_false, ascii_eqb_underscore in E2. unfold is_underscore_code in *. tauto.
Qed.

Lemma is_valid_label_name_spec s : is_valid_label_name s = true <-> identifier s.
Proof.
  destruct s as [|c s].
  - simpl. split; [discriminate|]. intros (c & rest & E & _). discriminate.
  - rewrite identifier_cons. unfold is_valid_label_name. cbn [label_name_chars].
    simpl (0 =? 0). cbn [andb].
    destruct (is_ascii_digit c) eqn:Ed.
    + apply digit_spec in Ed. split; [discriminate|]. intros [[H|H] _];
        unfold is_digit_code, is_letter_code, is_underscore_code in *; lia.
    + rewrite <- not_true_iff_false, digit_spec in Ed.
      destruct (is_ascii_alphanumeric c || Ascii.eqb c "_"%char) eqn:E; simpl negb; cbn iota.
      * rewrite label_name_chars_S. apply orb_true_iff in E.
        rewrite alphanumeric_spec, ascii_eqb_underscore in E. unfold is_underscore_code. tauto.
      * split; [discriminate|]. apply orb_false_iff in E as [E1 E2].
        rewrite <- not_true_iff_false, alphanumeric_spec in E1.
        rewrite <- not_true_iff_false, ascii_eqb_underscore in E2. unfold is_underscore_code. tauto.
Qed.

Lemma identifier_no_nul s : identifier s -> has_nul s = false.
Proof.
  assert (Hg : forall s, Forall (fun c => is_letter_code c \/ is_digit_code c \/ is_underscore_code c) (codes s)
               -> has_nul s = false).
  { clear. induction s as [|c s IH]; simpl; [reflexivity|]. unfold codes; simpl.
    intros H; inversion H as [|x l Hx Hl]; subst. rewrite IH by assumption. rewrite orb_false_r.
    apply not_true_iff_false. rewrite Ascii.eqb_eq. intros ->. change (nat_of_ascii nul) with 0 in Hx.
    unfold is_letter_code, is_digit_code, is_underscore_code in Hx. lia. }
  intros (c & rest & E & H1 & H2). apply Hg. rewrite E. constructor; [tauto|assumption].
Qed.

Lemma find_invalid_none names :
  find (fun name => negb (is_valid_label_name name)) names = None <-> Forall identifier names.
Proof.
  induction names as [|n names IH]; simpl.
  - split; [constructor|reflexivity].
  - destruct (is_valid_label_name n) eqn:E; simpl.
    + apply is_valid_label_name_spec in E. rewrite IH. split; [auto|]. intros H; inversion H; assumption.
    + split; [discriminate|]. intros H; inversion H as [|x l Hx Hl]; subst.
      apply is_valid_label_name_spec in Hx. congruence.
Qed.

Lemma count_distinct_names names : (count_distinct String.eqb names =? length names) = true <-> NoDup names.
Proof. rewrite Nat.eqb_eq. apply count_distinct_NoDup. apply String.eqb_eq. Qed.

Lemma builder_new_ok names b :
  builder_new names = Ok b <-> good_names names /\ b = mk_builder names [] [].
Proof.
  unfold builder_new, good_names.
  destruct (find _ names) as [bad|] eqn:E.
  - split; [discriminate|]. intros [[H _] _]. apply find_invalid_none in H. congruence.
  - apply find_invalid_none in E.
    destruct (count_distinct String.eqb names =? length names) eqn:Ec.
    + apply count_distinct_names in Ec. split.
      * intros H; inversion H; subst. auto.
      * intros [_ ->]. reflexivity.
    + split; [discriminate|]. intros [[_ H] _]. apply count_distinct_names in H. congruence.
Qed.

Lemma builder_new_cases names :
  (exists b, builder_new names = Ok b) \/ (exists m, builder_new names = Panic m).
Proof.
  unfold builder_new. destruct (find _ names); [right; eauto|].
  destruct (_ =? _); eauto.
Qed.

(** * The invariant of the builder *)

Definition builder_inv (b : LabelsBuilder) (names : list string) (rs : list (list Z)) : Prop :=
  lb_names b = names
  /\ good_rows (length names) rs
  /\ lb_values b = concat rs
  /\ lb_positions b = combine rs (seq 0 (length rs)).

Lemma combine_seq_snoc (rs : list (list Z)) r :
  combine (rs ++ [r]) (seq 0 (length (rs ++ [r]))) = combine rs (seq 0 (length rs)) ++ [(r, length rs)].
Proof.
  rewrite app_length. simpl. rewrite seq_app. simpl.
  assert (H : forall (a : list (list Z)) (b : list nat) x y, length a = length b ->
            combine (a ++ [x]) (b ++ [y]) = combine a b ++ [(x, y)]).
  { clear. induction a as [|z a IH]; intros [|w b] x y H; simpl in *; try discriminate; [reflexivity|].
    rewrite IH by lia. reflexivity. }
  apply H. rewrite seq_length. reflexivity.
Qed.

Lemma map_fst_combine_seq (rs : list (list Z)) s : map fst (combine rs (seq s (length rs))) = rs.
Proof.
  revert s; induction rs as [|r rs IH]; intros s; simpl; [reflexivity|]. rewrite IH. reflexivity.
Qed.

Lemma NoDup_snoc {A} (l : list A) x : NoDup (l ++ [x]) <-> NoDup l /\ ~ In x l.
Proof.
  split.
  - intros H. split.
    + apply NoDup_remove_1 in H. rewrite app_nil_r in H. assumption.
    + apply NoDup_remove_2 in H. rewrite app_nil_r in H. assumption.
  - intros [H1 H2]. apply NoDup_rev in H1.
    rewrite <- (rev_involutive (l ++ [x])). apply NoDup_rev. rewrite rev_app_distr. simpl.
    constructor; [|assumption]. rewrite <- in_rev. assumption.
Qed.

Lemma builder_add_ok b names rs r b' :
  builder_inv b names rs ->
  (builder_add b r = Ok b' <->
   length r = length names /\ ~ In r rs
   /\ b' = mk_builder names (concat (rs ++ [r])) (combine (rs ++ [r]) (seq 0 (length (rs ++ [r]))))).
Proof.
  intros (Hn & Hr & Hv & Hp). unfold builder_add, builder_add_state, builder_size. rewrite Hn.
  destruct (length names =? length r) eqn:El; simpl.
  - apply Nat.eqb_eq in El. rewrite Hp.
    destruct (hm_get row_eqb (combine rs (seq 0 (length rs))) r) as [pos|] eqn:Eg; simpl.
    + split; [discriminate|]. intros (_ & H & _).
      apply (hm_get_In _ row_eqb_eq) in Eg. apply in_combine_l in Eg. contradiction.
    + apply (hm_get_None _ row_eqb_eq) in Eg. rewrite map_fst_combine_seq in Eg.
      unfold hm_insert_new.
      rewrite combine_length_eq by (rewrite seq_length; reflexivity).
      rewrite combine_seq_snoc, concat_app, Hv. simpl. rewrite app_nil_r. split.
      * intros H; inversion H; subst. auto.
      * intros (_ & _ & ->). reflexivity.
  - apply Nat.eqb_neq in El. split; [discriminate|]. intros (H & _). congruence.
Qed.

Lemma builder_add_cases b r :
  (exists b', builder_add b r = Ok b') \/ (exists m, builder_add b r = Panic m).
Proof.
  unfold builder_add, builder_add_state.
  destruct (negb _); simpl; [right; eauto|].
  destruct (hm_get _ _ _); simpl; eauto.
Qed.

Lemma builder_add_inv b names rs r b' :
  builder_inv b names rs -> builder_add b r = Ok b' -> builder_inv b' names (rs ++ [r]).
Proof.
  intros Hinv H. pose proof Hinv as (Hn & Hr & Hv & Hp). apply (builder_add_ok _ _ _ _ _ Hinv) in H as (Hl & Hin & ->).
  unfold builder_inv; simpl. repeat split; auto.
  - apply Forall_app. destruct Hr. split; [assumption|]. repeat constructor; assumption.
  - apply NoDup_snoc. destruct Hr; auto.
Qed.

Lemma builder_add_all_ok b names rs new b' :
  builder_inv b names rs ->
  (builder_add_all b new = Ok b' <->
   good_rows (length names) (rs ++ new)
   /\ b' = mk_builder names (concat (rs ++ new)) (combine (rs ++ new) (seq 0 (length (rs ++ new))))).
Proof.
  revert b rs; induction new as [|r new IH]; intros b rs Hinv.
  - pose proof Hinv as (Hn & Hr & Hv & Hp). unfold builder_add_all; simpl. rewrite app_nil_r. split.
    + intros H; inversion H; subst b'. split; [assumption|].
      destruct b; simpl in *; subst; reflexivity.
    + intros [_ ->]. f_equal. destruct b; simpl in *; subst; reflexivity.
  - unfold builder_add_all in *. cbn [foldM]. rewrite bind_ok. split.
    + intros (b1 & H1 & H2). pose proof (builder_add_inv _ _ _ _ _ Hinv H1) as Hinv1.
      apply (IH _ _ Hinv1) in H2. rewrite <- app_assoc in H2. exact H2.
    + intros [Hg Hb].
      assert (Hl : length r = length names).
      { destruct Hg as [Hg _]. rewrite Forall_forall in Hg. apply Hg. apply in_or_app; simpl; auto. }
      assert (Hin : ~ In r rs).
      { destruct Hg as [_ Hg]. apply NoDup_remove_2 in Hg. intros Hin; apply Hg. apply in_or_app; auto. }
      destruct (builder_add_cases b r) as [[b1 H1]|[m H1]].
      * exists b1. split; [assumption|].
        apply (IH _ _ (builder_add_inv _ _ _ _ _ Hinv H1)). rewrite <- app_assoc. auto.
      * exfalso.
        assert (builder_add b r = Ok (mk_builder names (concat (rs ++ [r])) (combine (rs ++ [r]) (seq 0 (length (rs ++ [r]))))))
          by (apply (builder_add_ok _ _ _ _ _ Hinv); auto).
        congruence.
Qed.

Lemma builder_add_all_cases b new :
  (exists b', builder_add_all b new = Ok b') \/ (exists m, builder_add_all b new = Panic m).
Proof.
  unfold builder_add_all. revert b; induction new as [|r new IH]; intros b; simpl; [eauto|].
  destruct (builder_add_cases b r) as [[b1 ->]|[m ->]]; simpl; eauto.
Qed.

Lemma builder_inv_new names : builder_inv (mk_builder names [] []) names [].
Proof. repeat split; constructor. Qed.

Lemma mapM_cstring names :
  Forall identifier names ->
  mapM (fun s => expect_some "invalid C string" (cstring_new s)) names = Ok names.
Proof.
  induction 1 as [|n names Hn Hf IH]; cbn [mapM]; [reflexivity|].
  unfold cstring_new at 1. rewrite (identifier_no_nul _ Hn). simpl. rewrite IH. reflexivity.
Qed.

Lemma builder_finish_ok names rs :
  good_names names -> good_rows (length names) rs ->
  builder_finish (mk_builder names (concat rs) (combine rs (seq 0 (length rs))))
  = Ok (match names with
        | [] => mk_labels [] [] []
        | _ => mk_labels names (concat rs) (combine rs (seq 0 (length rs)))
        end).
Proof.
  intros [Hid Hnd] [Hlen Hrnd]. unfold builder_finish. cbn [lb_names lb_values lb_positions].
  destruct names as [|n names].
  - assert (concat rs = []) as ->; [|reflexivity].
    clear Hrnd. induction Hlen as [|r rs Hr Hf IH]; simpl; [reflexivity|].
    destruct r; [assumption|discriminate].
  - rewrite mapM_cstring by assumption. reflexivity.
Qed.

(* the labels made by the builder *)
Definition built (names : list string) (rs : list (list Z)) : Labels :=
  match names with
  | [] => mk_labels [] [] []
  | _ => mk_labels names (concat rs) (combine rs (seq 0 (length rs)))
  end.

Lemma labels_build_ok names rs l :
  labels_build names rs = Ok l <->
  good_names names /\ good_rows (length names) rs /\ l = built names rs.
Proof.
  unfold labels_build. rewrite bind_ok. split.
  - intros (b & Hb & H). apply builder_new_ok in Hb as [Hn ->].
    apply bind_ok in H as (b & Hb & H).
    apply (builder_add_all_ok _ _ _ _ _ (builder_inv_new names)) in Hb as [Hg ->]. cbn [app] in *.
    rewrite builder_finish_ok in H by assumption. inversion H; subst. unfold built; destruct names; auto.
  - intros (Hn & Hr & ->). exists (mk_builder names [] []). split; [apply builder_new_ok; auto|].
    apply bind_ok. exists (mk_builder names (concat rs) (combine rs (seq 0 (length rs)))). split.
    + apply (builder_add_all_ok _ _ _ _ _ (builder_inv_new names)). auto.
    + rewrite builder_finish_ok by assumption. reflexivity.
Qed.

Lemma labels_build_cases names rs :
  (exists l, labels_build names rs = Ok l) \/ (exists m, labels_build names rs = Panic m).
Proof.
  unfold labels_build.
  destruct (builder_new_cases names) as [[b Hb]|[m Hb]]; rewrite Hb; simpl; [|eauto].
  destruct (builder_add_all_cases b rs) as [[b' Hb']|[m Hb']]; rewrite Hb'; simpl; [|eauto].
  apply builder_new_ok in Hb as [Hn ->].
  apply (builder_add_all_ok _ _ _ _ _ (builder_inv_new names)) in Hb' as [Hr ->]. cbn [app] in *.
  rewrite builder_finish_ok by assumption. eauto.
Qed.

Lemma built_is_labels names rs :
  good_names names -> good_rows (length names) rs -> names <> [] -> is_labels (built names rs) names rs.
Proof.
  intros Hn Hr Hne. destruct names as [|n names]; [congruence|].
  unfold is_labels, built; simpl l_names; simpl l_values; simpl l_positions.
  split; [assumption|]. split; [assumption|]. split; [congruence|]. auto.
Qed.

Lemma labels_build_is_labels names rs l :
  names <> [] -> labels_build names rs = Ok l -> is_labels l names rs.
Proof. intros Hne H. apply labels_build_ok in H as (Hn & Hr & ->). apply built_is_labels; assumption. Qed.

Lemma labels_build_wf names rs l : labels_build names rs = Ok l -> wf_labels l.
Proof.
  intros H. destruct names as [|n names].
  - apply labels_build_ok in H as (Hn & Hr & ->). exists [], []. unfold is_labels, built; simpl.
    repeat split; auto; constructor.
  - exists (n :: names), rs. apply labels_build_is_labels; [discriminate|assumption].
Qed.

Lemma builder_finish_wf b names rs l :
  good_names names -> builder_inv b names rs -> builder_finish b = Ok l -> l = built names rs.
Proof.
  intros Hn (H1 & H2 & H3 & H4) H.
  assert (b = mk_builder names (concat rs) (combine rs (seq 0 (length rs)))) as ->
    by (destruct b; simpl in *; subst; reflexivity).
  rewrite builder_finish_ok in H by assumption. inversion H; reflexivity.
Qed.

(** * Reading labels *)

Lemma take_rows_concat n rs rest :
  Forall (fun r => length r = n) rs -> take_rows (length rs) n (concat rs ++ rest) = rs.
Proof.
  induction 1 as [|r rs Hr Hf IH]; simpl; [reflexivity|].
  rewrite <- !app_assoc. rewrite firstn_app_exact, skipn_app_exact by assumption.
  rewrite IH. reflexivity.
Qed.

  Lemma fixed_size_items_concat fuel n l' :
    n <> 0 -> Forall (fun r => length r = n) l' -> length (concat l') <= fuel ->
    fixed_size_items fuel n (concat l') = Ok l'.
  Proof.
    intros Hn Hf. revert fuel. induction Hf as [|r rs Hr Hf IH]; intros fuel Hfuel.
    - destruct fuel; reflexivity.
    - cbn [concat] in *. rewrite app_length in Hfuel.
      destruct fuel as [|fuel]; [lia|].
      destruct (r ++ concat rs) as [|z zs] eqn:E.
      { destruct r; simpl in *; [lia|discriminate]. }
      cbn [fixed_size_items]. rewrite <- E.
      rewrite app_length. rewrite (proj2 (Nat.ltb_ge _ _)) by lia.
      rewrite firstn_app_exact, skipn_app_exact by assumption.
      rewrite IH by lia. reflexivity.
  Qed.

Lemma nonempty_length {A} (l : list A) : l <> [] -> length l <> 0.
Proof. destruct l; simpl; congruence. Qed.

Section Labels.
  Variables (l : Labels) (names : list string) (rs : list (list Z)).
  Hypothesis Hl : is_labels l names rs.

  Let Hnames : l_names l = names. Proof. apply Hl. Qed.
  Let Hvalues : l_values l = concat rs. Proof. apply Hl. Qed.
  Let Hlen : Forall (fun r => length r = length names) rs. Proof. apply Hl. Qed.
  Let Hnd : NoDup rs. Proof. apply Hl. Qed.
  Let Hempty : names = [] -> rs = []. Proof. apply Hl. Qed.
  Let Hpos : Permutation (l_positions l) (combine rs (seq 0 (length rs))). Proof. apply Hl. Qed.

  Lemma is_labels_names : labels_names l = names.
  Proof. exact Hnames. Qed.

  Lemma is_labels_size : labels_size l = length names.
  Proof. unfold labels_size. rewrite Hnames. reflexivity. Qed.

  Lemma is_labels_values_length : length (l_values l) = length rs * length names.
  Proof. rewrite Hvalues. apply length_concat_const. assumption. Qed.

  Lemma is_labels_rows : rows l = rs.
  Proof.
    unfold rows. rewrite is_labels_values_length, Hnames.
    destruct names as [|n names'] eqn:En.
    - rewrite Hempty by reflexivity. reflexivity.
    - rewrite Nat.div_mul by (simpl; lia). rewrite Hvalues.
      rewrite <- (app_nil_r (concat rs)). apply take_rows_concat. assumption.
  Qed.

  Lemma is_labels_count : names <> [] -> labels_count l = Ok (length rs).
  Proof.
    intros Hne. unfold labels_count. rewrite is_labels_size.
    pose proof (nonempty_length _ Hne) as Hn.
    rewrite (proj2 (Nat.eqb_neq _ _)) by assumption.
    rewrite is_labels_values_length, Nat.div_mul by assumption. reflexivity.
  Qed.

  Lemma is_labels_iter : names <> [] -> labels_iter l = Ok rs.
  Proof.
    intros Hne. unfold labels_iter. rewrite is_labels_size.
    pose proof (nonempty_length _ Hne) as Hn.
    rewrite (proj2 (Nat.eqb_neq _ _)) by assumption.
    rewrite Hvalues, chunks_exact_concat by assumption. reflexivity.
  Qed.

  Lemma is_labels_iter_fixed p :
    names <> [] -> labels_iter_fixed_size p (length names) l = Ok rs.
  Proof.
    intros Hne. unfold labels_iter_fixed_size. rewrite is_labels_size.
    pose proof (nonempty_length _ Hne) as Hn.
    rewrite (proj2 (Nat.eqb_neq _ _)) by assumption. simpl negb. rewrite debug_assert_true. simpl.
    rewrite Nat.eqb_refl, Hvalues. apply fixed_size_items_concat; auto.
  Qed.

  Lemma is_labels_index i r :
    names <> [] -> (labels_index l i = Ok r <-> nth_error rs i = Some r).
  Proof.
    intros Hne. pose proof (nonempty_length _ Hne) as Hn.
    unfold labels_index. rewrite is_labels_size, is_labels_values_length.
    destruct ((i + 1) * length names <=? length rs * length names) eqn:E.
    - apply Nat.leb_le in E.
      assert (Hi : i < length rs) by nia.
      replace ((i + 1) * length names - i * length names) with (length names) by nia.
      destruct (nth_error rs i) as [r'|] eqn:Er.
      + rewrite Hvalues, (firstn_skipn_concat _ _ _ _ Hlen Er). split; congruence.
      + apply nth_error_None in Er. lia.
    - apply Nat.leb_gt in E. split; [discriminate|]. intros H.
      assert (i < length rs) by (apply nth_error_Some; congruence). nia.
  Qed.

  Lemma is_labels_index_panics i :
    names <> [] -> length rs <= i -> exists m, labels_index l i = Panic m.
  Proof.
    intros Hne Hi. pose proof (nonempty_length _ Hne) as Hn.
    unfold labels_index. rewrite is_labels_size, is_labels_values_length.
    rewrite (proj2 (Nat.leb_gt _ _)) by nia. eauto.
  Qed.

  Let Hndpos : NoDup (map fst (l_positions l)).
  Proof.
    eapply Permutation_NoDup; [symmetry; apply Permutation_map; exact Hpos|].
    rewrite map_fst_combine_seq. assumption.
  Qed.

  Lemma is_labels_get r i :
    hm_get row_eqb (l_positions l) r = Some i <-> nth_error rs i = Some r.
  Proof.
    rewrite (hm_get_perm _ row_eqb_eq _ _ r Hndpos Hpos).
    rewrite (hm_get_iff _ row_eqb_eq) by (rewrite map_fst_combine_seq; assumption).
    split.
    - intros H. apply In_nth_error in H as [k Hk]. apply nth_error_combine in Hk as [Hk1 Hk2].
      rewrite nth_error_seq in Hk2. destruct (k <? length rs); inversion Hk2; subst. assumption.
    - intros H. apply (nth_error_In _ i). apply nth_error_combine. split; [assumption|].
      rewrite nth_error_seq. rewrite (proj2 (Nat.ltb_lt _ _)); [reflexivity|].
      apply nth_error_Some; congruence.
  Qed.

  Lemma is_labels_get_none r : hm_get row_eqb (l_positions l) r = None <-> ~ In r rs.
  Proof.
    split.
    - intros H Hin. apply In_nth_error in Hin as [i Hi]. apply is_labels_get in Hi. congruence.
    - intros H. destruct (hm_get row_eqb (l_positions l) r) as [i|] eqn:E; [|reflexivity].
      apply is_labels_get in E. exfalso. apply H. eapply nth_error_In; eauto.
  Qed.

  Lemma is_labels_contains r : labels_contains l r = true <-> In r rs.
  Proof.
    unfold labels_contains, hm_contains. destruct (hm_get row_eqb (l_positions l) r) as [i|] eqn:E.
    - split; [|reflexivity]. intros _. apply is_labels_get in E. eapply nth_error_In; eauto.
    - apply is_labels_get_none in E. split; [discriminate|contradiction].
  Qed.

  Lemma is_labels_position r :
    length r = length names -> labels_position l r = Ok (hm_get row_eqb (l_positions l) r).
  Proof.
    intros H. unfold labels_position. rewrite is_labels_size, H, Nat.eqb_refl. reflexivity.
  Qed.

  Lemma is_labels_position_panics r :
    length r <> length names -> exists m, labels_position l r = Panic m.
  Proof.
    intros H. unfold labels_position. rewrite is_labels_size, (proj2 (Nat.eqb_neq _ _)) by assumption. eauto.
  Qed.

  Lemma is_labels_position_some r i :
    labels_position l r = Ok (Some i) <-> nth_error rs i = Some r.
  Proof.
    split.
    - unfold labels_position. destruct (_ =? _); [|discriminate]. intros H; inversion H as [H'].
      apply is_labels_get. assumption.
    - intros H. rewrite is_labels_position.
      + f_equal. apply is_labels_get. assumption.
      + rewrite Forall_forall in Hlen. apply Hlen. eapply nth_error_In; eauto.
  Qed.
End Labels.

Lemma is_labels_unique l n1 r1 n2 r2 : is_labels l n1 r1 -> is_labels l n2 r2 -> n1 = n2 /\ r1 = r2.
Proof.
  intros H1 H2. split.
  - rewrite <- (is_labels_names _ _ _ H1), <- (is_labels_names _ _ _ H2). reflexivity.
  - rewrite <- (is_labels_rows _ _ _ H1), <- (is_labels_rows _ _ _ H2). reflexivity.
Qed.

Lemma wf_labels_is_labels l : wf_labels l <-> is_labels l (l_names l) (rows l).
Proof.
  split.
  - intros (n & r & H). rewrite (is_labels_rows _ _ _ H), (is_labels_names _ _ _ H : l_names l = n). assumption.
  - intros H; exists (l_names l), (rows l); assumption.
Qed.

(** * Equality *)

Lemma combine_seq_inj (r1 r2 : list (list Z)) :
  r1 = r2 -> Permutation (combine r1 (seq 0 (length r1))) (combine r2 (seq 0 (length r2))).
Proof. intros ->; reflexivity. Qed.

Lemma hm_eqb_perm (m1 m2 : list (list Z * nat)) :
  NoDup (map fst m1) -> Permutation m1 m2 -> hm_eqb row_eqb Nat.eqb m1 m2 = true.
Proof.
  intros Hnd Hp. unfold hm_eqb. rewrite (Permutation_length Hp), Nat.eqb_refl. simpl.
  apply forallb_forall. intros [k v] Hin. simpl.
  assert (Hnd2 : NoDup (map fst m2)) by (eapply Permutation_NoDup; [apply Permutation_map; exact Hp|assumption]).
  rewrite (In_hm_get _ row_eqb_eq m2 k v Hnd2) by (eapply Permutation_in; eauto).
  apply Nat.eqb_refl.
Qed.

Lemma concat_rows_inj n (r1 r2 : list (list Z)) :
  n <> 0 -> Forall (fun r => length r = n) r1 -> Forall (fun r => length r = n) r2 ->
  concat r1 = concat r2 -> r1 = r2.
Proof.
  intros Hn H1 H2 E. rewrite <- (chunks_exact_concat n r1), <- (chunks_exact_concat n r2) by assumption.
  rewrite E. reflexivity.
Qed.

Lemma labels_eqb_spec l1 n1 r1 l2 n2 r2 :
  is_labels l1 n1 r1 -> is_labels l2 n2 r2 ->
  (labels_eqb l1 l2 = true <-> n1 = n2 /\ r1 = r2).
Proof.
  intros H1 H2. unfold labels_eqb.
  rewrite !andb_true_iff, names_eqb_eq, row_eqb_eq.
  pose proof H1 as (_ & [Hl1 Hd1] & He1 & -> & -> & Hp1).
  pose proof H2 as (_ & [Hl2 Hd2] & He2 & -> & -> & Hp2).
  split.
  - intros [[-> E] _]. split; [reflexivity|].
    destruct n2 as [|n n2].
    + rewrite He1, He2 by reflexivity. reflexivity.
    + eapply (concat_rows_inj (length (n :: n2))); eauto. simpl; lia.
  - intros [-> ->]. repeat split. apply hm_eqb_perm.
    + eapply Permutation_NoDup; [symmetry; apply Permutation_map; exact Hp1|].
      rewrite map_fst_combine_seq. assumption.
    + rewrite Hp1, Hp2. reflexivity.
Qed.

Lemma labels_eqb_same l1 l2 :
  wf_labels l1 -> wf_labels l2 -> (labels_eqb l1 l2 = true <-> same_labels l1 l2).
Proof.
  intros H1 H2. apply wf_labels_is_labels in H1, H2. rewrite (labels_eqb_spec _ _ _ _ _ _ H1 H2). reflexivity.
Qed.

Lemma labels_eqb_refl l : wf_labels l -> labels_eqb l l = true.
Proof. intros H. apply labels_eqb_same; auto. split; reflexivity. Qed.

(* convenient forms for well-formed labels *)

Lemma wf_names_good l : wf_labels l -> good_names (labels_names l).
Proof. intros (n & r & H). rewrite (is_labels_names _ _ _ H). apply H. Qed.

Lemma wf_rows l : wf_labels l -> good_rows (length (labels_names l)) (rows l).
Proof. intros H. apply wf_labels_is_labels in H. apply H. Qed.

Lemma labels_count_ok l n :
  wf_labels l -> (labels_count l = Ok n <-> labels_names l <> [] /\ n = length (rows l)).
Proof.
  intros H. apply wf_labels_is_labels in H. split.
  - intros Hc. destruct (l_names l) as [|x xs] eqn:E.
    + exfalso. unfold labels_count, labels_size in Hc. rewrite E in Hc. discriminate.
    + split; [unfold labels_names; rewrite E; discriminate|].
      rewrite (is_labels_count _ _ _ H) in Hc by discriminate. congruence.
  - intros [Hne ->]. apply (is_labels_count _ _ _ H). exact Hne.
Qed.

Lemma labels_iter_ok l r :
  wf_labels l -> (labels_iter l = Ok r <-> labels_names l <> [] /\ r = rows l).
Proof.
  intros H. apply wf_labels_is_labels in H. split.
  - intros Hc. destruct (l_names l) as [|x xs] eqn:E.
    + exfalso. unfold labels_iter, labels_size in Hc. rewrite E in Hc. discriminate.
    + split; [unfold labels_names; rewrite E; discriminate|].
      rewrite (is_labels_iter _ _ _ H) in Hc by discriminate. congruence.
  - intros [Hne ->]. apply (is_labels_iter _ _ _ H). exact Hne.
Qed.

Lemma labels_index_ok l i r :
  wf_labels l -> labels_names l <> [] -> (labels_index l i = Ok r <-> nth_error (rows l) i = Some r).
Proof. intros H Hne. apply wf_labels_is_labels in H. apply (is_labels_index _ _ _ H). exact Hne. Qed.

Lemma labels_position_ok l i r :
  wf_labels l -> (labels_position l r = Ok (Some i) <-> nth_error (rows l) i = Some r).
Proof. intros H. apply wf_labels_is_labels in H. apply (is_labels_position_some _ _ _ H). Qed.

Lemma labels_position_none l r :
  wf_labels l -> labels_position l r = Ok None -> ~ In r (rows l).
Proof.
  intros H Hp Hin. apply In_nth_error in Hin as [i Hi]. apply (labels_position_ok _ _ _ H) in Hi. congruence.
Qed.

Lemma wf_rows_NoDup l : wf_labels l -> NoDup (rows l).
Proof. intros H. apply (wf_rows _ H). Qed.

Lemma wf_rows_length l r : wf_labels l -> In r (rows l) -> length r = length (labels_names l).
Proof. intros H Hr. destruct (wf_rows _ H) as [Hf _]. rewrite Forall_forall in Hf. auto. Qed.

(** * Statements for the property files *)

Lemma builder_keeps_rows names rs :
  good_names names -> names <> [] -> good_rows (length names) rs ->
  exists l, labels_build names rs = Ok l
    /\ labels_names l = names
    /\ labels_size l = length names
    /\ labels_count l = Ok (length rs)
    /\ labels_iter l = Ok rs
    /\ (forall p, labels_iter_fixed_size p (length names) l = Ok rs)
    /\ (forall i r, labels_index l i = Ok r <-> nth_error rs i = Some r).
Proof.
  intros Hn Hne Hr. exists (built names rs).
  pose proof (built_is_labels _ _ Hn Hr Hne) as Hl.
  split; [apply labels_build_ok; auto|].
  split; [apply (is_labels_names _ _ _ Hl)|].
  split; [apply (is_labels_size _ _ _ Hl)|].
  split; [apply (is_labels_count _ _ _ Hl Hne)|].
  split; [apply (is_labels_iter _ _ _ Hl Hne)|].
  split; [intros p; apply (is_labels_iter_fixed _ _ _ Hl p Hne)|].
  intros i r. apply (is_labels_index _ _ _ Hl i r Hne).
Qed.

Definition malformed (names : list string) (rs : list (list Z)) : Prop :=
  Exists (fun n => ~ identifier n) names
  \/ ~ NoDup names
  \/ Exists (fun r => length r <> length names) rs
  \/ ~ NoDup rs.

Lemma identifier_dec s : {identifier s} + {~ identifier s}.
Proof.
  destruct (is_valid_label_name s) eqn:E.
  - left. apply is_valid_label_name_spec. assumption.
  - right. intros H. apply is_valid_label_name_spec in H. congruence.
Qed.

Lemma builder_rejects_iff names rs :
  ((exists m, labels_build names rs = Panic m) <-> malformed names rs)
  /\ ((exists l, labels_build names rs = Ok l) <-> ~ malformed names rs).
Proof.
  assert (Hok : (exists l, labels_build names rs = Ok l) <-> good_names names /\ good_rows (length names) rs).
  { split.
    - intros [l H]. apply labels_build_ok in H. tauto.
    - intros [H1 H2]. exists (built names rs). apply labels_build_ok. auto. }
  assert (Hm : malformed names rs <-> ~ (good_names names /\ good_rows (length names) rs)).
  { unfold malformed, good_names, good_rows. split.
    - intros [H|[H|[H|H]]] [[H1 H2] [H3 H4]]; try contradiction.
      + apply Exists_exists in H as (x & Hx & Hnx). rewrite Forall_forall in H1. auto.
      + apply Exists_exists in H as (x & Hx & Hnx). rewrite Forall_forall in H3. auto.
    - intros H.
      destruct (Forall_Exists_dec identifier identifier_dec names) as [H1|H1]; [|auto].
      destruct (ListDec.NoDup_dec string_dec names) as [H2|H2]; [|auto].
      destruct (Forall_Exists_dec (fun r : list Z => length r = length names)
                 (fun r => Nat.eq_dec (length r) (length names)) rs) as [H3|H3]; [|auto].
      destruct (ListDec.NoDup_dec (list_eq_dec Z.eq_dec) rs) as [H4|H4]; [|auto].
      exfalso; auto. }
  rewrite Hok, Hm. destruct (labels_build_cases names rs) as [[l H]|[m H]].
  - assert (Hg : good_names names /\ good_rows (length names) rs) by (apply Hok; eauto).
    split; [split|split].
    + intros [m' H']. congruence.
    + intros H'. contradiction.
    + auto.
    + auto.
  - assert (Hg : ~ (good_names names /\ good_rows (length names) rs)).
    { intros Hg. apply Hok in Hg as [l Hl]. congruence. }
    split; [split|split].
    + auto.
    + eauto.
    + intros H'; contradiction.
    + intros H'; contradiction.
Qed.

Lemma position_spec l names rs :
  names <> [] -> labels_build names rs = Ok l ->
  (forall r i, labels_position l r = Ok (Some i) <-> labels_index l i = Ok r)
  /\ (forall r, length r = length names -> (labels_position l r = Ok None <-> ~ In r rs))
  /\ (forall r, labels_contains l r = true <-> In r rs)
  /\ (forall i j r, labels_index l i = Ok r -> labels_index l j = Ok r -> i = j).
Proof.
  intros Hne H. pose proof (labels_build_is_labels _ _ _ Hne H) as Hl.
  split; [|split; [|split]].
  - intros r i. rewrite (is_labels_position_some _ _ _ Hl), (is_labels_index _ _ _ Hl) by assumption. reflexivity.
  - intros r Hr. rewrite (is_labels_position _ _ _ Hl _ Hr).
    rewrite <- (is_labels_get_none _ _ _ Hl). split; congruence.
  - intros r. apply (is_labels_contains _ _ _ Hl).
  - intros i j r. rewrite !(is_labels_index _ _ _ Hl) by assumption.
    apply NoDup_nth_error_inj. apply Hl.
Qed.

Lemma labels_eq_any_order n1 r1 l1 n2 r2 l2 (index1 index2 : list (list Z * nat)) :
  n1 <> [] -> n2 <> [] ->
  labels_build n1 r1 = Ok l1 -> labels_build n2 r2 = Ok l2 ->
  Permutation (l_positions l1) index1 -> Permutation (l_positions l2) index2 ->
  (labels_eqb (mk_labels (l_names l1) (l_values l1) index1)
              (mk_labels (l_names l2) (l_values l2) index2) = true
   <-> n1 = n2 /\ r1 = r2).
Proof.
  intros Hne1 Hne2 H1 H2 Hp1 Hp2.
  apply (labels_build_is_labels _ _ _ Hne1) in H1.
  apply (labels_build_is_labels _ _ _ Hne2) in H2.
  apply labels_eqb_spec; unfold is_labels in *; simpl.
  - destruct H1 as (A & B & C & D & E & F). repeat (split; [assumption|]). rewrite <- Hp1. assumption.
  - destruct H2 as (A & B & C & D & E & F). repeat (split; [assumption|]). rewrite <- Hp2. assumption.
Qed.

Lemma conversions v r :
  ((0 <= v < 2 ^ 32)%Z -> (label_from_u32 v = Ok r <-> r = v /\ (v <= 2 ^ 31 - 2)%Z))
  /\ ((0 <= v < 2 ^ 64)%Z -> (label_from_usize v = Ok r <-> r = v /\ (v <= 2 ^ 31 - 2)%Z))
  /\ ((- 2 ^ 63 <= v < 2 ^ 63)%Z ->
      (label_from_isize v = Ok r <-> r = v /\ (- 2 ^ 31 + 1 <= v <= 2 ^ 31 - 2)%Z)).
Proof.
  unfold label_from_u32, label_from_usize, label_from_isize, i32_max, i32_min.
  split; [|split]; intros Hv.
  - destruct (Z.ltb_spec v 2147483647).
    + split; [intros E; inversion E; subst; lia|]. intros [-> _]; reflexivity.
    + split; [discriminate|]. intros [_ H']; lia.
  - destruct (Z.ltb_spec v 2147483647).
    + split; [intros E; inversion E; subst; lia|]. intros [-> _]; reflexivity.
    + split; [discriminate|]. intros [_ H']; lia.
  - destruct (Z.ltb_spec v 2147483647), (Z.ltb_spec (-2147483648) v); simpl;
      (split; [intros E; inversion E; subst; lia | intros [E H']; try lia; subst; reflexivity]).
Qed.

Lemma conversions_total v :
  ((0 <= v < 2 ^ 32)%Z -> (exists r, label_from_u32 v = Ok r) \/ (exists m, label_from_u32 v = Panic m))
  /\ ((0 <= v < 2 ^ 64)%Z -> (exists r, label_from_usize v = Ok r) \/ (exists m, label_from_usize v = Panic m))
  /\ ((- 2 ^ 63 <= v < 2 ^ 63)%Z ->
      (exists r, label_from_isize v = Ok r) \/ (exists m, label_from_isize v = Panic m)).
Proof.
  unfold label_from_u32, label_from_usize, label_from_isize.
  split; [|split]; intros _.
  - destruct (_ <? _)%Z; eauto.
  - destruct (_ <? _)%Z; eauto.
  - destruct (_ && _)%bool; eauto.
Qed.

Lemma count_iterate names rs l :
  names <> [] -> labels_build names rs = Ok l ->
  exists n rows, labels_count l = Ok n /\ labels_iter l = Ok rows
    /\ (forall p, labels_iter_fixed_size p (labels_size l) l = Ok rows)
    /\ n * labels_size l = length (l_values l) /\ length rows = n.
Proof.
  intros Hne H. apply (labels_build_is_labels _ _ _ Hne) in H.
  exists (length rs), rs.
  split; [apply (is_labels_count _ _ _ H Hne)|].
  split; [apply (is_labels_iter _ _ _ H Hne)|].
  split.
  - intros p. rewrite (is_labels_size _ _ _ H). apply (is_labels_iter_fixed _ _ _ H p Hne).
  - rewrite (is_labels_size _ _ _ H), (is_labels_values_length _ _ _ H). auto.
Qed.

(* a caller which catches the panics of LabelsBuilder::add and goes on *)
Fixpoint add_catching (b : LabelsBuilder) (rs : list (list Z)) : LabelsBuilder :=
  match rs with
  | [] => b
  | r :: rest => add_catching (fst (builder_add_state b r)) rest
  end.

Lemma add_catching_wrong_size b names kept new :
  builder_inv b names kept ->
  NoDup (kept ++ filter (fun r => length r =? length names) new) ->
  builder_inv (add_catching b new) names (kept ++ filter (fun r => length r =? length names) new).
Proof.
  revert b kept; induction new as [|r new IH]; intros b kept Hinv Hnd; simpl in *.
  - rewrite app_nil_r. assumption.
  - destruct (length r =? length names) eqn:E.
    + apply Nat.eqb_eq in E.
      assert (Hin : ~ In r kept).
      { apply NoDup_remove_2 in Hnd. intros H; apply Hnd. apply in_or_app; auto. }
      assert (Ha : builder_add b r = Ok (mk_builder names (concat (kept ++ [r])) (combine (kept ++ [r]) (seq 0 (length (kept ++ [r])))))).
      { apply (builder_add_ok _ _ _ _ _ Hinv). auto. }
      pose proof (builder_add_inv _ _ _ _ _ Hinv Ha) as Hinv1.
      unfold builder_add in Ha. destruct (builder_add_state b r) as [b1 [u| | |]]; simpl in Ha; try discriminate.
      inversion Ha; subst b1. simpl fst.
      replace (kept ++ r :: filter (fun r0 => length r0 =? length names) new)
        with ((kept ++ [r]) ++ filter (fun r0 => length r0 =? length names) new) in *
        by (rewrite <- app_assoc; reflexivity).
      apply IH; assumption.
    + assert (fst (builder_add_state b r) = b) as ->.
      { unfold builder_add_state, builder_size. destruct Hinv as (-> & _).
        rewrite Nat.eqb_sym, E. reflexivity. }
      apply IH; assumption.
Qed.

Lemma wrong_size_rejection_harmless names new :
  good_names names -> names <> [] ->
  NoDup (filter (fun r => length r =? length names) new) ->
  exists b l, builder_new names = Ok b /\ builder_finish (add_catching b new) = Ok l
    /\ labels_names l = names
    /\ labels_iter l = Ok (filter (fun r => length r =? length names) new).
Proof.
  intros Hn Hne Hnd. exists (mk_builder names [] []).
  pose proof (add_catching_wrong_size _ _ [] new (builder_inv_new names) Hnd) as Hinv. simpl in Hinv.
  pose proof Hinv as (H1 & H2 & H3 & H4).
  exists (built names (filter (fun r => length r =? length names) new)).
  pose proof (built_is_labels _ _ Hn H2 Hne) as Hl.
  split; [apply builder_new_ok; auto|]. split.
  - assert (add_catching (mk_builder names [] []) new =
            mk_builder names (concat (filter (fun r => length r =? length names) new))
              (combine (filter (fun r => length r =? length names) new)
                 (seq 0 (length (filter (fun r => length r =? length names) new))))) as ->.
    { destruct (add_catching _ new); simpl in *; subst; reflexivity. }
    rewrite builder_finish_ok by assumption. reflexivity.
  - split; [apply (is_labels_names _ _ _ Hl)|apply (is_labels_iter _ _ _ Hl Hne)].
Qed.

Lemma good_names_by_computation names :
  forallb is_valid_label_name names = true -> NoDup names -> good_names names.
Proof.
  intros H Hnd. split; [|assumption]. apply Forall_forall. intros n Hn.
  apply is_valid_label_name_spec. rewrite forallb_forall in H. auto.
Qed.

Ltac prove_nodup := repeat (constructor; [simpl; intuition congruence|]); constructor.

