(* Labels of Python *)
From Coq Require Import Permutation.
From Verif Require Import Base BaseFacts Labels Array Block Tensor Npy Io Origin CApi Spec SpecTensor SpecIo SpecApi
  LabelsFacts NpyFacts LabelsApiFacts PyIo PyLabels SpecPyLabels.
Local Open Scope string_scope.
Local Open Scope list_scope.
Local Open Scope nat_scope.

(** * Rows in memory *)

Lemma firstn_nth_map n : forall (l : list Z), n <= length l -> firstn n l = map (fun j => nth j l 0%Z) (seq 0 n).
Proof.
  induction n as [|n IH]; intros l H; [reflexivity|]. destruct l as [|a l]; cbn [length] in H; [lia|].
  cbn [firstn seq map nth]. f_equal. rewrite IH by lia. rewrite <- seq_shift, map_map. reflexivity.
Qed.

Lemma nth_skipn n j (l : list Z) : nth j (skipn n l) 0%Z = nth (n + j) l 0%Z.
Proof. revert l. induction n as [|n IH]; intros [|a l]; cbn [skipn Nat.add nth]; try reflexivity; [destruct j; reflexivity|apply IH]. Qed.

Lemma take_rows_map count n : forall values, count * n <= length values ->
  take_rows count n values = map (fun i => map (fun j => nth (i * n + j) values 0%Z) (seq 0 n)) (seq 0 count).
Proof.
  induction count as [|count IH]; intros values H; [reflexivity|]. cbn [take_rows seq map]. f_equal.
  - apply firstn_nth_map. lia.
  - rewrite IH by (rewrite skipn_length; lia). rewrite <- seq_shift, map_map. apply map_ext. intros i. apply map_ext.
    intros j. rewrite nth_skipn. f_equal. lia.
Qed.

Lemma map_seq_nth {A B} (f : A -> B) (d : A) l : map f l = map (fun j => f (nth j l d)) (seq 0 (length l)).
Proof.
  induction l as [|a l IH]; [reflexivity|]. cbn [map length seq nth]. f_equal. rewrite <- seq_shift, map_map. exact IH.
Qed.

(** * Memory of Python labels *)

(* the elements exist *)
Definition exists_in_memory (l : py_labels) : Prop :=
  Forall (fun field => snd field < pl_item l) (pl_fields l)
  /\ forall i offset, i < pl_count l -> offset < pl_item l ->
       (0 <= pl_position l i offset < Z.of_nat (length (pl_memory l)))%Z.

Lemma combine_seq_below {A} (names : list A) : forall n start,
  Forall (fun field => snd field < start + n) (combine names (seq start n)).
Proof.
  induction names as [|a names IH]; intros n start; [constructor|]. destruct n as [|n]; [constructor|].
  cbn [seq combine]. constructor; [cbn; lia|]. specialize (IH n (S start)). rewrite Forall_forall in IH |- *.
  intros x Hx. specialize (IH x Hx). lia.
Qed.

Lemma contiguous_exists memory count n names library : count * n <= length memory ->
  exists_in_memory (mk_py_labels memory 0 (Z.of_nat n) count n (combine names (seq 0 n)) library).
Proof.
  intros H. split; cbn [pl_fields pl_item pl_count]; [apply (combine_seq_below names n 0)|].
  intros i offset Hi Ho. unfold pl_position. cbn [pl_start pl_stride pl_memory]. 
  assert (i * n + offset < length memory) by nia. lia.
Qed.

Lemma field_names_length names : forall i, length (field_names i names) = length names.
Proof. induction names as [|n names IH]; intros i; cbn [field_names length]; [reflexivity|]. rewrite IH. reflexivity. Qed.

Lemma labels_new_ok names columns values l : labels_new names columns values = Ok l ->
  length names = columns /\ has_duplicates String.eqb (field_names 0 names) = false
  /\ (columns <> 0 -> has_duplicates row_eqb (map (map wrap_32) values) = false)
  /\ l = mk_py_labels (concat (map (map wrap_32) values)) 0 (Z.of_nat columns) (length values) columns
           (combine (field_names 0 names) (seq 0 columns)) None.
Proof.
  unfold labels_new. destruct (Nat.eqb_spec (length names) columns) as [E|E]; cbn [negb]; [|discriminate].
  destruct (has_duplicates String.eqb _) eqn:Ed; [discriminate|]. destruct (_ && _) eqn:Er; [discriminate|].
  intros H. injection H as <-. rewrite map_length. split; [exact E|]. split; [reflexivity|]. split; [|reflexivity].
  intros Hc. apply andb_false_iff in Er as [Er|Er]; [|exact Er]. apply negb_false_iff, Nat.eqb_eq in Er. contradiction.
Qed.

Lemma wrapped_length columns values : Forall (fun row => length row = columns) values ->
  length (concat (map (map wrap_32) values)) = length values * columns.
Proof.
  intros H. rewrite (length_concat_const columns); [rewrite map_length; reflexivity|]. rewrite Forall_map.
  eapply Forall_impl; [|exact H]. intros row Hr. cbn beta in *. rewrite map_length. exact Hr.
Qed.

Lemma labels_new_exists names columns values l : Forall (fun row => length row = columns) values ->
  labels_new names columns values = Ok l -> exists_in_memory l.
Proof.
  intros Hv H. apply labels_new_ok in H as (_ & _ & _ & ->). apply contiguous_exists. rewrite (wrapped_length columns) by exact Hv. lia.
Qed.

(* labels of the library *)
Lemma from_library_cases labels c l : axis_labels labels -> labels_to_c labels = Ok c -> from_eqs_labels c = Ok l ->
  (rows labels = [] /\ labels_new (labels_names labels) (length (labels_names labels)) [] = Ok l)
  \/ (rows labels <> [] /\ has_duplicates String.eqb (field_names 0 (labels_names labels)) = false
      /\ l = mk_py_labels (l_values labels) 0 (Z.of_nat (length (labels_names labels))) (length (rows labels))
               (length (labels_names labels))
               (combine (field_names 0 (labels_names labels)) (seq 0 (length (labels_names labels)))) (Some c)).
Proof.
  intros Hl Hc H. destruct (labels_round_trip labels Hl) as (c' & _ & Hc' & _ & _ & _ & Hn & _). rewrite Hc' in Hc. injection Hc as ->.
  rewrite (labels_to_c_ok labels Hl) in Hc'. injection Hc' as Hc'. unfold from_eqs_labels in H. fold (c_names c) in H. rewrite Hn in H.
  assert (cl_size c = length (labels_names labels)) as Hs by (rewrite <- Hc'; reflexivity).
  assert (cl_count c = length (rows labels)) as Hcount by (rewrite <- Hc'; reflexivity).
  rewrite Hs, Hcount in H. destruct (Nat.eqb_spec (length (rows labels)) 0) as [E|E].
  - left. split; [destruct (rows labels); [reflexivity|discriminate E]|exact H].
  - right. split; [destruct (rows labels); [contradiction E; reflexivity|discriminate]|].
    destruct (has_duplicates _ _) eqn:Ed; [discriminate H|]. split; [reflexivity|].
    assert (cl_values c = Some (l_values labels)) as Ev.
    { rewrite <- Hc'. reflexivity. }
    rewrite Ev in H. injection H as <-. reflexivity.
Qed.

Lemma axis_values labels : axis_labels labels ->
  length (l_values labels) = length (rows labels) * length (labels_names labels).
Proof.
  intros [(names & rs & Hl) _]. pose proof (is_labels_rows _ _ _ Hl) as Hr. destruct Hl as (_ & Hg & _ & Hn & Hv & _).
  rewrite Hv, Hr. unfold labels_names. rewrite Hn. apply length_concat_const. apply Hg.
Qed.

Lemma from_library_exists labels c l : axis_labels labels -> labels_to_c labels = Ok c -> from_eqs_labels c = Ok l ->
  exists_in_memory l.
Proof.
  intros Hl Hc H. destruct (from_library_cases labels c l Hl Hc H) as [[_ Hn]|(_ & _ & ->)].
  - apply (labels_new_exists _ _ _ _ (Forall_nil _) Hn).
  - apply contiguous_exists. rewrite (axis_values labels Hl). lia.
Qed.

(* slices *)
Lemma slice_position l first step number i offset : exists_in_memory l -> 0 < pl_item l ->
  (forall k, k < number -> (0 <= Z.of_nat first + Z.of_nat k * step < Z.of_nat (pl_count l))%Z) -> i < number ->
  pl_position (py_slice l first step number) i offset
  = pl_position l (Z.to_nat (Z.of_nat first + Z.of_nat i * step)) offset.
Proof.
  intros [_ Hm] Hitem Hk Hi. unfold pl_position. cbn [py_slice pl_start pl_stride].
  pose proof (Hk 0) as H0. pose proof (Hk i Hi) as Hi'.
  assert (first < pl_count l) as Hf by lia. pose proof (Hm first 0 Hf Hitem) as Hp. unfold pl_position in Hp.
  unfold pl_position. rewrite !Z2Nat.id by lia. ring.
Qed.

Lemma slice_exists l first step number : exists_in_memory l ->
  (forall k, k < number -> (0 <= Z.of_nat first + Z.of_nat k * step < Z.of_nat (pl_count l))%Z) ->
  exists_in_memory (py_slice l first step number).
Proof.
  intros Hl Hk. pose proof Hl as [Hf Hm]. split; [exact Hf|]. intros i offset Hi Ho. cbn [py_slice pl_count pl_item pl_memory] in *.
  rewrite slice_position by (assumption || lia). apply Hm; [|exact Ho]. specialize (Hk i Hi). lia.
Qed.

(* fields *)
Lemma find_fields (fields : list (string * nat)) names : forall found,
  mapM (fun name => match find (fun field => String.eqb (fst field) name) fields with
                    | Some field => Ok field
                    | None => exception "no field of this name"
                    end) names = Ok found ->
  map fst found = names /\ incl found fields.
Proof.
  induction names as [|name names IH]; intros found H; cbn [mapM] in H.
  - injection H as <-. split; [reflexivity|intros x []].
  - destruct (find _ fields) as [field|] eqn:Ef; cbn [bind] in H; [|discriminate H].
    apply bind_ok in H as (rest & Hr & H). injection H as <-. apply find_some in Ef as [Hin He]. apply String.eqb_eq in He.
    destruct (IH rest Hr) as [H1 H2]. cbn [map]. rewrite H1, He. split; [reflexivity|]. intros x [<-|Hx]; [exact Hin|apply H2; exact Hx].
Qed.

Lemma select_ok l names l' : py_select l names = Ok l' ->
  exists fields, map fst fields = names /\ incl fields (pl_fields l)
    /\ l' = mk_py_labels (pl_memory l) (pl_start l) (pl_stride l) (pl_count l) (pl_item l) fields None.
Proof.
  unfold py_select. destruct (has_duplicates _ _); [discriminate|]. intros H. apply bind_ok in H as (fields & Hf & H). injection H as <-.
  destruct (find_fields _ _ _ Hf) as [H1 H2]. exists fields. auto.
Qed.

Lemma select_exists l names l' : exists_in_memory l -> py_select l names = Ok l' -> exists_in_memory l'.
Proof.
  intros [Hf Hm] H. apply select_ok in H as (fields & _ & Hincl & ->). split; [|exact Hm]. cbn [pl_fields pl_item].
  rewrite Forall_forall in Hf |- *. intros field Hin. apply Hf, Hincl, Hin.
Qed.

(* copies *)
Lemma take_memory_length l indexes :
  length (flat_map (fun i => map (pl_get l i) (seq 0 (pl_item l))) indexes) = length indexes * pl_item l.
Proof.
  induction indexes as [|i indexes IH]; [reflexivity|]. cbn [flat_map length]. rewrite app_length, map_length, seq_length, IH. reflexivity.
Qed.

Lemma take_memory_nth l indexes : forall k j d, k < length indexes -> j < pl_item l ->
  nth (k * pl_item l + j) (flat_map (fun i => map (pl_get l i) (seq 0 (pl_item l))) indexes) 0%Z = pl_get l (nth k indexes d) j.
Proof.
  induction indexes as [|i indexes IH]; intros k j d Hk Hj; cbn [length] in Hk; [lia|]. cbn [flat_map].
  destruct k as [|k]; cbn [Nat.mul Nat.add nth].
  - rewrite app_nth1 by (rewrite map_length, seq_length; exact Hj). 
    rewrite (nth_indep _ 0%Z (pl_get l i 0)) by (rewrite map_length, seq_length; exact Hj).
    rewrite map_nth, seq_nth by exact Hj. reflexivity.
  - rewrite app_nth2 by (rewrite map_length, seq_length; lia). rewrite map_length, seq_length.
    rewrite <- (IH k j d) by (lia || exact Hj). f_equal. lia.
Qed.

Lemma take_exists l indexes : exists_in_memory l -> exists_in_memory (py_take l indexes).
Proof.
  intros [Hf Hm]. split; [exact Hf|]. intros i offset Hi Ho. unfold pl_position. cbn [py_take pl_count pl_item pl_start pl_stride pl_memory] in *.
  rewrite take_memory_length. assert (i * pl_item l + offset < length indexes * pl_item l) by nia. lia.
Qed.

Lemma python_exists l : python_labels l -> exists_in_memory l.
Proof.
  induction 1 as [names columns values l Hv H|labels c l Hl Hc H|l first step number _ IH Hs Hk|l names l' _ IH H|l indexes _ IH Hi].
  - exact (labels_new_exists _ _ _ _ Hv H).
  - exact (from_library_exists _ _ _ Hl Hc H).
  - apply slice_exists; assumption.
  - exact (select_exists _ _ _ IH H).
  - apply take_exists. exact IH.
Qed.

(** * What the library reads *)

Lemma as_names l : c_names (as_eqs_labels l) = map c_str (py_names l).
Proof.
  unfold c_names, as_eqs_labels. cbn [cl_names cl_size]. unfold py_names. rewrite firstn_all2 by (rewrite map_length; lia). reflexivity.
Qed.

Lemma packed_same l : exists_in_memory l -> packed l -> same_in_library l.
Proof.
  intros [Hf Hm] [Hstride Hfields].
  assert (Hfit : pl_count l * length (pl_fields l) <= length (skipn (pl_start l) (pl_memory l))
    /\ (forall i j, i < pl_count l -> j < length (pl_fields l) ->
          (pl_position l i (nth j (map snd (pl_fields l)) 0%nat) = Z.of_nat (pl_start l) + Z.of_nat (i * length (pl_fields l) + j)%nat)%Z)).
  { assert (Hpos : forall i j, i < pl_count l -> j < length (pl_fields l) ->
          (pl_position l i (nth j (map snd (pl_fields l)) 0%nat) = Z.of_nat (pl_start l) + Z.of_nat (i * length (pl_fields l) + j)%nat)%Z).
    { intros i j Hi Hj. rewrite Hfields by lia. rewrite seq_nth by exact Hj. unfold pl_position. destruct i as [|i].
      - cbn [Nat.mul Nat.add]. change (Z.of_nat 0) with 0%Z. ring.
      - rewrite Hstride by (clear -Hi; lia). cbn [Nat.add]. lia. }
    split; [|exact Hpos]. rewrite skipn_length.
    destruct (pl_count l) as [|count] eqn:Ec; [lia|]. destruct (length (pl_fields l)) as [|n] eqn:En; [lia|].
    assert (Hlast : nth n (map snd (pl_fields l)) 0 < pl_item l).
    { rewrite Forall_forall in Hf. assert (Hin : In (nth n (map snd (pl_fields l)) 0) (map snd (pl_fields l))) by (apply nth_In; rewrite map_length; lia).
      apply in_map_iff in Hin as (field & Hs & Hin). rewrite <- Hs. apply Hf. exact Hin. }
    specialize (Hpos count n ltac:(lia) ltac:(lia)). specialize (Hm count _ ltac:(lia) Hlast). rewrite Hpos in Hm. nia. }
  destruct Hfit as [Hfit Hpos]. split.
  - split; unfold as_eqs_labels; cbn [cl_names cl_values cl_size cl_count]; intros memory E; injection E as <-.
    + unfold py_names. rewrite map_length. lia.
    + exact Hfit.
  - unfold c_rows, as_eqs_labels. cbn [cl_values cl_count cl_size]. rewrite take_rows_map by exact Hfit. unfold py_rows.
    apply map_ext_in. intros i Hi. apply in_seq in Hi. rewrite <- (map_map snd (pl_get l i)).
    rewrite (map_seq_nth (pl_get l i) 0 (map snd (pl_fields l))). rewrite map_length. apply map_ext_in. intros j Hj. apply in_seq in Hj.
    rewrite nth_skipn. unfold pl_get. rewrite Hpos by lia. f_equal. lia.
Qed.

(* memory in which all integers are different *)
Definition numbered (n : nat) : list Z := map Z.of_nat (seq 0 n).

Lemma numbered_nth n i : i < n -> nth i (numbered n) 0%Z = Z.of_nat i.
Proof. intros H. unfold numbered. change 0%Z with (Z.of_nat 0). rewrite map_nth, seq_nth by exact H. reflexivity. Qed.

Lemma with_memory_exists l memory : length memory = length (pl_memory l) -> exists_in_memory l -> exists_in_memory (with_memory l memory).
Proof.
  intros E [Hf Hm]. split; [exact Hf|]. intros i offset Hi Ho. cbn [with_memory pl_memory]. rewrite E. apply (Hm i offset Hi Ho).
Qed.

Lemma same_packed l : exists_in_memory l -> pl_fields l <> [] ->
  same_in_library (with_memory l (numbered (length (pl_memory l)))) -> packed l.
Proof.
  intros [Hf Hm] Hne [[_ Hr] Hrows]. set (l' := with_memory l (numbered (length (pl_memory l)))) in *.
  set (n := length (pl_fields l)). assert (Hn : 0 < n) by (subst n; destruct (pl_fields l); [contradiction|cbn; lia]).
  specialize (Hr _ eq_refl). change (cl_count (as_eqs_labels l')) with (pl_count l) in Hr. change (cl_size (as_eqs_labels l')) with n in Hr.
  change (pl_start l') with (pl_start l) in Hr. change (pl_memory l') with (numbered (length (pl_memory l))) in Hr.
  assert (Hlen : length (numbered (length (pl_memory l))) = length (pl_memory l)) by (unfold numbered; rewrite map_length, seq_length; reflexivity).
  assert (Hpos : forall i j, i < pl_count l -> j < n ->
    (pl_position l i (nth j (map snd (pl_fields l)) 0%nat) = Z.of_nat (pl_start l) + Z.of_nat (i * n + j)%nat)%Z).
  { intros i j Hi Hj. unfold c_rows in Hrows. cbn [as_eqs_labels cl_values cl_count cl_size] in Hrows.
    change (pl_start l') with (pl_start l) in Hrows. change (pl_memory l') with (numbered (length (pl_memory l))) in Hrows.
    change (length (pl_fields l')) with n in Hrows. change (pl_count l') with (pl_count l) in Hrows.
    rewrite take_rows_map in Hrows by exact Hr. unfold py_rows in Hrows. change (pl_count l') with (pl_count l) in Hrows.
    change (pl_fields l') with (pl_fields l) in Hrows.
    apply (f_equal (fun x => nth j (nth i x []) 0%Z)) in Hrows.
    rewrite !(nth_indep (map _ (seq 0 (pl_count l))) [] ((fun i => map (fun field => pl_get l' i (snd field)) (pl_fields l)) 0)) in Hrows
      by (rewrite map_length, seq_length; exact Hi).
    rewrite (map_nth (fun i => map (fun field => pl_get l' i (snd field)) (pl_fields l)) (seq 0 (pl_count l)) 0 i) in Hrows.
    rewrite (nth_indep _ _ ((fun i => map (fun j => nth (i * n + j) (skipn (pl_start l) (numbered (length (pl_memory l)))) 0%Z) (seq 0 n)) 0)) in Hrows
      by (rewrite map_length, seq_length; exact Hi).
    rewrite (map_nth (fun i => map (fun j => nth (i * n + j) (skipn (pl_start l) (numbered (length (pl_memory l)))) 0%Z) (seq 0 n)) (seq 0 (pl_count l)) 0 i) in Hrows.
    rewrite seq_nth in Hrows by exact Hi. cbn [Nat.add] in Hrows.
    rewrite (nth_indep (map _ (seq 0 n)) 0%Z (nth (i * n + 0) (skipn (pl_start l) (numbered (length (pl_memory l)))) 0%Z)) in Hrows
      by (rewrite map_length, seq_length; exact Hj).
    rewrite (map_nth (fun j => nth (i * n + j) (skipn (pl_start l) (numbered (length (pl_memory l)))) 0%Z) (seq 0 n) 0 j) in Hrows.
    rewrite seq_nth in Hrows by exact Hj. cbn [Nat.add] in Hrows. rewrite nth_skipn in Hrows.
    rewrite skipn_length, Hlen in Hr.
    assert (Hin : pl_start l + (i * n + j) < length (pl_memory l)) by nia.
    rewrite numbered_nth in Hrows by exact Hin. rewrite <- (map_map snd (pl_get l' i)) in Hrows.
    rewrite (nth_indep (map _ (map snd (pl_fields l))) 0%Z (pl_get l' i 0)) in Hrows by (rewrite !map_length; exact Hj).
    rewrite map_nth in Hrows. unfold pl_get in Hrows.
    change (pl_position l' i) with (pl_position l i) in Hrows. change (pl_memory l') with (numbered (length (pl_memory l))) in Hrows.
    set (o := nth j (map snd (pl_fields l)) 0) in *.
    assert (Ho : o < pl_item l).
    { rewrite Forall_forall in Hf. assert (Ho : In o (map snd (pl_fields l))) by (apply nth_In; rewrite map_length; exact Hj).
      apply in_map_iff in Ho as (field & Hs & Ho). rewrite <- Hs. apply Hf. exact Ho. }
    specialize (Hm i o Hi Ho). rewrite numbered_nth in Hrows by lia. rewrite Z2Nat.id in Hrows by lia. lia. }
  split.
  - intros Hc. pose proof (Hpos 0 0 ltac:(lia) Hn) as H0. pose proof (Hpos 1 0 ltac:(lia) Hn) as H1.
    unfold pl_position in H0, H1. fold n. lia.
  - intros Hc. apply (nth_ext _ _ 0 0); [rewrite map_length, seq_length; reflexivity|]. intros j Hj. rewrite map_length in Hj. fold n in Hj |- *.
    rewrite seq_nth by exact Hj. specialize (Hpos 0 j ltac:(lia) Hj). unfold pl_position in Hpos. lia.
Qed.

Lemma labels_same_iff l : python_labels l -> py_names l <> [] ->
  ((forall memory, length memory = length (pl_memory l) -> same_in_library (with_memory l memory)) <-> packed l).
Proof.
  intros Hl Hne. apply python_exists in Hl. split.
  - intros H. apply same_packed; [exact Hl| |].
    + intros E. apply Hne. unfold py_names. rewrite E. reflexivity.
    + apply H. unfold numbered. rewrite map_length, seq_length. reflexivity.
  - intros Hp memory E. apply packed_same; [apply with_memory_exists; assumption|exact Hp].
Qed.

(** * Labels without [::step] and [["a", "b"]] *)

Lemma map_snd_combine {A} (names : list A) : forall n start, length names = n -> map snd (combine names (seq start n)) = seq start n.
Proof.
  induction names as [|a names IH]; intros [|n] start H; cbn [length] in H; try discriminate; [reflexivity|].
  cbn [seq combine map snd]. f_equal. apply IH. congruence.
Qed.

Lemma map_fst_combine {A} (names : list A) : forall n start, length names = n -> map fst (combine names (seq start n)) = names.
Proof.
  induction names as [|a names IH]; intros [|n] start H; cbn [length] in H; try discriminate; [reflexivity|].
  cbn [seq combine map fst]. f_equal. apply IH. congruence.
Qed.

Definition contiguous (l : py_labels) : Prop :=
  pl_stride l = Z.of_nat (pl_item l) /\ pl_item l = length (pl_fields l) /\ map snd (pl_fields l) = seq 0 (length (pl_fields l)).

Lemma contiguous_fields names n : length names = n ->
  length (combine names (seq 0 n)) = n /\ map snd (combine names (seq 0 n)) = seq 0 (length (combine names (seq 0 n)))
  /\ map fst (combine names (seq 0 n) : list (string * nat)) = names.
Proof.
  intros H. assert (length (combine names (seq 0 n)) = n) as E by (rewrite combine_length, seq_length; lia).
  rewrite E. split; [reflexivity|]. split; [apply map_snd_combine|apply map_fst_combine]; exact H.
Qed.

Lemma labels_new_contiguous names columns values l : labels_new names columns values = Ok l -> contiguous l.
Proof.
  intros H. apply labels_new_ok in H as (E & _ & _ & ->). rewrite <- (field_names_length names 0) in E.
  destruct (contiguous_fields _ _ E) as (E1 & E2 & _). unfold contiguous. cbn [pl_stride pl_item pl_fields]. rewrite E1 in *. auto.
Qed.

Lemma plain_contiguous l : plain_labels l -> contiguous l.
Proof.
  induction 1 as [names columns values l Hv H|labels c l Hl Hc H|l first number _ IH Hk|l indexes _ IH Hi].
  - exact (labels_new_contiguous _ _ _ _ H).
  - destruct (from_library_cases labels c l Hl Hc H) as [[_ Hn]|(_ & _ & ->)].
    + exact (labels_new_contiguous _ _ _ _ Hn).
    + destruct (contiguous_fields _ _ (field_names_length (labels_names labels) 0)) as (E1 & E2 & _).
      unfold contiguous. cbn [pl_stride pl_item pl_fields]. rewrite E1 in *. auto.
  - destruct IH as (E1 & E2 & E3). unfold contiguous, py_slice. cbn [pl_stride pl_item pl_fields]. rewrite Z.mul_1_l. auto.
  - destruct IH as (E1 & E2 & E3). unfold contiguous, py_take. cbn [pl_stride pl_item pl_fields]. auto.
Qed.

Lemma contiguous_packed l : contiguous l -> packed l.
Proof. intros (E1 & E2 & E3). split; intros _; congruence. Qed.

Lemma plain_python l : plain_labels l -> python_labels l.
Proof.
  induction 1 as [names columns values l Hv H|labels c l Hl Hc H|l first number _ IH Hk|l indexes _ IH Hi].
  - exact (made_new _ _ _ _ Hv H).
  - exact (from_library _ _ _ Hl Hc H).
  - apply sliced; [exact IH|lia|]. intros k Hk'. lia.
  - apply taken; assumption.
Qed.

Lemma plain_same l : plain_labels l -> same_in_library l.
Proof.
  intros H. apply packed_same; [apply python_exists, plain_python, H|apply contiguous_packed, plain_contiguous, H].
Qed.

Lemma map_c_str names : Forall (fun name => has_nul name = false) names -> map c_str names = names.
Proof. induction 1 as [|s names Hs _ IH]; cbn [map]; [reflexivity|]. rewrite IH, c_str_no_nul by exact Hs. reflexivity. Qed.

(* the labels which the library makes from packed ones *)
Lemma packed_accepted l : python_labels l -> packed l -> py_names l <> [] -> Forall (fun name => has_nul name = false) (py_names l) ->
  ((exists labels, labels_from_c (as_eqs_labels l) = Ok labels) <-> good_names (py_names l) /\ NoDup (py_rows l))
  /\ (forall labels, labels_from_c (as_eqs_labels l) = Ok labels -> is_labels labels (py_names l) (py_rows l)).
Proof.
  intros Hl Hp Hne Hnul. destruct (packed_same l (python_exists l Hl) Hp) as [Hr Hrows].
  assert (Hs : 0 < cl_size (as_eqs_labels l)).
  { cbn [as_eqs_labels cl_size]. unfold py_names in Hne. destruct (pl_fields l); [contradiction|cbn; lia]. }
  destruct (labels_from_c_is _ Hr Hs) as [H1 H2]. rewrite Hrows, as_names, map_c_str in H1, H2 by exact Hnul.
  split; [|exact H2]. rewrite H1. split; [tauto|]. intros [Hg Hd]. cbn [as_eqs_labels cl_names cl_values].
  split; [discriminate|]. split; [discriminate|]. split; assumption.
Qed.

Lemma plain_accepted l : plain_labels l -> py_names l <> [] -> Forall (fun name => has_nul name = false) (py_names l) ->
  ((exists labels, labels_from_c (as_eqs_labels l) = Ok labels) <-> good_names (py_names l) /\ NoDup (py_rows l))
  /\ (forall labels, labels_from_c (as_eqs_labels l) = Ok labels -> is_labels labels (py_names l) (py_rows l)).
Proof.
  intros H. apply packed_accepted; [apply plain_python, H|apply contiguous_packed, plain_contiguous, H].
Qed.
