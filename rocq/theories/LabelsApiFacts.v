(* Labels through the C API *)
From Coq Require Import Permutation.
From Verif Require Import Base BaseFacts Labels Array Block Tensor Npy Io Origin CApi Spec SpecTensor SpecIo SpecApi
  LabelsFacts NpyFacts.
Local Open Scope string_scope.
Local Open Scope list_scope.
Local Open Scope nat_scope.

(** * Texts *)

Lemma ascii_is_utf8 b : forall fuel, forallb is_ascii_byte b = true -> is_utf8 fuel b = true.
Proof.
  induction b as [|c b IH]; intros [|fuel] H; cbn [is_utf8]; try reflexivity. cbn [forallb] in H.
  apply andb_true_iff in H as [H1 H2]. assert (between 0 127 c = true) as ->; [|auto].
  unfold between. unfold is_ascii_byte in H1. apply andb_true_iff. split; apply Z.leb_le.
  - unfold byte_value. lia.
  - unfold byte_value. apply Z.ltb_lt in H1. unfold byte_value in H1. lia.
Qed.

Lemma identifier_utf8 s : identifier s -> is_utf8 (S (length (list_ascii_of_string s))) (list_ascii_of_string s) = true.
Proof. intros H. apply ascii_is_utf8. apply identifier_ascii. exact H. Qed.

Lemma c_str_no_nul s : has_nul s = false -> c_str s = s.
Proof.
  induction s as [|c s IH]; cbn [has_nul c_str]; intros H; [reflexivity|]. apply orb_false_iff in H as [H1 H2].
  rewrite H1, IH by assumption. reflexivity.
Qed.

(* all the names which are accepted are UTF-8 *)
Lemma c_names_read m memory :
  (mapM (c_str_to_str m) memory = Ok (map c_str memory))
  \/ (~ Forall identifier (map c_str memory) /\ mapM (c_str_to_str m) memory = Panic m).
Proof.
  induction memory as [|s memory IH]; cbn [mapM map]; [auto|]. unfold c_str_to_str at 1 3.
  destruct (is_utf8 _ _) eqn:Eu; cbn [bind].
  - destruct IH as [->|[H ->]]; cbn [bind]; [auto|]. right. split; [|reflexivity]. intros Hf. apply H. inversion Hf. assumption.
  - right. split; [|reflexivity]. intros Hf. apply Forall_cons_iff in Hf as [Hf _]. apply identifier_utf8 in Hf. congruence.
Qed.

(** * Rows *)

Lemma take_rows_length_each count n : forall values, count * n <= length values ->
  Forall (fun r => length r = n) (take_rows count n values) /\ length (take_rows count n values) = count
  /\ concat (take_rows count n values) = firstn (count * n) values.
Proof.
  induction count as [|count IH]; intros values H; cbn [take_rows]; [repeat split; [constructor|reflexivity..]|].
  destruct (IH (skipn n values)) as (H1 & H2 & H3); [rewrite skipn_length; lia|].
  split; [constructor; [rewrite firstn_length; lia|exact H1]|]. split; [cbn [length]; rewrite H2; reflexivity|].
  cbn [concat]. rewrite H3. replace (S count * n) with (n + count * n) by lia.
  rewrite <- (firstn_skipn n values) at 3. rewrite firstn_app, firstn_length.
  rewrite (firstn_all2 (firstn n values)) by (rewrite firstn_length; lia). f_equal. f_equal. lia.
Qed.

Lemma chunks_take_rows count n values : n <> 0 -> count * n <= length values ->
  chunks_exact n (firstn (count * n) values) = take_rows count n values.
Proof.
  intros Hn H. destruct (take_rows_length_each count n values H) as (H1 & _ & <-). apply chunks_exact_concat; assumption.
Qed.

(* the values which are read *)
Definition read_rows (c : c_labels) : list (list Z) := if cl_size c =? 0 then [] else c_rows c.

Lemma labels_from_c_build c memory : cl_names c = Some memory -> (cl_values c = None -> cl_count c = 0) -> readable c ->
  labels_from_c c = (let? names := mapM (c_str_to_str "invalid UTF8 name") (firstn (cl_size c) memory) in
                     labels_build names (read_rows c)).
Proof.
  intros Hn Hv [Hr1 Hr2]. unfold labels_from_c, labels_build. rewrite Hn.
  assert ((match cl_values c with None => true | Some _ => false end) && (0 <? cl_count c) = false) as ->.
  { destruct (cl_values c); [reflexivity|]. rewrite Hv; reflexivity. }
  unfold from_raw_parts at 1. rewrite (proj2 (Nat.leb_le _ _) (Hr1 _ Hn)). cbn [bind].
  destruct (mapM _ _) as [names|e|m|r]; cbn [bind]; try reflexivity.
  destruct (builder_new names) as [b|e|m|r] eqn:Eb; cbn [bind]; try reflexivity.
  assert (Hslice : exists slice, from_raw_parts (cl_values c) (cl_count c * cl_size c) = Ok slice
    /\ match slice with [] => Ok b | _ => builder_add_all b (chunks_exact (cl_size c) slice) end = builder_add_all b (read_rows c)).
  { unfold read_rows, c_rows, from_raw_parts. destruct (cl_values c) as [values|].
    - pose proof (Hr2 _ eq_refl) as Hl. rewrite (proj2 (Nat.leb_le _ _) Hl). eexists. split; [reflexivity|].
      destruct (Nat.eqb_spec (cl_size c) 0) as [E|E].
      + rewrite E, Nat.mul_0_r. reflexivity.
      + rewrite <- (chunks_take_rows _ _ _ E Hl). destruct (firstn _ _) eqn:Ef; [|reflexivity].
        unfold chunks_exact. cbn [length]. rewrite Nat.div_0_l by assumption. reflexivity.
    - rewrite (Hv eq_refl). cbn [Nat.mul Nat.eqb]. exists []. split; [reflexivity|]. destruct (cl_size c =? 0); reflexivity. }
  destruct Hslice as (slice & -> & Hs). cbn [bind]. rewrite Hs. reflexivity.
Qed.

(* C36: what the conversion accepts *)
Lemma labels_from_c_ok c : readable c -> 0 < cl_size c ->
  forall l, labels_from_c c = Ok l <->
    cl_names c <> None /\ (cl_values c = None -> cl_count c = 0)
    /\ good_names (c_names c) /\ NoDup (c_rows c) /\ l = built (c_names c) (c_rows c).
Proof.
  intros Hr Hs l. destruct (cl_names c) as [memory|] eqn:En.
  2:{ unfold labels_from_c. rewrite En. split; [discriminate|]. intros [H _]. congruence. }
  assert (Hcase : (cl_values c = None -> cl_count c = 0) \/ (cl_values c = None /\ cl_count c <> 0)).
  { destruct (cl_values c); [left; discriminate|]. destruct (Nat.eq_dec (cl_count c) 0); [left|right]; auto. }
  destruct Hcase as [Hv|[Hv Hc]].
  2:{ unfold labels_from_c. rewrite En, Hv. destruct (Nat.ltb_spec 0 (cl_count c)); [|lia]. cbn [andb].
      split; [discriminate|]. intros (_ & H1 & _). rewrite (H1 eq_refl) in Hc. congruence. }
  rewrite (labels_from_c_build c memory En Hv Hr).
  assert (Hnames : c_names c = map c_str (firstn (cl_size c) memory)) by (unfold c_names; rewrite En; reflexivity).
  assert (Hlen : length (c_names c) = cl_size c).
  { rewrite Hnames, map_length, firstn_length. destruct Hr as [Hr _]. specialize (Hr _ En). lia. }
  assert (Hread : read_rows c = c_rows c).
  { unfold read_rows. rewrite (proj2 (Nat.eqb_neq _ _)) by lia. reflexivity. }
  assert (Hrows : Forall (fun r => length r = length (c_names c)) (c_rows c)).
  { unfold c_rows. destruct (cl_values c) as [values|] eqn:Ev; [|constructor]. rewrite Hlen.
    destruct Hr as [_ Hr]. apply take_rows_length_each. auto. }
  destruct (c_names_read "invalid UTF8 name" (firstn (cl_size c) memory)) as [->|[Hbad ->]]; cbn [bind].
  - rewrite <- Hnames, labels_build_ok, Hread. split.
    + intros (H1 & [_ H2] & H3). repeat split; try assumption; try apply H1. discriminate.
    + intros (_ & _ & H1 & H2 & H3). repeat split; try assumption; apply H1.
  - split; [discriminate|]. intros (_ & _ & [H _] & _). rewrite Hnames in H. contradiction.
Qed.

Lemma built_rows names rs : good_names names -> good_rows (length names) rs -> names <> [] ->
  labels_names (built names rs) = names /\ rows (built names rs) = rs.
Proof.
  intros H1 H2 H3. pose proof (built_is_labels names rs H1 H2 H3) as H.
  split; [unfold labels_names; apply H|]. apply (is_labels_rows _ _ _ H). 
Qed.

Lemma labels_from_c_wf c l : labels_from_c c = Ok l -> wf_labels l.
Proof.
  unfold labels_from_c. destruct (cl_names c); [|discriminate]. destruct (_ && _); [discriminate|].
  intros H. apply bind_ok in H as (m & _ & H). apply bind_ok in H as (names & _ & H). apply bind_ok in H as (b & Hb & H).
  apply bind_ok in H as (slice & _ & H). apply bind_ok in H as (b' & Hb' & H).
  assert (Hbuild : exists rs, builder_add_all b rs = Ok b').
  { destruct slice; [exists []; exact Hb'|eauto]. }
  destruct Hbuild as [rs Hrs]. apply (labels_build_wf names rs). unfold labels_build. rewrite Hb. cbn [bind]. rewrite Hrs. exact H.
Qed.

(* C36: a round trip *)
Lemma labels_to_c_ok l : axis_labels l -> labels_to_c l = Ok (mk_c_labels (Some l) (Some (labels_names l))
  (if length (rows l) =? 0 then None else Some (l_values l)) (length (labels_names l)) (length (rows l))).
Proof.
  intros [Hl Hne]. unfold labels_to_c. rewrite (proj2 (labels_count_ok l _ Hl)) by auto. cbn [bind].
  assert (labels_size l <> 0).
  { unfold labels_size, labels_names in *. destruct (l_names l); [congruence|discriminate]. }
  rewrite (proj2 (Nat.eqb_neq (labels_size l) 0)) by assumption. rewrite orb_false_r. reflexivity.
Qed.

Lemma labels_round_trip l : axis_labels l ->
  exists c l', labels_to_c l = Ok c /\ labels_from_c c = Ok l' /\ same_labels l' l
    /\ readable c /\ c_names c = labels_names l /\ c_rows c = rows l /\ cl_labels_ptr c = Some l.
Proof.
  intros Hax. pose proof Hax as [(names & rs & Hl) Hne]. eexists. exists (built (labels_names l) (rows l)).
  split; [apply labels_to_c_ok; assumption|].
  assert (Hnames : labels_names l = names) by (unfold labels_names; apply Hl).
  assert (Hrs : rows l = rs) by (apply (is_labels_rows _ _ _ Hl)).
  destruct Hl as (Hgn & Hgr & _ & H1 & H2 & H3).
  match goal with |- labels_from_c ?x = _ /\ _ => set (c := x) end.
  assert (Hr : readable c).
  { split; cbn [c cl_names cl_values cl_size cl_count].
    - intros memory E. injection E as <-. reflexivity.
    - intros memory E. destruct (length (rows l) =? 0) eqn:E0; [discriminate E|]. injection E as <-.
      rewrite H2, Hrs, Hnames. rewrite (length_concat_const (length names)); [lia|apply Hgr]. }
  assert (Hcn : c_names c = labels_names l).
  { unfold c_names. cbn [c cl_names cl_size]. rewrite firstn_all, Hnames. destruct Hgn as [Hgn _]. clear -Hgn.
    induction Hgn as [|s names Hs _ IH]; cbn [map]; [reflexivity|]. rewrite IH, c_str_no_nul; [reflexivity|].
    apply identifier_no_nul. assumption. }
  assert (Hcr : c_rows c = rows l).
  { unfold c_rows. cbn [c cl_values cl_count cl_size]. destruct (Nat.eqb_spec (length (rows l)) 0) as [E0|E0].
    - destruct (rows l); [reflexivity|discriminate E0].
    - rewrite H2, Hrs, Hnames. rewrite <- (app_nil_r (concat rs)). apply take_rows_concat. apply Hgr. }
  split; [|split; [|auto]].
  - apply labels_from_c_ok; [exact Hr| |].
    + cbn [c cl_size]. destruct (labels_names l); [congruence|cbn; lia].
    + rewrite Hcn, Hcr. split; [discriminate|]. split; [|split; [rewrite Hnames; exact Hgn|split; [rewrite Hrs; apply Hgr|reflexivity]]].
      cbn [c cl_values cl_count]. destruct (Nat.eqb_spec (length (rows l)) 0); [auto|discriminate].
  - rewrite Hnames, Hrs. destruct (built_rows names rs) as [E1 E2]; try assumption; [congruence|].
    split; [change (l_names l) with (labels_names l); rewrite Hnames; exact E1|congruence].
Qed.

Lemma labels_from_c_is c : readable c -> 0 < cl_size c ->
  ((exists l, labels_from_c c = Ok l) <->
   cl_names c <> None /\ (cl_values c = None -> cl_count c = 0) /\ good_names (c_names c) /\ NoDup (c_rows c))
  /\ (forall l, labels_from_c c = Ok l -> is_labels l (c_names c) (c_rows c)).
Proof.
  intros Hr Hs. split.
  - split.
    + intros [l H]. apply (labels_from_c_ok c Hr Hs) in H. tauto.
    + intros (H1 & H2 & H3 & H4). eexists. apply (labels_from_c_ok c Hr Hs). repeat (split; [eassumption|]). reflexivity.
  - intros l H. apply (labels_from_c_ok c Hr Hs) in H as (H1 & H2 & H3 & H4 & ->).
    assert (Hlen : length (c_names c) = cl_size c).
    { unfold c_names. destruct (cl_names c) as [memory|] eqn:En; [|contradiction]. destruct Hr as [Hr _]. specialize (Hr _ En).
      rewrite map_length, firstn_length. lia. }
    assert (Hrows : good_rows (length (c_names c)) (c_rows c)).
    { split; [|exact H4]. unfold c_rows. destruct (cl_values c) as [values|] eqn:Ev; [|constructor]. rewrite Hlen.
      destruct Hr as [_ Hr]. apply take_rows_length_each. auto. }
    assert (Hne : c_names c <> []) by (intros E; rewrite E in Hlen; cbn in Hlen; lia).
    unfold is_labels, built. destruct (c_names c) as [|n ns]; [contradiction|].
    split; [exact H3|]. split; [exact Hrows|]. split; [discriminate|]. repeat split. reflexivity.
Qed.

Lemma labels_from_c_nothing c memory : cl_size c = 0 -> cl_names c = Some memory -> (cl_values c = None -> cl_count c = 0) ->
  labels_from_c c = Ok (mk_labels [] [] []).
Proof.
  intros Hs Hn Hv. rewrite (labels_from_c_build c memory Hn Hv).
  - rewrite Hs. cbn [firstn mapM bind]. unfold read_rows. rewrite Hs. reflexivity.
  - split; intros m _; rewrite Hs; lia.
Qed.

Lemma c_position l c memory : axis_labels l -> labels_to_c l = Ok c -> labels_size l <= length memory ->
  exists position, c_labels_position c (Some memory) (labels_size l) = Ok position
  /\ ((position = (-1)%Z /\ ~ In (firstn (labels_size l) memory) (rows l))
      \/ exists i, position = Z.of_nat i /\ nth_error (rows l) i = Some (firstn (labels_size l) memory)).
Proof.
  intros [Hl Hne] Hc Hm. pose proof (labels_to_c_ok l (conj Hl Hne)) as E. rewrite E in Hc. injection Hc as <-.
  unfold c_labels_position. cbn [cl_labels_ptr from_raw_parts]. rewrite (proj2 (Nat.leb_le _ _) Hm). cbn [bind].
  set (row := firstn (labels_size l) memory) in *.
  assert (Hrow : length row = labels_size l) by (subst row; rewrite firstn_length; lia).
  destruct (labels_position l row) as [[i|]|e|m|r] eqn:Ep; cbn [bind].
  - apply (labels_position_ok _ _ _ Hl) in Ep. eexists. split; [reflexivity|]. right. exists i. auto.
  - apply (labels_position_none _ _ Hl) in Ep. eexists. split; [reflexivity|]. left. auto.
  - unfold labels_position in Ep. rewrite Hrow, Nat.eqb_refl in Ep. discriminate Ep.
  - unfold labels_position in Ep. rewrite Hrow, Nat.eqb_refl in Ep. discriminate Ep.
  - unfold labels_position in Ep. rewrite Hrow, Nat.eqb_refl in Ep. discriminate Ep.
Qed.

Lemma position_call p thread w l c memory s v r : axis_labels l -> labels_to_c l = Ok c -> labels_size l <= length memory ->
  run_call p thread w (LabelsPosition c (Some memory) (labels_size l)) = (s, v, r) ->
  r = Returned 0 /\ exists position, v = VPosition position
  /\ ((position = (-1)%Z /\ ~ In (firstn (labels_size l) memory) (rows l))
      \/ exists i, position = Z.of_nat i /\ nth_error (rows l) i = Some (firstn (labels_size l) memory)).
Proof.
  intros Hl Hc Hm H. destruct (c_position l c memory Hl Hc Hm) as (z & E & Hz).
  unfold run_call in H. cbn [call_body] in H. unfold eqs_labels_position, reading in H. rewrite E in H. cbn [bind catch_unwind] in H.
  injection H as <- <- <-. split; [reflexivity|]. exists z. auto.
Qed.
