(* Facts about iterators *)
From Coq Require Import Permutation.
From Verif Require Import Base BaseFacts Labels Block Tensor Spec SpecTensor LabelsFacts TensorFacts PathFacts SpecPyPrint Iterators SpecIterators.
From Verif Require PyPrint PyPrintFacts.
Import PyPrintFacts.
Local Open Scope string_scope.
Local Open Scope list_scope.
Local Open Scope nat_scope.

(** * Entries *)

Lemma rows_concat l : wf_labels l -> labels_names l <> [] ->
  l_values l = concat (rows l) /\ Forall (fun r => length r = labels_size l) (rows l) /\ labels_size l <> 0.
Proof.
  intros H Hne. apply wf_labels_is_labels in H. destruct H as (_ & [Hr _] & _ & _ & Hv & _).
  split; [exact Hv|]. split; [exact Hr|]. unfold labels_size, labels_names in *. destruct (l_names l); [congruence|discriminate].
Qed.

Lemma concat_mod {A} n (rs : list (list A)) : n <> 0 -> Forall (fun r => length r = n) rs -> length (concat rs) mod n = 0.
Proof. intros Hn Hf. rewrite (length_concat_const n) by assumption. apply Nat.mod_mul, Hn. Qed.

Lemma chunks_of_rows n rs : n <> 0 -> Forall (fun r => length r = n) rs -> chunks_of n (concat rs) = Ok (mk_chunks (concat rs) n).
Proof.
  intros Hn Hf. unfold chunks_of. rewrite (proj2 (Nat.eqb_neq _ _) Hn), (concat_mod n rs Hn Hf), Nat.sub_0_r, firstn_all. reflexivity.
Qed.

Lemma labels_iterator_ok p l : wf_labels l -> labels_names l <> [] -> labels_iterator p l = Ok (mk_chunks (concat (rows l)) (labels_size l)).
Proof.
  intros Hw Hne. destruct (rows_concat l Hw Hne) as (Hv & Hf & Hn). unfold labels_iterator.
  rewrite Hv, (concat_mod _ _ Hn Hf), (proj2 (Nat.eqb_neq _ _) Hn). cbn [negb Nat.eqb]. rewrite !debug_assert_true. cbn [bind].
  apply chunks_of_rows; assumption.
Qed.

Lemma chunks_next_nil n : n <> 0 -> chunks_next (mk_chunks (concat []) n) = (mk_chunks (concat []) n, None).
Proof. intros Hn. unfold chunks_next. cbn. destruct n; [congruence|reflexivity]. Qed.

Lemma chunks_next_cons n r rs : length r = n -> chunks_next (mk_chunks (concat (r :: rs)) n) = (mk_chunks (concat rs) n, Some r).
Proof.
  intros <-. unfold chunks_next. cbn [ch_values ch_size concat]. rewrite app_length.
  replace (length r + length (concat rs) <? length r) with false by (symmetry; apply Nat.ltb_ge; lia).
  rewrite skipn_app, skipn_all, Nat.sub_diag, firstn_app, firstn_all, Nat.sub_diag. cbn. rewrite app_nil_r. reflexivity.
Qed.

Lemma first_answers_nil {A} times : @first_answers A [] times = repeat None times.
Proof.
  unfold first_answers. generalize 0. induction times as [|k IH]; intros i; cbn; [reflexivity|]. rewrite IH. destruct i; reflexivity.
Qed.

Lemma first_answers_cons {A} (x : A) items times : first_answers (x :: items) (S times) = Some x :: first_answers items times.
Proof. unfold first_answers. cbn [seq map nth_error]. f_equal. rewrite <- seq_shift, map_map. reflexivity. Qed.

Lemma first_answers_nil_cons {A} times : @first_answers A [] (S times) = None :: first_answers [] times.
Proof. rewrite !first_answers_nil. reflexivity. Qed.

Lemma iter_nexts n times : n <> 0 -> forall rs, Forall (fun r => length r = n) rs ->
  nexts iter_next times (mk_chunks (concat rs) n) = (mk_chunks (concat (skipn times rs)) n, first_answers rs times).
Proof.
  intros Hn. induction times as [|times IH]; intros rs Hf; [reflexivity|]. cbn [nexts]. destruct Hf as [|r rs Hr Hf].
  - unfold iter_next in *. rewrite chunks_next_nil by assumption. rewrite (IH []) by constructor. rewrite first_answers_nil_cons, !skipn_nil. reflexivity.
  - unfold iter_next in *. rewrite chunks_next_cons by assumption. rewrite (IH rs) by assumption. rewrite first_answers_cons. reflexivity.
Qed.

Lemma iter_len_rows n rs : n <> 0 -> Forall (fun r => length r = n) rs -> iter_len (mk_chunks (concat rs) n) = length rs.
Proof.
  intros Hn Hf. unfold iter_len, chunks_len. cbn [ch_values ch_size]. rewrite (length_concat_const n) by assumption. apply Nat.div_mul, Hn.
Qed.

Lemma Forall_skipn' {A} (P : A -> Prop) k l : Forall P l -> Forall P (skipn k l).
Proof. intros H. rewrite <- (firstn_skipn k l) in H. apply Forall_app in H. apply H. Qed.

Lemma labels_iterator_spec p l : wf_labels l -> labels_names l <> [] ->
  exists c, labels_iterator p l = Ok c /\ forall times,
    snd (nexts iter_next times c) = first_answers (rows l) times
    /\ iter_len (fst (nexts iter_next times c)) = length (rows l) - times.
Proof.
  intros Hw Hne. exists (mk_chunks (concat (rows l)) (labels_size l)). split; [apply labels_iterator_ok; assumption|].
  destruct (rows_concat l Hw Hne) as (_ & Hf & Hn). intros times. rewrite (iter_nexts _ _ Hn _ Hf). cbn [fst snd].
  split; [reflexivity|]. rewrite iter_len_rows by (try apply Forall_skipn'; assumption). apply skipn_length.
Qed.

(** * Arrays of fixed size *)

Lemma fixed_nexts n times : n <> 0 -> forall rs, Forall (fun r => length r = n) rs ->
  fixed_size_nexts n times (concat rs) = Ok (concat (skipn times rs), first_answers rs times).
Proof.
  intros Hn. induction times as [|times IH]; intros rs Hf; [reflexivity|]. cbn [fixed_size_nexts]. destruct Hf as [|r rs Hr Hf].
  - cbn [concat fixed_size_next bind fst snd]. pose proof (IH [] ltac:(constructor)) as E. cbn [concat] in E. rewrite E. cbn [bind fst snd].
    rewrite first_answers_nil_cons, !skipn_nil. reflexivity.
  - assert (E : fixed_size_next n (concat (r :: rs)) = Ok (concat rs, Some r)).
    { unfold fixed_size_next. destruct (concat (r :: rs)) as [|x l] eqn:Ec.
      - exfalso. cbn in Ec. destruct r; cbn in *; [congruence|discriminate].
      - rewrite <- Ec. cbn [concat]. rewrite app_length. replace (length r + length (concat rs) <? n) with false by (symmetry; apply Nat.ltb_ge; lia).
        subst n. rewrite skipn_app, skipn_all, Nat.sub_diag, firstn_app, firstn_all, Nat.sub_diag. cbn. rewrite app_nil_r. reflexivity. }
    rewrite E. cbn [bind fst snd]. rewrite (IH rs Hf). cbn [bind fst snd]. rewrite first_answers_cons. reflexivity.
Qed.

Lemma fixed_size_spec p l n : wf_labels l -> labels_names l <> [] -> n = length (labels_names l) ->
  exists values, fixed_size_iterator p n l = Ok values /\ forall times, exists left,
    fixed_size_nexts n times values = Ok (left, first_answers (rows l) times)
    /\ fixed_size_len n left = Ok (length (rows l) - times).
Proof.
  intros Hw Hne ->. destruct (rows_concat l Hw Hne) as (Hv & Hf & Hn). exists (concat (rows l)). split.
  - unfold fixed_size_iterator. rewrite Hv, (concat_mod _ _ Hn Hf), (proj2 (Nat.eqb_neq _ _) Hn). cbn [negb Nat.eqb].
    rewrite !debug_assert_true. cbn [bind]. unfold labels_size, labels_names. rewrite Nat.eqb_refl. reflexivity.
  - intros times. exists (concat (skipn times (rows l))). split; [apply fixed_nexts; assumption|].
    unfold fixed_size_len. change (length (labels_names l)) with (labels_size l). rewrite (proj2 (Nat.eqb_neq _ _) Hn).
    rewrite (length_concat_const (labels_size l)) by (apply Forall_skipn'; assumption). rewrite Nat.div_mul by assumption.
    rewrite skipn_length. reflexivity.
Qed.

(** * Keys and blocks *)

Lemma combine_nil_r {A B} (l : list A) : combine l (@nil B) = [].
Proof. destruct l; reflexivity. Qed.

Lemma tensor_nexts {B} n times : n <> 0 -> forall rs (blocks : list B), Forall (fun r => length r = n) rs -> length blocks = length rs ->
  nexts tensor_next times (mk_zipped (mk_chunks (concat rs) n) blocks)
  = (mk_zipped (mk_chunks (concat (skipn times rs)) n) (skipn times blocks), first_answers (combine rs blocks) times).
Proof.
  intros Hn. induction times as [|times IH]; intros rs blocks Hf Hl; [reflexivity|]. cbn [nexts]. destruct Hf as [|r rs Hr Hf].
  - destruct blocks as [|b blocks]; [|discriminate Hl]. unfold tensor_next, zip_next, iter_next in *. cbn [z_keys z_blocks].
    rewrite chunks_next_nil by assumption. rewrite (IH [] [] ltac:(constructor) eq_refl). cbn [combine]. rewrite first_answers_nil_cons, !skipn_nil. reflexivity.
  - destruct blocks as [|b blocks]; [discriminate Hl|]. unfold tensor_next, zip_next, iter_next in *. cbn [z_keys z_blocks].
    rewrite chunks_next_cons by assumption. rewrite (IH rs blocks Hf ltac:(cbn in Hl; lia)). cbn [combine]. rewrite first_answers_cons. reflexivity.
Qed.

Lemma tensor_len_blocks {B} keys (blocks : list B) :
  tensor_len (mk_zipped keys blocks) = if length blocks =? 0 then Ok 0 else Panic "assertion failed: `(left == right)`".
Proof. unfold tensor_len, zip_size_hint, iter_size_hint, default_size_hint, default_len. cbn. reflexivity. Qed.

Lemma tensor_iterator_spec {B} p t (blocks : list B) : wf_tensor t -> length blocks = length (tm_blocks t) ->
  exists z, tensor_iterator p t blocks = Ok z /\ forall times, snd (nexts tensor_next times z) = first_answers (items_of t blocks) times.
Proof.
  intros ([Hk Hkn] & _ & Hhom & _) Hl. destruct (rows_concat _ Hk Hkn) as (_ & Hf & Hn). unfold tensor_iterator.
  rewrite labels_iterator_ok by assumption. cbn [bind]. eexists. split; [reflexivity|]. intros times.
  rewrite (tensor_nexts _ _ Hn) by (assumption || congruence). reflexivity.
Qed.

Lemma tensor_len_spec {B} p t (blocks : list B) : wf_tensor t -> length blocks = length (tm_blocks t) ->
  exists z, tensor_iterator p t blocks = Ok z /\ forall times,
    (length (tm_blocks t) <= times -> tensor_len (fst (nexts tensor_next times z)) = Ok 0)
    /\ (times < length (tm_blocks t) -> exists message, tensor_len (fst (nexts tensor_next times z)) = Panic message).
Proof.
  intros ([Hk Hkn] & _ & Hhom & _) Hl. destruct (rows_concat _ Hk Hkn) as (_ & Hf & Hn). unfold tensor_iterator.
  rewrite labels_iterator_ok by assumption. cbn [bind]. eexists. split; [reflexivity|]. intros times.
  rewrite (tensor_nexts _ _ Hn) by (assumption || congruence). cbn [fst]. rewrite tensor_len_blocks, skipn_length, Hl. split; intros H.
  - replace (length (tm_blocks t) - times) with 0 by lia. reflexivity.
  - destruct (length (tm_blocks t) - times) eqn:E; [lia|]. eexists. reflexivity.
Qed.

(** * Parallel iteration *)

Lemma all_items_rows {B} n : n <> 0 -> forall rs (blocks : list B) fuel, Forall (fun r => length r = n) rs -> length blocks = length rs ->
  length blocks < fuel -> all_items fuel (mk_zipped (mk_chunks (concat rs) n) blocks) = combine rs blocks.
Proof.
  intros Hn. induction rs as [|r rs IH]; intros blocks fuel Hf Hl Hfuel.
  - destruct blocks; [|discriminate Hl]. destruct fuel; [lia|]. cbn [all_items]. unfold tensor_next, zip_next, iter_next.
    cbn [z_keys z_blocks]. rewrite chunks_next_nil by assumption. reflexivity.
  - destruct blocks as [|b blocks]; [discriminate Hl|]. destruct fuel; [lia|]. inversion Hf as [|? ? Hr Hf']; subst.
    cbn [all_items]. unfold tensor_next, zip_next, iter_next. cbn [z_keys z_blocks]. rewrite chunks_next_cons by reflexivity.
    cbn [combine]. f_equal. apply IH; [assumption|cbn in Hl; lia|cbn in Hfuel; lia].
Qed.

Lemma firstn_concat {A} n k (rs : list (list A)) : Forall (fun r => length r = n) rs -> firstn (k * n) (concat rs) = concat (firstn k rs).
Proof.
  intros Hf. revert k. induction Hf as [|r rs Hr Hf IH]; intros k.
  - rewrite !firstn_nil. reflexivity.
  - destruct k as [|k]; [reflexivity|]. cbn [firstn concat Nat.mul]. rewrite <- IH. rewrite <- Hr at 1.
    rewrite firstn_app_2. reflexivity.
Qed.

Lemma skipn_concat {A} n k (rs : list (list A)) : Forall (fun r => length r = n) rs -> skipn (k * n) (concat rs) = concat (skipn k rs).
Proof.
  intros Hf. revert k. induction Hf as [|r rs Hr Hf IH]; intros k.
  - rewrite !skipn_nil. reflexivity.
  - destruct k as [|k]; [reflexivity|]. cbn [skipn concat Nat.mul]. rewrite <- IH. rewrite skipn_app, Hr.
    rewrite skipn_all2 by lia. cbn [app]. f_equal. lia.
Qed.

Lemma Forall_firstn' {A} (P : A -> Prop) k l : Forall P l -> Forall P (firstn k l).
Proof. intros H. rewrite <- (firstn_skipn k l) in H. apply Forall_app in H. apply H. Qed.

Lemma combine_split {A B} k (l : list A) (m : list B) : combine l m = combine (firstn k l) (firstn k m) ++ combine (skipn k l) (skipn k m).
Proof.
  revert l m. induction k as [|k IH]; intros l m; [reflexivity|]. destruct l as [|a l]; [reflexivity|].
  destruct m as [|b m]; [cbn; rewrite combine_nil_r; reflexivity|]. cbn. f_equal. apply IH.
Qed.

Lemma parts_rows {B} n d : n <> 0 -> forall rs (blocks : list B), Forall (fun r => length r = n) rs -> length blocks = length rs ->
  divides d (length rs) ->
  exists ps, parts d (mk_zipped (mk_chunks (concat rs) n) blocks) = Ok ps /\ concat ps = combine rs blocks.
Proof.
  intros Hn. induction d as [|index d1 IH1 d2 IH2]; intros rs blocks Hf Hl Hd.
  - cbn [parts]. unfold producer_items. cbn [z_keys z_blocks ch_values ch_size]. rewrite chunks_of_rows by assumption. cbn [bind].
    eexists. split; [reflexivity|]. rewrite all_items_rows by (assumption || lia). cbn. apply app_nil_r.
  - destruct Hd as (Hi & Hd1 & Hd2). cbn [parts]. unfold producer_split, split_at. cbn [z_keys z_blocks ch_values ch_size].
    rewrite (length_concat_const n) by assumption.
    replace (index * n <=? length rs * n) with true by (symmetry; apply Nat.leb_le, Nat.mul_le_mono_r, Hi).
    cbn [bind]. rewrite Hl. replace (index <=? length rs) with true by (symmetry; apply Nat.leb_le, Hi). cbn [bind fst snd].
    rewrite firstn_concat, skipn_concat by assumption.
    destruct (IH1 (firstn index rs) (firstn index blocks)) as (p1 & E1 & C1).
    { apply Forall_firstn', Hf. } { rewrite !firstn_length. lia. } { rewrite firstn_length, Nat.min_l by exact Hi. exact Hd1. }
    destruct (IH2 (skipn index rs) (skipn index blocks)) as (p2 & E2 & C2).
    { apply Forall_skipn', Hf. } { rewrite !skipn_length. lia. } { rewrite skipn_length. exact Hd2. }
    rewrite E1. cbn [bind]. rewrite E2. cbn [bind]. eexists. split; [reflexivity|].
    rewrite concat_app, C1, C2. symmetry. apply combine_split.
Qed.

Lemma parallel_ok {B} p t (blocks : list B) : wf_tensor t -> length blocks = length (tm_blocks t) ->
  parallel_iterator p t blocks = Ok (mk_zipped (mk_chunks (concat (rows (tm_keys t))) (labels_size (tm_keys t))) blocks).
Proof.
  intros ([Hk Hkn] & _ & Hhom & _) Hl. destruct (rows_concat _ Hk Hkn) as (_ & Hf & Hn). unfold parallel_iterator.
  rewrite labels_iterator_ok by assumption. cbn [bind].
  pose proof (iter_len_rows _ _ Hn Hf) as E. unfold iter_len in E. rewrite E.
  replace (length (rows (tm_keys t)) =? length blocks) with true by (symmetry; apply Nat.eqb_eq; congruence). reflexivity.
Qed.

Lemma parallel_spec {B} p t (blocks : list B) : wf_tensor t -> length blocks = length (tm_blocks t) ->
  exists z, parallel_iterator p t blocks = Ok z /\ parallel_len z = length (tm_blocks t)
    /\ forall d, divides d (length (tm_blocks t)) -> exists ps, parts d z = Ok ps /\ concat ps = items_of t blocks.
Proof.
  intros Hw Hl. eexists. split; [apply parallel_ok; assumption|]. destruct Hw as ([Hk Hkn] & _ & Hhom & _).
  destruct (rows_concat _ Hk Hkn) as (_ & Hf & Hn). split.
  - unfold parallel_len. cbn [z_keys]. pose proof (iter_len_rows _ _ Hn Hf) as E. unfold iter_len in E. rewrite E. congruence.
  - intros d Hd. apply parts_rows; [assumption|assumption|congruence|]. congruence.
Qed.

(** * Changes through references *)

Lemma use_item_length {B} (change : list Z -> B -> B) blocks item : length (use_item change blocks item) = length blocks.
Proof. unfold use_item. destruct (nth_error _ _); [apply set_nth_length|reflexivity]. Qed.

Lemma use_items_length {B} (change : list Z -> B -> B) items : forall blocks, length (use_items change blocks items) = length blocks.
Proof.
  induction items as [|item items IH]; intros blocks; [reflexivity|]. cbn. unfold use_items in IH. rewrite IH. apply use_item_length.
Qed.

Lemma use_item_nth {B} (change : list Z -> B -> B) blocks item j :
  nth_error (use_item change blocks item) j
  = if snd item =? j then option_map (change (fst item)) (nth_error blocks j) else nth_error blocks j.
Proof.
  unfold use_item. destruct (Nat.eqb_spec (snd item) j) as [<-|Hj].
  - destruct (nth_error blocks (snd item)) as [b|] eqn:E; [|rewrite E; reflexivity]. rewrite nth_error_set_nth, Nat.eqb_refl.
    replace (snd item <? length blocks) with true by (symmetry; apply Nat.ltb_lt, nth_error_Some; congruence). reflexivity.
  - destruct (nth_error blocks (snd item)) as [b|] eqn:E; [|reflexivity]. rewrite nth_error_set_nth.
    destruct (Nat.eqb_spec j (snd item)); [congruence|]. reflexivity.
Qed.

Lemma use_items_other {B} (change : list Z -> B -> B) j items : forall blocks, ~ In j (map snd items) ->
  nth_error (use_items change blocks items) j = nth_error blocks j.
Proof.
  induction items as [|item items IH]; intros blocks Hj; [reflexivity|]. cbn in *. unfold use_items in IH. rewrite IH by tauto.
  rewrite use_item_nth. destruct (Nat.eqb_spec (snd item) j); [tauto|reflexivity].
Qed.

Lemma use_items_one {B} (change : list Z -> B -> B) j key items : forall blocks, NoDup (map snd items) -> In (key, j) items ->
  nth_error (use_items change blocks items) j = option_map (change key) (nth_error blocks j).
Proof.
  induction items as [|item items IH]; intros blocks Hd Hin; [destruct Hin|]. cbn in Hd. inversion Hd as [|? ? Hn Hd']; subst.
  cbn [use_items fold_left]. destruct Hin as [->|Hin].
  - cbn in Hn. change (fold_left (use_item change) items ?x) with (use_items change x items). rewrite use_items_other by exact Hn.
    rewrite use_item_nth. cbn. rewrite Nat.eqb_refl. reflexivity.
  - change (fold_left (use_item change) items ?x) with (use_items change x items). rewrite IH by assumption. rewrite use_item_nth.
    destruct (Nat.eqb_spec (snd item) j) as [E|]; [|reflexivity]. exfalso. apply Hn. rewrite E. apply (in_map snd) in Hin. exact Hin.
Qed.

Lemma combine_seq_snd {A} (l : list A) n : length l = n -> map snd (combine l (seq 0 n)) = seq 0 n.
Proof.
  generalize 0. revert n. induction l as [|a l IH]; intros n i Hl; cbn in Hl; subst n; [reflexivity|]. cbn. f_equal. apply IH. reflexivity.
Qed.

Lemma changes_spec p t d z ps order (change : list Z -> TensorBlock -> TensorBlock) :
  wf_tensor t -> divides d (length (tm_blocks t)) ->
  parallel_iterator p t (seq 0 (length (tm_blocks t))) = Ok z -> parts d z = Ok ps -> Permutation order (concat ps) ->
  use_items change (tm_blocks t) order = changed change t (tm_blocks t).
Proof.
  intros Hw Hd Hz Hp Hperm. destruct (parallel_spec p t (seq 0 (length (tm_blocks t))) Hw (seq_length _ _)) as (z' & Hz' & _ & Hparts).
  rewrite Hz in Hz'. inversion Hz'; subst z'. destruct (Hparts d Hd) as (ps' & Hp' & Hc). rewrite Hp in Hp'. inversion Hp'; subst ps'.
  rewrite Hc in Hperm. clear Hz Hz' Hp Hp' Hparts Hc. destruct Hw as (_ & _ & Hhom & _). unfold items_of in Hperm.
  assert (Hs : map snd (combine (rows (tm_keys t)) (seq 0 (length (tm_blocks t)))) = seq 0 (length (tm_blocks t))) by (apply combine_seq_snd; congruence).
  assert (Hdup : NoDup (map snd order)).
  { apply (Permutation_NoDup (l := seq 0 (length (tm_blocks t)))); [|apply seq_NoDup]. rewrite <- Hs. apply Permutation_map, Permutation_sym, Hperm. }
  apply nth_error_ext. intros j. unfold changed, items_of. rewrite nth_error_map.
  destruct (nth_error (tm_blocks t) j) as [b|] eqn:Eb.
  - destruct (nth_error (rows (tm_keys t)) j) as [key|] eqn:Ek.
    2:{ apply nth_error_None in Ek. assert (j < length (tm_blocks t)) by (apply nth_error_Some; congruence). lia. }
    rewrite (use_items_one change j key) by
      (assumption || (apply (Permutation_in _ (Permutation_sym Hperm)); eapply nth_error_In with (n := j);
        apply nth_error_combine; split; [exact Ek|]; rewrite nth_error_seq; replace (j <? length (tm_blocks t)) with true by (symmetry; apply Nat.ltb_lt, nth_error_Some; congruence); reflexivity)).
    rewrite Eb. rewrite (proj2 (nth_error_combine _ _ _ _ _) (conj Ek Eb)). reflexivity.
  - assert (Hj : length (tm_blocks t) <= j) by (apply nth_error_None; exact Eb).
    rewrite (proj2 (nth_error_None _ _)) by (rewrite use_items_length; exact Hj).
    rewrite (proj2 (nth_error_None _ _)) by (rewrite combine_length; lia). reflexivity.
Qed.

(** * Debug text *)

Lemma blanks_spaces n : blanks n = PyPrint.spaces n.
Proof. induction n; cbn; congruence. Qed.

Lemma debug_entry_words entry : forall widths, length widths = length entry -> words (debug_entry entry widths) = map string_of_Z entry.
Proof.
  induction entry as [|v entry IH]; intros [|w widths] Hl; try discriminate; [reflexivity|]. cbn [debug_entry map]. injection Hl as Hl.
  unfold centered. rewrite !blanks_spaces, !append_assoc, words_spaces. destruct (number_word v) as [Nv Fv].
  set (k := (w - _ + 1) / 2). transitivity (words (string_of_Z v +++ String " " (PyPrint.spaces k +++ " " +++ debug_entry entry widths))).
  - f_equal. f_equal. clear. induction k; [reflexivity|]. cbn in *. congruence.
  - rewrite words_cut by assumption. f_equal. rewrite words_spaces. apply IH, Hl.
Qed.

Lemma debug_entry_line entry : forall widths, free line_end (debug_entry entry widths).
Proof.
  induction entry as [|v entry IH]; intros [|w widths]; cbn [debug_entry]; try apply free_nil. unfold centered. rewrite !free_app, !blanks_spaces.
  repeat split; try (apply free_spaces; discriminate); [|apply free_cons; split; [discriminate|]; apply free_cons; split; [discriminate|apply free_nil]|apply IH].
  apply number_free; [apply string_of_Z_chars|reflexivity].
Qed.

Lemma lines_cut a b : free line_end a -> lines (a +++ end_of_line +++ b) = a :: lines b.
Proof. intros H. apply (pieces_cut line_end a b H). Qed.

Lemma debug_entries_lines widths rest entries :
  lines (debug_entries entries widths +++ rest) = map (fun entry => "    " +++ debug_entry entry widths) entries ++ lines rest.
Proof.
  induction entries as [|entry entries IH]; [reflexivity|]. cbn [debug_entries map app]. rewrite <- IH, !append_assoc.
  rewrite <- (append_assoc "    "). apply lines_cut. apply free_app. split; [|apply debug_entry_line]. apply (free_spaces line_end 4). discriminate.
Qed.

Lemma join_free c sep names : free c sep -> Forall (free c) names -> free c (join sep names).
Proof.
  intros Hs. induction 1 as [|n names Hn Hf IH]; [apply free_nil|]. destruct names as [|m names]; [exact Hn|].
  cbn [join] in *. rewrite !free_app. auto.
Qed.

Lemma debug_ok l : wf_labels l -> labels_names l <> [] ->
  exists text, labels_debug l = Ok text
    /\ lines text = "Labels{" :: ("    " +++ join ", " (labels_names l))
         :: map (fun entry => "    " +++ debug_entry entry (map String.length (labels_names l))) (rows l) ++ ["}"; ""].
Proof.
  intros Hw Hne. unfold labels_debug. rewrite (proj2 (labels_iter_ok l (rows l) Hw) (conj Hne eq_refl)). cbn [bind].
  eexists. split; [reflexivity|]. rewrite lines_cut.
  2:{ repeat (apply free_cons; split; [discriminate|]). apply free_nil. }
  f_equal. rewrite <- (append_assoc "    "), lines_cut.
  - f_equal. apply debug_entries_lines.
  - apply free_app. split; [apply (free_spaces line_end 4); discriminate|]. apply join_free.
    + repeat (apply free_cons; split; [discriminate|]). apply free_nil.
    + apply wf_labels_is_labels in Hw. destruct Hw as ([Hi _] & _). eapply Forall_impl; [|exact Hi]. intros a Ha.
      apply identifier_free; [cbn; lia|exact Ha].
Qed.

Lemma debug_spec l : wf_labels l -> labels_names l <> [] ->
  exists text entries, labels_debug l = Ok text
    /\ lines text = ["Labels{"; "    " +++ join ", " (labels_names l)] ++ entries ++ ["}"; ""]
    /\ map words entries = map (map string_of_Z) (rows l).
Proof.
  intros Hw Hne. destruct (debug_ok l Hw Hne) as (text & E & El). exists text. eexists. split; [exact E|]. split; [exact El|].
  destruct (rows_concat l Hw Hne) as (_ & Hf & _). rewrite map_map. apply map_ext_in. intros r Hr.
  rewrite Forall_forall in Hf. change (words (debug_entry r (map String.length (labels_names l))) = map string_of_Z r).
  apply debug_entry_words. rewrite map_length. symmetry. apply Hf, Hr.
Qed.

Lemma join_inj names names' : Forall identifier names -> Forall identifier names' -> names <> [] -> names' <> [] ->
  join ", " names = join ", " names' -> names = names'.
Proof.
  assert (Hp : forall l, Forall identifier l -> l <> [] -> words (join ", " l) = map (fun n => n +++ ",") (removelast l) ++ [last l ""]).
  { induction l as [|a l IH]; intros Hf Hne; [congruence|]. inversion Hf as [|? ? Ha Hf']; subst.
    assert (Fa : free " " a) by (apply identifier_free; [cbn; lia|exact Ha]).
    assert (Na : a <> "") by (destruct Ha as (x & r & E & _); intros ->; discriminate E).
    destruct l as [|b l]; [apply words_word; assumption|].
    change (join ", " (a :: b :: l)) with (a +++ String "," (String " " (join ", " (b :: l)))).
    replace (a +++ String "," (String " " (join ", " (b :: l)))) with ((a +++ ",") +++ String " " (join ", " (b :: l))).
    2:{ rewrite append_assoc. reflexivity. }
    rewrite words_cut.
    - rewrite (IH Hf') by discriminate. reflexivity.
    - destruct a; discriminate.
    - apply free_app. split; [exact Fa|]. apply free_cons. split; [discriminate|apply free_nil]. }
  assert (Hi : forall l l' : list string, map (fun n => n +++ ",") l = map (fun n => n +++ ",") l' -> l = l').
  { induction l as [|a l IH]; intros [|b l'] E; try discriminate; [reflexivity|]. cbn in E. inversion E as [[E1 E2]]. f_equal; [|apply IH, E2].
    rewrite <- (PyPrintFacts.but_last_app 1 a ",") by reflexivity. rewrite E1. apply PyPrintFacts.but_last_app. reflexivity. }
  intros H1 H2 N1 N2 E. apply (f_equal words) in E. rewrite !Hp in E by assumption.
  apply app_inj_tail in E as [E1 E2]. apply Hi in E1. rewrite (app_removelast_last "" N1), (app_removelast_last "" N2), E1, E2. reflexivity.
Qed.

Lemma map_inj {A B} (f : A -> B) : (forall a b, f a = f b -> a = b) -> forall l l', map f l = map f l' -> l = l'.
Proof. intros Hf. induction l as [|a l IH]; intros [|b l'] E; try discriminate; [reflexivity|]. cbn in E. inversion E. f_equal; auto. Qed.

Lemma debug_determines l l' text : wf_labels l -> wf_labels l' -> labels_debug l = Ok text -> labels_debug l' = Ok text ->
  labels_names l = labels_names l' /\ rows l = rows l'.
Proof.
  intros Hw Hw' E E'.
  assert (Hne : labels_names l <> []).
  { intros H. unfold labels_debug, labels_iter, labels_size in E. unfold labels_names in H. rewrite H in E. discriminate. }
  assert (Hne' : labels_names l' <> []).
  { intros H. unfold labels_debug, labels_iter, labels_size in E'. unfold labels_names in H. rewrite H in E'. discriminate. }
  destruct (debug_spec l Hw Hne) as (t & es & Et & El & Ew). destruct (debug_spec l' Hw' Hne') as (t' & es' & Et' & El' & Ew').
  assert (t = text) by congruence. assert (t' = text) by congruence. subst t t'. rewrite El in El'. cbn [app] in El'.
  assert (E1 : "    " +++ join ", " (labels_names l) = "    " +++ join ", " (labels_names l')) by congruence.
  assert (E2 : es ++ ["}"; ""] = es' ++ ["}"; ""]) by congruence. apply app_inv_tail in E2. subst es'.
  split.
  - apply wf_labels_is_labels in Hw, Hw'. destruct Hw as ([Hi _] & _), Hw' as ([Hi' _] & _).
    apply join_inj; try assumption. cbn in E1. congruence.
  - rewrite Ew in Ew'. revert Ew'. apply map_inj. intros a b. apply map_inj. apply string_of_Z_inj.
Qed.

Lemma column_from names : forall j position,
  fold_left (fun position name => position + String.length name + 2) (firstn j names) position = position + (column names j - 4).
Proof.
  assert (H : forall l position, fold_left (fun position name => position + String.length name + 2) l position
    = position + (fold_left (fun position name => position + String.length name + 2) l 4 - 4)
    /\ 4 <= fold_left (fun position name => position + String.length name + 2) l 4).
  { induction l as [|n l IH]; intros position; cbn [fold_left]; [split; lia|].
    destruct (IH (position + String.length n + 2)) as [E1 _]. destruct (IH (4 + String.length n + 2)) as [E2 E3]. split; lia. }
  intros j position. unfold column. apply H.
Qed.

Lemma column_ge names j : 4 <= column names j.
Proof. pose proof (column_from names j 4) as E. unfold column at 1 in E. fold (column names j) in E. lia. Qed.

Lemma column_cons n names j : column (n :: names) (S j) = String.length n + 2 + column names j.
Proof. unfold column at 1. cbn [firstn fold_left]. rewrite column_from. pose proof (column_ge names j). lia. Qed.

Lemma debug_entry_ends names entry : fitting names entry -> forall pos j name value, nth_error names j = Some name -> nth_error entry j = Some value ->
  nth_error (ends_from pos false (debug_entry entry (map String.length names))) j
  = Some (pos + (column names j - 4) + (String.length name - String.length (string_of_Z value)) / 2 + String.length (string_of_Z value)).
Proof.
  induction 1 as [|n v names entry Hn Hf IH]; intros pos j name value En Ev; [destruct j; discriminate|].
  cbn [map debug_entry]. unfold centered. rewrite blanks_spaces, (blanks_spaces ((_ + 1) / 2)), !append_assoc, ends_spaces. destruct (number_word v) as [Nv Fv].
  rewrite ends_word by assumption.
  set (m := String.length n - String.length (string_of_Z v)). set (rest := debug_entry entry (map String.length names)).
  replace (PyPrint.spaces ((m + 1) / 2) +++ "  " +++ rest) with (PyPrint.spaces (S ((m + 1) / 2 + 1)) +++ rest).
  2:{ generalize ((m + 1) / 2). clear. intros k. induction k; [reflexivity|]. cbn in *. congruence. }
  rewrite ends_blank. destruct j as [|j].
  - cbn in En, Ev. inversion En; inversion Ev; subst. cbn [nth_error]. f_equal. unfold column. cbn. fold m. lia.
  - cbn in En, Ev. cbn [nth_error]. subst rest. rewrite (IH _ j name value En Ev). f_equal. rewrite column_cons. pose proof (column_ge names j).
    assert (Em : m / 2 + (m + 1) / 2 = m).
    { clear. rewrite (Nat.add_comm m 1). pose proof (Nat.div_mod m 2 ltac:(lia)). pose proof (Nat.div_mod (1 + m) 2 ltac:(lia)).
      pose proof (Nat.mod_upper_bound m 2 ltac:(lia)). pose proof (Nat.mod_upper_bound (1 + m) 2 ltac:(lia)). lia. }
    subst m. lia.
Qed.

Lemma debug_columns l : wf_labels l -> labels_names l <> [] ->
  exists text entries, labels_debug l = Ok text
    /\ lines text = ["Labels{"; "    " +++ join ", " (labels_names l)] ++ entries ++ ["}"; ""]
    /\ length entries = length (rows l)
    /\ forall i line entry, nth_error entries i = Some line -> nth_error (rows l) i = Some entry -> fitting (labels_names l) entry ->
         forall j, j < length (labels_names l) -> in_column (labels_names l) entry line j.
Proof.
  intros Hw Hne. destruct (debug_ok l Hw Hne) as (text & E & El). exists text. eexists. split; [exact E|]. split; [exact El|].
  split; [apply map_length|]. intros i line entry Hl He Hf j Hj. rewrite nth_error_map, He in Hl. cbn in Hl. inversion Hl as [El']. clear Hl El'.
  destruct (nth_error (labels_names l) j) as [name|] eqn:En; [|apply nth_error_None in En; lia].
  assert (Hlen : length (labels_names l) = length entry) by (clear -Hf; induction Hf; cbn; congruence).
  destruct (nth_error entry j) as [value|] eqn:Ev; [|apply nth_error_None in Ev; lia].
  exists name, value. eexists. exists ((String.length name - String.length (string_of_Z value)) / 2).
  split; [exact En|]. split; [exact Ev|]. split.
  { unfold word_ends. apply (debug_entry_ends _ _ Hf 4 j name value En Ev). }
  pose proof (column_ge (labels_names l) j).
  assert (Hs : String.length (string_of_Z value) <= String.length name).
  { clear -Hf En Ev. revert j En Ev. induction Hf as [|a b x y Hab Hf IH]; intros [|j] En Ev; try discriminate.
    - cbn in *. congruence. - apply (IH j); assumption. }
  split; [lia|]. set (m := String.length name - String.length (string_of_Z value)) in *.
  pose proof (Nat.div_mod m 2 ltac:(lia)). pose proof (Nat.mod_upper_bound m 2 ltac:(lia)). lia.
Qed.

(* the names start at their columns *)
Lemma substring_skip a b n : substring (String.length a) n (a +++ b) = substring 0 n b.
Proof. induction a; [reflexivity|assumption]. Qed.

Lemma names_columns names j name : nth_error names j = Some name ->
  substring (column names j) (String.length name) ("    " +++ join ", " names) = name.
Proof.
  assert (H : forall names j name prefix, nth_error names j = Some name ->
    exists before after, prefix +++ join ", " names = before +++ name +++ after /\ String.length before = String.length prefix + (column names j - 4)).
  { clear. induction names as [|n names IH]; intros [|j] name prefix E; try discriminate.
    - cbn in E. inversion E; subst. exists prefix. destruct names as [|m names].
      + exists "". rewrite append_nil_r. split; [reflexivity|]. unfold column. cbn. lia.
      + exists (", " +++ join ", " (m :: names)). split; [reflexivity|]. unfold column. cbn. lia.
    - cbn in E. destruct names as [|m names]; [destruct j; discriminate|].
      destruct (IH j name (prefix +++ n +++ ", ") E) as (before & after & E1 & E2). exists before, after. rewrite <- E1, !append_assoc.
      split; [reflexivity|]. rewrite E2, column_cons, !append_length. pose proof (column_ge (m :: names) j). cbn [String.length]. lia. }
  intros E. destruct (H _ _ _ "    " E) as (before & after & -> & El). pose proof (column_ge names j). cbn [String.length] in El.
  replace (column names j) with (String.length before) by lia. rewrite substring_skip. apply substring_app.
Qed.

Lemma debug_no_names l : labels_names l = [] -> exists message, labels_debug l = Panic message.
Proof. intros H. unfold labels_debug, labels_iter, labels_size. unfold labels_names in H. rewrite H. eexists. reflexivity. Qed.

(** * As stated in the properties *)

Lemma labels_items p l : wf_labels l -> labels_names l <> [] ->
  exists c, labels_iterator p l = Ok c /\ forall times, snd (nexts iter_next times c) = first_answers (rows l) times.
Proof. intros Hw Hne. destruct (labels_iterator_spec p l Hw Hne) as (c & E & H). exists c. split; [exact E|]. intros times. apply H. Qed.

Lemma labels_lengths p l : wf_labels l -> labels_names l <> [] ->
  exists c, labels_iterator p l = Ok c /\ forall times, iter_len (fst (nexts iter_next times c)) = length (rows l) - times.
Proof. intros Hw Hne. destruct (labels_iterator_spec p l Hw Hne) as (c & E & H). exists c. split; [exact E|]. intros times. apply H. Qed.

Lemma fixed_size_items p l n : wf_labels l -> labels_names l <> [] -> n = length (labels_names l) ->
  exists values, fixed_size_iterator p n l = Ok values
    /\ forall times, exists left, fixed_size_nexts n times values = Ok (left, first_answers (rows l) times).
Proof.
  intros Hw Hne Hn. destruct (fixed_size_spec p l n Hw Hne Hn) as (values & E & H). exists values. split; [exact E|].
  intros times. destruct (H times) as (left & E1 & _). exists left. exact E1.
Qed.

Lemma fixed_size_lengths p l n : wf_labels l -> labels_names l <> [] -> n = length (labels_names l) ->
  exists values, fixed_size_iterator p n l = Ok values
    /\ forall times left items, fixed_size_nexts n times values = Ok (left, items) -> fixed_size_len n left = Ok (length (rows l) - times).
Proof.
  intros Hw Hne Hn. destruct (fixed_size_spec p l n Hw Hne Hn) as (values & E & H). exists values. split; [exact E|].
  intros times left items El. destruct (H times) as (left' & E1 & E2). replace left with left' by congruence. exact E2.
Qed.

Lemma fixed_size_only p l n : wf_labels l -> n <> length (labels_names l) -> exists message, fixed_size_iterator p n l = Panic message.
Proof.
  intros Hw Hn. unfold fixed_size_iterator, labels_size. change (l_names l) with (labels_names l). rewrite (proj2 (Nat.eqb_neq _ _) Hn).
  destruct p; cbn [debug_assert bind]; [|eexists; reflexivity].
  destruct (negb _); cbn [debug_assert bind]; [|eexists; reflexivity]. destruct (_ =? 0); eexists; reflexivity.
Qed.

Lemma parallel_length {B} p t (blocks : list B) : wf_tensor t -> length blocks = length (tm_blocks t) ->
  exists z, parallel_iterator p t blocks = Ok z /\ parallel_len z = length (tm_blocks t).
Proof. intros Hw Hl. destruct (parallel_spec p t blocks Hw Hl) as (z & E & H & _). exists z. auto. Qed.

Lemma parallel_items {B} p t (blocks : list B) d : wf_tensor t -> length blocks = length (tm_blocks t) -> divides d (length (tm_blocks t)) ->
  exists z ps, parallel_iterator p t blocks = Ok z /\ parts d z = Ok ps /\ concat ps = items_of t blocks.
Proof.
  intros Hw Hl Hd. destruct (parallel_spec p t blocks Hw Hl) as (z & E & _ & H). destruct (H d Hd) as (ps & E1 & E2). exists z, ps. auto.
Qed.
