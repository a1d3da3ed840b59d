(* Proofs about SaveCalls.v *)
From Coq Require Import Permutation.
From Verif Require Import Base BaseFacts Labels Array Block Tensor Npy Io Spec SpecTensor SpecIo NpyFacts PathFacts IoFacts Saving SavingFacts
  Callbacks CallbacksStore SaveCalls SpecSaveCalls.
Local Open Scope string_scope.
Local Open Scope list_scope.
Local Open Scope nat_scope.

(** * Programs *)

Lemma reads_give_inv {A} (a r : A) tr : reads (Give a) tr r -> tr = [] /\ r = a.
Proof. intros H. inversion H. split; reflexivity. Qed.

Lemma reads_query_inv {A} c (k : given -> reading A) tr r : reads (Query c k) tr r -> exists g tr', tr = (c, g) :: tr' /\ reads (k g) tr' r.
Proof. intros H. inversion H; subst. eexists _, _. split; [reflexivity|assumption]. Qed.

Lemma reads_bind {A B} (m : reading A) (k : A -> reading B) tr r :
  reads (bindr m k) tr r <-> exists tr1 a tr2, tr = tr1 ++ tr2 /\ reads m tr1 a /\ reads (k a) tr2 r.
Proof.
  revert tr. induction m as [a|c m IH]; intros tr; cbn [bindr].
  - split; [intros H; exists [], a, tr; split; [reflexivity|split; [constructor|exact H]]|].
    intros (tr1 & a' & tr2 & -> & H1 & H2). apply reads_give_inv in H1 as [-> ->]. exact H2.
  - split.
    + intros H. apply reads_query_inv in H as (g & tr' & -> & H). apply IH in H as (tr1 & a & tr2 & -> & H1 & H2).
      exists ((c, g) :: tr1), a, tr2. split; [reflexivity|]. split; [constructor; exact H1|exact H2].
    + intros (tr1 & a & tr2 & -> & H1 & H2). apply reads_query_inv in H1 as (g & tr' & -> & H1). cbn [app]. constructor. apply IH.
      exists tr', a, tr2. split; [reflexivity|]. split; assumption.
Qed.

Definition finished (r : progress) : Prop := snd r = Ok tt.

Lemma reads_then f n tr r : reads (r_then f n) tr r <->
  exists tr1 r1, reads f tr1 r1 /\
    ((finished r1 /\ exists tr2 r2, reads n tr2 r2 /\ tr = tr1 ++ tr2 /\ r = (fst r1 ++ fst r2, snd r2))
     \/ (~ finished r1 /\ tr = tr1 /\ r = r1)).
Proof.
  unfold r_then, finished. rewrite reads_bind. split.
  - intros (tr1 & r1 & tr2 & -> & H1 & H2). exists tr1, r1. split; [exact H1|]. destruct (snd r1) as [[]|?|?|?] eqn:E.
    + left. split; [reflexivity|]. apply reads_bind in H2 as (tr3 & r3 & tr4 & -> & H2 & H3). apply reads_give_inv in H3 as [-> ->].
      exists tr3, r3. split; [exact H2|]. rewrite app_nil_r. split; reflexivity.
    + right. apply reads_give_inv in H2 as [-> ->]. split; [discriminate|]. rewrite app_nil_r. split; reflexivity.
    + right. apply reads_give_inv in H2 as [-> ->]. split; [discriminate|]. rewrite app_nil_r. split; reflexivity.
    + right. apply reads_give_inv in H2 as [-> ->]. split; [discriminate|]. rewrite app_nil_r. split; reflexivity.
  - intros (tr1 & r1 & H1 & [(E & tr2 & r2 & H2 & -> & ->)|(E & -> & ->)]).
    + exists tr1, r1, tr2. split; [reflexivity|]. split; [exact H1|]. rewrite E. apply reads_bind. exists tr2, r2, [].
      split; [rewrite app_nil_r; reflexivity|]. split; [exact H2|constructor].
    + exists tr1, r1, []. split; [rewrite app_nil_r; reflexivity|]. split; [exact H1|].
      destruct (snd r1) as [[]|?|?|?]; [contradiction E; reflexivity|constructor|constructor|constructor].
Qed.

(* the same calls and the same result *)
Definition alike {A} (m m' : reading A) : Prop := forall tr r, reads m tr r <-> reads m' tr r.

Lemma alike_refl {A} (m : reading A) : alike m m.
Proof. intros tr r. tauto. Qed.

Lemma alike_trans {A} (m1 m2 m3 : reading A) : alike m1 m2 -> alike m2 m3 -> alike m1 m3.
Proof. intros H1 H2 tr r. rewrite (H1 tr r). apply H2. Qed.

Lemma alike_sym {A} (m1 m2 : reading A) : alike m1 m2 -> alike m2 m1.
Proof. intros H tr r. symmetry. apply H. Qed.

Lemma alike_then f f' n n' : alike f f' -> alike n n' -> alike (r_then f n) (r_then f' n').
Proof.
  intros Hf Hn tr r. rewrite !reads_then. split.
  - intros (tr1 & r1 & H1 & [(E & tr2 & r2 & H2 & H3)|H]); exists tr1, r1; (split; [apply Hf; exact H1|]); [left|right; exact H].
    split; [exact E|]. exists tr2, r2. split; [apply Hn; exact H2|exact H3].
  - intros (tr1 & r1 & H1 & [(E & tr2 & r2 & H2 & H3)|H]); exists tr1, r1; (split; [apply Hf; exact H1|]); [left|right; exact H].
    split; [exact E|]. exists tr2, r2. split; [apply Hn; exact H2|exact H3].
Qed.

Lemma alike_start m : alike (r_then (Give ([], Ok tt)) m) m.
Proof.
  intros tr r. rewrite reads_then. split.
  - intros (tr1 & r1 & H1 & H). apply reads_give_inv in H1 as [-> ->]. destruct H as [(_ & tr2 & r2 & H2 & -> & ->)|(E & _)]; [|contradiction E; reflexivity].
    cbn [app fst]. destruct r2; exact H2.
  - intros H. exists [], ([], Ok tt). split; [constructor|]. left. split; [reflexivity|]. exists tr, r. split; [exact H|]. split; [reflexivity|].
    destruct r; reflexivity.
Qed.

Lemma alike_assoc a b c : alike (r_then (r_then a b) c) (r_then a (r_then b c)).
Proof.
  intros tr r. rewrite !reads_then. split.
  - intros (tr1 & r1 & H1 & H). apply reads_then in H1 as (tr2 & r2 & H2 & [(E & tr3 & r3 & H3 & -> & ->)|(E & -> & ->)]).
    + exists tr2, r2. split; [exact H2|]. left. split; [exact E|]. destruct H as [(E' & tr4 & r4 & H4 & -> & ->)|(E' & -> & ->)].
      * exists (tr3 ++ tr4), (fst r3 ++ fst r4, snd r4). split; [apply reads_then; exists tr3, r3; split; [exact H3|left; split; [exact E'|eauto]]|].
        cbn [fst snd]. rewrite !app_assoc. split; reflexivity.
      * exists tr3, r3. split; [apply reads_then; exists tr3, r3; split; [exact H3|right; split; [exact E'|split; reflexivity]]|]. split; reflexivity.
    + exists tr2, r2. split; [exact H2|]. destruct H as [(E' & _)|(_ & -> & ->)]; [contradiction|]. right. split; [exact E|split; reflexivity].
  - intros (tr1 & r1 & H1 & [(E & tr2 & r2 & H2 & -> & ->)|(E & -> & ->)]).
    + apply reads_then in H2 as (tr3 & r3 & H3 & [(E' & tr4 & r4 & H4 & -> & ->)|(E' & -> & ->)]).
      * exists (tr1 ++ tr3), (fst r1 ++ fst r3, snd r3). split; [apply reads_then; exists tr1, r1; split; [exact H1|left; split; [exact E|eauto]]|].
        left. split; [exact E'|]. exists tr4, r4. split; [exact H4|]. cbn [fst snd]. rewrite !app_assoc. split; reflexivity.
      * exists (tr1 ++ tr3), (fst r1 ++ fst r3, snd r3). split; [apply reads_then; exists tr1, r1; split; [exact H1|left; split; [exact E|eauto]]|].
        right. split; [exact E'|split; reflexivity].
    + exists tr1, r1. split; [apply reads_then; exists tr1, r1; split; [exact H1|right; split; [exact E|split; reflexivity]]|].
      right. split; [exact E|split; reflexivity].
Qed.

(** * Files one after the other *)

Definition r_put_part (p : profile) (e : endianness) (pc : part * content) : reading progress :=
  match snd pc with
  | FileLabels l => r_put_labels e (path_of (fst pc)) l
  | FileData a => r_put_data p e (path_of (fst pc)) (pointer_of a)
  end.

Fixpoint r_put_parts (p : profile) (e : endianness) (l : list (part * content)) : reading progress :=
  match l with
  | [] => Give ([], Ok tt)
  | pc :: l => r_then (r_put_part p e pc) (r_put_parts p e l)
  end.

Lemma r_put_parts_app p e l r : alike (r_put_parts p e (l ++ r)) (r_then (r_put_parts p e l) (r_put_parts p e r)).
Proof.
  induction l as [|pc l IH]; cbn [app r_put_parts]; [apply alike_sym, alike_start|].
  eapply alike_trans; [apply alike_then; [apply alike_refl|exact IH]|]. apply alike_sym, alike_assoc.
Qed.

Lemma r_put_components_parts p e directory name components : (forall j, path_of (name j) = component_path directory j) -> forall i,
  alike (r_put_components e directory i components) (r_put_parts p e (components_parts name i components)).
Proof.
  intros Hn. induction components as [|c rest IH]; intros i; [apply alike_refl|]. cbn [r_put_components components_parts r_put_parts].
  apply alike_then; [|apply IH]. unfold r_put_part. cbn [fst snd]. rewrite Hn. apply alike_refl.
Qed.

Lemma r_put_gradients_parts p e i gradients : alike (r_put_gradients p e i gradients) (r_put_parts p e (gradients_parts i gradients)).
Proof.
  induction gradients as [|[q g] rest IH]; [apply alike_refl|]. cbn [r_put_gradients gradients_parts]. unfold gradient_parts.
  cbn [app r_put_parts]. apply alike_then; [apply alike_refl|]. apply alike_then; [apply alike_refl|].
  eapply alike_trans; [|apply alike_sym, r_put_parts_app]. apply alike_then; [|exact IH].
  apply (r_put_components_parts p e _ (fun j => GradientPart i q (GradientComponent j))). reflexivity.
Qed.

Lemma r_put_blocks_parts p e blocks : forall i, alike (r_put_blocks p e i blocks) (r_put_parts p e (blocks_parts i blocks)).
Proof.
  induction blocks as [|b rest IH]; intros i; [apply alike_refl|]. cbn [r_put_blocks blocks_parts]. unfold block_parts, values_parts.
  cbn [app r_put_parts]. apply alike_then; [apply alike_refl|]. apply alike_then; [apply alike_refl|].
  rewrite <- !app_assoc. eapply alike_trans; [|apply alike_sym, r_put_parts_app]. apply alike_then.
  { apply (r_put_components_parts p e _ (fun j => ValuesPart i (ValuesComponent j))). reflexivity. }
  cbn [app r_put_parts]. apply alike_then; [apply alike_refl|]. eapply alike_trans; [|apply alike_sym, r_put_parts_app].
  apply alike_then; [apply r_put_gradients_parts|apply IH].
Qed.

Lemma r_save_parts p e t : alike (r_save p e t) (r_put_parts p e (parts_of t)).
Proof.
  unfold r_save, parts_of. cbn [r_put_parts]. apply alike_then; [apply alike_refl|]. apply r_put_blocks_parts.
Qed.

(* the arrays of the files *)
Definition part_arrays (pc : part * content) : list nat :=
  match snd pc with FileLabels _ => [] | FileData a => [pointer_of a] end.

Lemma components_arrays name i components : flat_map part_arrays (components_parts name i components) = [].
Proof. revert i. induction components as [|c rest IH]; intros i; [reflexivity|]. apply IH. Qed.

Lemma gradients_arrays i gradients : flat_map part_arrays (gradients_parts i gradients) = map (fun pg => data_of (snd pg)) gradients.
Proof.
  induction gradients as [|[q g] rest IH]; [reflexivity|]. cbn [gradients_parts]. unfold gradient_parts.
  rewrite flat_map_app. cbn [flat_map part_arrays snd app map]. rewrite components_arrays, IH. reflexivity.
Qed.

Lemma blocks_parts_arrays blocks : forall i, flat_map part_arrays (blocks_parts i blocks) = blocks_arrays blocks.
Proof.
  induction blocks as [|b rest IH]; intros i; [reflexivity|]. cbn [blocks_parts]. unfold block_parts, values_parts.
  rewrite flat_map_app, IH. unfold blocks_arrays. cbn [flat_map]. f_equal. rewrite flat_map_app. cbn [flat_map part_arrays snd app].
  rewrite flat_map_app, components_arrays, gradients_arrays. reflexivity.
Qed.

Lemma parts_arrays t : flat_map part_arrays (parts_of t) = tensor_arrays t.
Proof. unfold parts_of, tensor_arrays. cbn [flat_map part_arrays snd app]. apply blocks_parts_arrays. Qed.

(** * One file *)

Definition head_of (e : endianness) (shape : list nat) : outcome bytes :=
  let? descriptor := expect_some "invalid dtype" (parse_literal (bytes_of match e with LittleEndian => "'<f8'" | BigEndian => "'>f8'" end)) in
  header_to_bytes (mk_header descriptor false (map Z.of_nat shape)).

Lemma worked g : call_failed g \/ (gv_null g = false /\ gv_status g = 0%Z).
Proof.
  unfold call_failed. destruct (gv_null g); [left; left; reflexivity|]. destruct (Z.eq_dec (gv_status g) 0) as [H|H]; [right; split; [reflexivity|exact H]|left; right; exact H].
Qed.

Definition fine (g : given) : Prop := gv_null g = false /\ gv_status g = 0%Z.

Lemma fine_not g : fine g -> ~ call_failed g.
Proof. intros [H1 H2] [H|H]; congruence. Qed.

Definition failure {A} (op : array_op) (g : given) : outcome A :=
  if gv_null g then Panic ("eqs_array_t." +++ op_name op +++ " function is NULL") else callback_error op (gv_status g).

Lemma reads_query_op {A} c op (value : given -> outcome A) tr r : reads (query c op value) tr r ->
  exists g, tr = [(c, g)] /\ ((fine g /\ r = value g) \/ (call_failed g /\ r = failure op g)).
Proof.
  intros H. apply reads_query_inv in H as (g & tr' & -> & H). apply reads_give_inv in H as [-> ->]. exists g. split; [reflexivity|].
  destruct (worked g) as [Hf|[H1 H2]].
  - right. split; [exact Hf|]. unfold failure. destruct (gv_null g) eqn:E; [reflexivity|]. destruct Hf as [Hf|Hf]; [congruence|].
    destruct (Z.eqb_spec (gv_status g) 0); [contradiction|reflexivity].
  - left. split; [split; assumption|]. rewrite H1, H2. reflexivity.
Qed.

Definition memory_read (size : Z) (g : given) : outcome (list Z) :=
  match gv_memory g with
  | Some memory =>
      if (size <=? Z.of_nat (length memory))%Z then Ok (firstn (Z.to_nat size) memory)
      else Undefined "reading after the end of the array"
  | None => Undefined "the pointer is NULL"
  end.

Definition is_ok {A} (r : outcome A) : Prop := exists a, r = Ok a.

Lemma reads_r_data p a tr r : reads (r_data p a) tr r ->
  (exists g, tr = [(RShape a, g)] /\ call_failed g /\ r = failure OpShape g)
  \/ (exists g, tr = [(RShape a, g)] /\ fine g /\ ~ is_ok (shape_size p (map Z.of_nat (gv_shape g))) /\ ~ is_ok r)
  \/ (exists g g' size, tr = [(RShape a, g); (RData a, g')] /\ fine g /\ shape_size p (map Z.of_nat (gv_shape g)) = Ok size
       /\ ((fine g' /\ r = memory_read size g') \/ (call_failed g' /\ r = failure OpData g'))).
Proof.
  unfold r_data. rewrite reads_bind. intros (tr1 & x & tr2 & -> & H1 & H2). apply reads_query_op in H1 as (g & -> & [(Hg & ->)|(Hg & ->)]).
  - cbn [bind] in H2. destruct (shape_size p (map Z.of_nat (gv_shape g))) as [size|err|message|reason] eqn:E.
    + right. right. apply reads_query_op in H2 as (g' & -> & H). exists g, g', size. split; [reflexivity|]. split; [exact Hg|].
      split; [exact E|exact H].
    + right. left. apply reads_give_inv in H2 as [-> ->]. exists g. split; [reflexivity|]. split; [exact Hg|]. split; rewrite ?E; intros [? ?]; discriminate.
    + right. left. apply reads_give_inv in H2 as [-> ->]. exists g. split; [reflexivity|]. split; [exact Hg|]. split; rewrite ?E; intros [? ?]; discriminate.
    + right. left. apply reads_give_inv in H2 as [-> ->]. exists g. split; [reflexivity|]. split; [exact Hg|]. split; rewrite ?E; intros [? ?]; discriminate.
  - left. exists g. unfold failure in *. destruct (gv_null g); cbn [bind callback_error] in H2; apply reads_give_inv in H2 as [-> ->];
      (split; [reflexivity|split; [exact Hg|reflexivity]]).
Qed.

(* how writing a data file ends *)
Inductive wrote (p : profile) (e : endianness) (path : string) (a : nat) : answers -> progress -> Prop :=
| wrote_no_shape g r : call_failed g -> r = failure OpShape g -> wrote p e path a [(RShape a, g)] ([(path, [])], r)
| wrote_no_header g r : fine g -> ~ is_ok (head_of e (gv_shape g)) -> r = (let? _ := head_of e (gv_shape g) in Ok tt) -> ~ is_ok r -> wrote p e path a [(RShape a, g)] ([(path, [])], r)
| wrote_no_shape_again g g' head r : fine g -> head_of e (gv_shape g) = Ok head -> call_failed g' -> r = failure OpShape g' ->
    wrote p e path a [(RShape a, g); (RShape a, g')] ([(path, head)], r)
| wrote_no_size g g' head r : fine g -> head_of e (gv_shape g) = Ok head -> fine g' ->
    ~ is_ok (shape_size p (map Z.of_nat (gv_shape g'))) -> ~ is_ok r ->
    wrote p e path a [(RShape a, g); (RShape a, g')] ([(path, head)], r)
| wrote_no_data g g' g'' head size r : fine g -> head_of e (gv_shape g) = Ok head -> fine g' ->
    shape_size p (map Z.of_nat (gv_shape g')) = Ok size -> call_failed g'' -> r = failure OpData g'' ->
    wrote p e path a [(RShape a, g); (RShape a, g'); (RData a, g'')] ([(path, head)], r)
| wrote_no_memory g g' g'' head size reason : fine g -> head_of e (gv_shape g) = Ok head -> fine g' ->
    shape_size p (map Z.of_nat (gv_shape g')) = Ok size -> fine g'' -> memory_read size g'' = Undefined reason ->
    wrote p e path a [(RShape a, g); (RShape a, g'); (RData a, g'')] ([(path, head)], Undefined reason)
| wrote_file g g' g'' head size data : fine g -> head_of e (gv_shape g) = Ok head -> fine g' ->
    shape_size p (map Z.of_nat (gv_shape g')) = Ok size -> fine g'' -> memory_read size g'' = Ok data ->
    wrote p e path a [(RShape a, g); (RShape a, g'); (RData a, g'')] ([(path, head ++ flat_map (encode e 8) data)], Ok tt).

Lemma head_of_eq e (r : outcome (list nat)) :
  (let? descriptor := expect_some "invalid dtype" (parse_literal (bytes_of match e with LittleEndian => "'<f8'" | BigEndian => "'>f8'" end)) in
   let? shape := r in header_to_bytes (mk_header descriptor false (map Z.of_nat shape)))
  = (let? shape := r in head_of e shape).
Proof.
  unfold head_of. destruct r; cbn [bind]; [reflexivity| | |]; destruct e; vm_compute; reflexivity.
Qed.

Lemma failure_bind {A B} op g (k : A -> outcome B) : (let? x := failure op g in k x) = failure op g.
Proof. unfold failure. destruct (gv_null g); reflexivity. Qed.

Lemma failure_not_ok {A} op g : ~ is_ok (@failure A op g).
Proof. unfold failure, callback_error. intros [x H]. destruct (gv_null g); discriminate. Qed.

Lemma put_failure path op g left : put_file path (failure op g) left = ([(path, left)], failure op g).
Proof. unfold put_file, failure, callback_error. destruct (gv_null g); reflexivity. Qed.

Lemma memory_read_cases size g : (exists data, memory_read size g = Ok data) \/ (exists reason, memory_read size g = Undefined reason).
Proof. unfold memory_read. destruct (gv_memory g); [destruct (_ <=? _)%Z|]; eauto. Qed.

Lemma reads_put_data p e path a tr r : reads (r_put_data p e path a) tr r -> wrote p e path a tr r.
Proof.
  unfold r_put_data. rewrite reads_bind. intros (tr1 & [content left] & tr2 & -> & H1 & H2). apply reads_give_inv in H2 as [-> ->]. rewrite app_nil_r.
  unfold r_write_data in H1. apply reads_bind in H1 as (tr3 & shape & tr4 & -> & H1 & H2). cbv zeta in H2. rewrite head_of_eq in H2.
  cbn [fst snd]. apply reads_query_op in H1 as (g & -> & [(Hg & ->)|(Hg & ->)]).
  2:{ rewrite failure_bind in H2. cbn [app]. pose proof (@failure_not_ok bytes OpShape g) as Hn.
      assert (E : tr4 = [] /\ (content, left) = (failure OpShape g, [])).
      { destruct (failure OpShape g) as [?|?|?|?]; [contradiction Hn; eexists; reflexivity| | |]; apply reads_give_inv in H2; exact H2. }
      destruct E as [-> E]. inversion E; subst content left. rewrite put_failure. constructor; [exact Hg|reflexivity]. }
  cbn [bind] in H2. destruct (head_of e (gv_shape g)) as [head|?|?|?] eqn:Eh.
  2-4: apply reads_give_inv in H2 as [-> E]; inversion E; subst content left; cbn [app put_file bind];
       apply wrote_no_header; [exact Hg|rewrite Eh; intros [? ?]; discriminate|rewrite Eh; reflexivity|intros [? ?]; discriminate].
  apply reads_bind in H2 as (tr5 & data & tr6 & -> & H2 & H3). apply reads_give_inv in H3 as [-> E]. inversion E; subst content left. clear E.
  rewrite app_nil_r. apply reads_r_data in H2 as [(g' & -> & Hf & ->)|[(g' & -> & Hf & Hs & Hr)|(g' & g'' & size & -> & Hf & Hs & H)]]; cbn [app].
  - rewrite failure_bind, put_failure. apply wrote_no_shape_again; auto.
  - destruct data as [x|?|?|?]; [contradiction Hr; eexists; reflexivity| | |]; cbn [bind put_file];
      (eapply wrote_no_size; [exact Hg|exact Eh|exact Hf|exact Hs|intros [? ?]; discriminate]).
  - destruct H as [(Hg'' & ->)|(Hg'' & ->)].
    + destruct (memory_read_cases size g'') as [[data Hd]|[reason Hd]]; rewrite Hd; cbn [bind put_file].
      * eapply wrote_file; eassumption.
      * eapply wrote_no_memory; eassumption.
    + rewrite failure_bind, put_failure. eapply wrote_no_data; try eassumption. reflexivity.
Qed.

(** * All the files *)


Lemma asked_in_order p e l : forall tr r, reads (r_put_parts p e l) tr r ->
  exists rest, flat_map calls_for (flat_map part_arrays l) = map fst tr ++ rest /\ (finished r -> rest = []).
Proof.
  induction l as [|[path c] l IH]; intros tr r H.
  - apply reads_give_inv in H as [-> ->]. exists []. split; reflexivity.
  - cbn [r_put_parts] in H. apply reads_then in H as (tr1 & r1 & H1 & H2). cbn [flat_map]. rewrite flat_map_app.
    assert (G : exists rest, flat_map calls_for (part_arrays (path, c)) = map fst tr1 ++ rest /\ (finished r1 -> rest = [])).
    { unfold r_put_part, part_arrays in *. cbn [fst snd] in *. destruct c as [labels|a].
      - apply reads_give_inv in H1 as [-> ->]. exists []. split; reflexivity.
      - apply reads_put_data in H1. unfold finished. inversion H1; subst; cbn [map fst snd flat_map calls_for app].
        + eexists. split; [reflexivity|]. intros E. exfalso. eapply (@failure_not_ok unit). eexists. exact E.
        + eexists. split; [reflexivity|]. intros E. exfalso. cbn [snd] in E. match goal with K : ~ is_ok ?x, E : ?x = Ok tt |- _ => apply K; exists tt; exact E end.
        + eexists. split; [reflexivity|]. intros E. exfalso. eapply (@failure_not_ok unit). eexists. exact E.
        + eexists. split; [reflexivity|]. intros E. exfalso. cbn [snd] in E. match goal with K : ~ is_ok ?x, E : ?x = Ok tt |- _ => apply K; exists tt; exact E end.
        + exists []. split; [reflexivity|]. reflexivity.
        + exists []. split; [reflexivity|]. reflexivity.
        + exists []. split; [reflexivity|]. reflexivity. }
    destruct G as (rest & E & Hr). rewrite E. destruct H2 as [(Hf & tr2 & r2 & H2 & -> & ->)|(Hf & -> & ->)].
    + rewrite (Hr Hf), app_nil_r. destruct (IH tr2 r2 H2) as (rest' & -> & Hr'). exists rest'. rewrite map_app, <- app_assoc.
      split; [reflexivity|]. exact Hr'.
    + exists (rest ++ flat_map calls_for (flat_map part_arrays l)). rewrite <- app_assoc. split; [reflexivity|]. intros K. contradiction.
Qed.

Lemma app_cons_split {A} (l1 l2 before after : list A) x : l1 ++ l2 = before ++ x :: after ->
  (exists after', l1 = before ++ x :: after' /\ after = after' ++ l2) \/ (exists before', before = l1 ++ before' /\ l2 = before' ++ x :: after).
Proof.
  revert before. induction l1 as [|y l1 IH]; intros before H.
  - right. exists before. split; [reflexivity|exact H].
  - destruct before as [|z before]; cbn [app] in H; inversion H; subst.
    + left. exists l1. split; reflexivity.
    + destruct (IH before H2) as [(after' & -> & ->)|(before' & -> & ->)]; [left|right]; eexists; split; reflexivity.
Qed.

Lemma reported_failure c op g : op_name op = match c with RShape _ => "shape" | RData _ => "data" end -> reported c g (failure op g).
Proof. intros E. unfold reported, failure, callback_error. rewrite E. destruct (gv_null g); reflexivity. Qed.

Lemma wrote_reported p e path a tr r : wrote p e path a tr r ->
  forall before c g after, tr = before ++ (c, g) :: after -> call_failed g -> after = [] /\ reported c g (snd r).
Proof.
  intros H before c g after E Hf. revert E.
  destruct H; intros E; subst; repeat (destruct before as [|[? ?] before]; cbn [app] in E;
    [injection E; intros; subst; try (match goal with A : fine ?x, B : call_failed ?x |- _ => destruct (fine_not x A B) end);
     (split; [try reflexivity; congruence|cbn [snd]; apply reported_failure; reflexivity])
    |injection E; clear E; intros; subst; match goal with K : _ = before ++ _ |- _ => rename K into E end]).
  all: destruct before; discriminate.
Qed.

Lemma asked_reported p e l : forall tr r, reads (r_put_parts p e l) tr r ->
  forall before c g after, tr = before ++ (c, g) :: after -> call_failed g -> after = [] /\ reported c g (snd r) /\ ~ finished r.
Proof.
  assert (Hn : forall c g r, reported c g (snd r) -> ~ finished r).
  { unfold reported, finished. intros c g r H1 H2. destruct (gv_null g); congruence. }
  induction l as [|[path x] l IH]; intros tr r H before c g after E Hf.
  - apply reads_give_inv in H as [-> ->]. destruct before; discriminate.
  - cbn [r_put_parts] in H. apply reads_then in H as (tr1 & r1 & H1 & H2).
    assert (G : forall before c g after, tr1 = before ++ (c, g) :: after -> call_failed g -> after = [] /\ reported c g (snd r1)).
    { unfold r_put_part in H1. cbn [fst snd] in H1. destruct x as [labels|a].
      - apply reads_give_inv in H1 as [-> ->]. intros [|? ?]; discriminate.
      - apply reads_put_data in H1. apply (wrote_reported _ _ _ _ _ _ H1). }
    destruct H2 as [(Hfin & tr2 & r2 & H2 & -> & ->)|(Hfin & -> & ->)].
    + apply app_cons_split in E as [(after' & E & ->)|(before' & -> & E)].
      * destruct (G _ _ _ _ E Hf) as [_ G']. exfalso. exact (Hn _ _ _ G' Hfin).
      * exact (IH tr2 r2 H2 _ _ _ _ E Hf).
    + destruct (G _ _ _ _ E Hf) as [-> G']. split; [reflexivity|]. split; [exact G'|exact Hfin].
Qed.

(** * The content of the files *)

Definition seen (s : store) (pc : part * content) : part * content :=
  match snd pc with FileLabels _ => pc | FileData a => (fst pc, FileData (s_array s (pointer_of a))) end.

Lemma seen_components s name i components : map (seen s) (components_parts name i components) = components_parts name i components.
Proof. revert i. induction components as [|c rest IH]; intros i; [reflexivity|]. cbn [components_parts map]. rewrite IH. reflexivity. Qed.

Lemma seen_gradients s i gradients :
  map (seen s) (gradients_parts i gradients) = gradients_parts i (map (fun pg => (fst pg, see_basic s (snd pg))) gradients).
Proof.
  induction gradients as [|[q g] rest IH]; [reflexivity|]. cbn [gradients_parts map fst snd]. rewrite map_app, IH. f_equal.
  unfold gradient_parts. cbn [map]. rewrite seen_components. reflexivity.
Qed.

Lemma seen_blocks s blocks : forall i, map (seen s) (blocks_parts i blocks) = blocks_parts i (map (see_block s) blocks).
Proof.
  induction blocks as [|b rest IH]; intros i; [reflexivity|]. cbn [blocks_parts map]. rewrite map_app, IH. f_equal.
  unfold block_parts, values_parts. rewrite map_app, seen_gradients. cbn [app map see_block tb_values tb_gradients]. rewrite map_app, seen_components. reflexivity.
Qed.

Lemma seen_parts s t : map (seen s) (parts_of t) = parts_of (see s t).
Proof. unfold parts_of. cbn [map]. rewrite seen_blocks. reflexivity. Qed.

Lemma size_storable p shape size : storable shape -> shape_size p (map Z.of_nat shape) = Ok size -> size = Z.of_nat (elements shape).
Proof.
  intros [H _] E. unfold shape_size in E. fold (nonzero_volume shape) in H.
  rewrite shape_size_storable in E; [|change (2 ^ 63)%Z with 9223372036854775808%Z in H; change (2 ^ 64)%Z with 18446744073709551616%Z; lia|lia].
  rewrite Z.mul_1_l in E. congruence.
Qed.

Lemma write_data_head e a : write_data e a = (let? shape := array_shape a in let? head := head_of e shape in let? data := array_data a in
  Ok (head ++ flat_map (encode e 8) data)).
Proof.
  unfold write_data, head_of. destruct e; cbv zeta.
  - destruct (parse_literal (bytes_of "'<f8'")) eqn:E; [|vm_compute in E; discriminate]. cbn [expect_some bind]. destruct (array_shape a); reflexivity.
  - destruct (parse_literal (bytes_of "'>f8'")) eqn:E; [|vm_compute in E; discriminate]. cbn [expect_some bind]. destruct (array_shape a); reflexivity.
Qed.

Lemma wrote_content p e path a array tr r : wrote p e path a tr r -> finished r -> answered tr a array -> put_data e path array = r.
Proof.
  intros H Hf (E1 & E2 & Hs & Hd & Hst). unfold finished in Hf.
  inversion H; subst; cbn [snd] in Hf; try discriminate;
    try (exfalso; eapply (@failure_not_ok unit); eexists; exact Hf);
    try (exfalso; match goal with K : ~ is_ok ?x, E : ?x = Ok tt |- _ => apply K; exists tt; exact E end).
  unfold put_data. rewrite write_data_head, E1. cbn [bind].
  rewrite (Hs g) in H1 by (left; reflexivity). rewrite H1. cbn [bind]. rewrite E2. cbn [bind put_file].
  rewrite (Hs g') in H3 by (right; left; reflexivity). apply (size_storable _ _ _ Hst) in H3. subst size.
  unfold memory_read in H5. destruct (gv_memory g'') as [memory|] eqn:Em; [|discriminate].
  destruct (_ <=? _)%Z; [|discriminate]. inversion H5; subst data. rewrite Nat2Z.id.
  rewrite <- (Hd g'' memory) by (try exact Em; right; right; left; reflexivity). reflexivity.
Qed.

Lemma answered_part tr1 tr2 a array : answered (tr1 ++ tr2) a array -> answered tr1 a array /\ answered tr2 a array.
Proof.
  intros (H1 & H2 & H3 & H4 & H5). split; (split; [exact H1|split; [exact H2|split; [|split; [|exact H5]]]]).
  - intros g Hg. apply H3, in_app_iff. left. exact Hg.
  - intros g memory Hg. apply H4, in_app_iff. left. exact Hg.
  - intros g Hg. apply H3, in_app_iff. right. exact Hg.
  - intros g memory Hg. apply H4, in_app_iff. right. exact Hg.
Qed.

Lemma given_content p e s l : forall tr r, reads (r_put_parts p e l) tr r -> finished r ->
  (forall a, In a (flat_map part_arrays l) -> answered tr a (s_array s a)) -> put_parts e (map (seen s) l) = r.
Proof.
  induction l as [|[path x] l IH]; intros tr r H Hf Ha.
  - apply reads_give_inv in H as [-> ->]. reflexivity.
  - cbn [r_put_parts] in H. apply reads_then in H as (tr1 & r1 & H1 & H2).
    destruct H2 as [(Hfin & tr2 & r2 & H2 & -> & ->)|(Hfin & -> & ->)]; [|contradiction].
    cbn [map put_parts]. assert (G : put_part e (seen s (path, x)) = r1).
    { unfold r_put_part, seen, put_part in *. cbn [fst snd] in *. destruct x as [labels|a].
      - apply reads_give_inv in H1 as [_ ->]. reflexivity.
      - apply reads_put_data in H1. refine (wrote_content _ _ _ _ _ _ _ H1 Hfin _). apply (answered_part _ tr2). apply Ha.
        cbn [flat_map part_arrays snd app]. left. reflexivity. }
    rewrite G, (IH tr2 r2 H2).
    + unfold and_then. rewrite Hfin. reflexivity.
    + exact Hf.
    + intros a Hin. apply (answered_part tr1 _). apply Ha. cbn [flat_map]. apply in_app_iff. right. exact Hin.
Qed.

(** * Arrays in memory *)

Lemma shape_answers array a :
  (array_shape array = Ok (nd_shape (a_nd array)) /\ array_answers array (RShape a) = mk_given false 0 (nd_shape (a_nd array)) None)
  \/ (call_failed (array_answers array (RShape a)) /\ array_shape array = failure OpShape (array_answers array (RShape a))).
Proof.
  unfold array_answers, array_shape, Array.call. destruct (a_kind array); try (left; split; reflexivity).
  destruct (a_callbacks array OpShape) as [| |status]; [left; split; reflexivity|right; split; [left; reflexivity|reflexivity]|].
  destruct (Z.eqb_spec status 0) as [->|H]; [left; split; reflexivity|right; split; [right; exact H|reflexivity]].
Qed.

Lemma data_answers array a : array_shape array = Ok (nd_shape (a_nd array)) ->
  (array_data array = Ok (nd_data (a_nd array)) /\ array_answers array (RData a) = mk_given false 0 [] (Some (nd_data (a_nd array))))
  \/ (call_failed (array_answers array (RData a)) /\ array_data array = failure OpData (array_answers array (RData a))).
Proof.
  intros H. unfold array_answers, array_data. rewrite H. cbn [bind]. unfold Array.call. destruct (a_kind array).
  - destruct (is_standard_layout _ _); [left; split; reflexivity|right]. cbn. split; [right; discriminate|reflexivity].
  - right. cbn. split; [right; discriminate|reflexivity].
  - destruct (a_callbacks array OpData) as [| |status]; [left; split; reflexivity|right; split; [left; reflexivity|reflexivity]|].
    destruct (Z.eqb_spec status 0) as [->|H']; [left; split; reflexivity|right; split; [right; exact H'|reflexivity]].
Qed.


Lemma shape_size_ok p shape : storable shape -> exists size, shape_size p (map Z.of_nat shape) = Ok size.
Proof.
  intros [H _]. unfold shape_size. fold (nonzero_volume shape) in H. eexists.
  apply shape_size_storable; [change (2 ^ 63)%Z with 9223372036854775808%Z in H; change (2 ^ 64)%Z with 18446744073709551616%Z; lia|lia].
Qed.

Lemma data_left_head e a : data_left e a =
  match (let? shape := array_shape a in head_of e shape) with Ok head => head | _ => [] end.
Proof.
  unfold data_left, head_of. destruct (array_shape a); cbn [bind]; destruct e; reflexivity.
Qed.

Lemma wrote_same p e path a array tr r : wrote p e path a tr r -> float_array array ->
  Forall (fun cg => snd cg = array_answers array (fst cg)) tr -> put_data e path array = r.
Proof.
  intros H (_ & Hlen & Hst) Ha.
  assert (Hshape : forall g, g = array_answers array (RShape a) ->
    (fine g -> array_shape array = Ok (gv_shape g) /\ gv_shape g = nd_shape (a_nd array)) /\ (call_failed g -> array_shape array = failure OpShape g)).
  { intros g ->. destruct (shape_answers array a) as [(E1 & E2)|(E1 & E2)].
    - rewrite E2. split; [intros _; split; [exact E1|reflexivity]|]. intros [K|K]; [discriminate|contradiction K; reflexivity].
    - split; [intros K; contradiction (fine_not _ K E1)|]. intros _. exact E2. }
  unfold put_data. rewrite write_data_head, data_left_head.
  destruct H as [g r Hg ->|g r Hg Hh Hr Hn|g g' head r Hg Hh Hg' ->|g g' head r Hg Hh Hg' Hs Hr|g g' g'' head size r Hg Hh Hg' Hs Hg'' ->
                |g g' g'' head size reason Hg Hh Hg' Hs Hg'' Hm|g g' g'' head size data Hg Hh Hg' Hs Hg'' Hm];
    inversion Ha as [|x l Ha1 Ha2]; subst x l; cbn [fst snd] in Ha1; destruct (Hshape g Ha1) as [Hf1 Hf2].
  - rewrite (Hf2 Hg), !failure_bind. unfold failure, callback_error. destruct (gv_null g); reflexivity.
  - destruct (Hf1 Hg) as [E E']. rewrite E. cbn [bind]. rewrite Hr. destruct (head_of e (gv_shape g)) as [h|?|?|?]; [contradiction Hh; exists h; reflexivity| | |]; reflexivity.
  - exfalso. inversion Ha2 as [|x l Ha3 Ha4]; subst x l. cbn [fst snd] in Ha3. subst g g'. exact (fine_not _ Hg Hg').
  - exfalso. inversion Ha2 as [|x l Ha3 Ha4]; subst x l. cbn [fst snd] in Ha3. destruct (Hshape g' Ha3) as [Hf3 _]. destruct (Hf3 Hg') as [_ E].
    rewrite E in Hs. destruct (shape_size_ok p _ Hst) as [size Es]. apply Hs. exists size. exact Es.
  - destruct (Hf1 Hg) as [E E']. rewrite E. cbn [bind]. rewrite Hh. cbn [bind]. inversion Ha2 as [|x l Ha3 Ha4]; subst x l. inversion Ha4 as [|x l Ha5 Ha6]; subst x l.
    cbn [fst snd] in Ha5. rewrite E' in E. destruct (data_answers array a E) as [(D1 & D2)|(D1 & D2)].
    + exfalso. rewrite <- Ha5 in D2. rewrite D2 in Hg''. destruct Hg'' as [K|K]; [discriminate|contradiction K; reflexivity].
    + rewrite D2, <- Ha5, failure_bind, put_failure. reflexivity.
  - exfalso. inversion Ha2 as [|x l Ha3 Ha4]; subst x l. inversion Ha4 as [|x l Ha5 Ha6]; subst x l. cbn [fst snd] in Ha3, Ha5.
    destruct (Hf1 Hg) as [E E']. destruct (Hshape g' Ha3) as [Hf3 _]. destruct (Hf3 Hg') as [_ E'']. rewrite E'' in Hs. apply (size_storable _ _ _ Hst) in Hs.
    rewrite E' in E. destruct (data_answers array a E) as [(D1 & D2)|(D1 & D2)]; [|rewrite <- Ha5 in D1; exact (fine_not _ Hg'' D1)].
    rewrite <- Ha5 in D2. unfold memory_read in Hm. rewrite D2 in Hm. cbn [gv_memory] in Hm. rewrite Hlen, Hs, Z.leb_refl in Hm. discriminate.
  - inversion Ha2 as [|x l Ha3 Ha4]; subst x l. inversion Ha4 as [|x l Ha5 Ha6]; subst x l. cbn [fst snd] in Ha3, Ha5.
    destruct (Hf1 Hg) as [E E']. destruct (Hshape g' Ha3) as [Hf3 _]. destruct (Hf3 Hg') as [_ E'']. rewrite E'' in Hs. apply (size_storable _ _ _ Hst) in Hs.
    rewrite E. cbn [bind]. rewrite Hh. cbn [bind].
    rewrite E' in E. destruct (data_answers array a E) as [(D1 & D2)|(D1 & D2)]; [|exfalso; rewrite <- Ha5 in D1; exact (fine_not _ Hg'' D1)].
    rewrite <- Ha5 in D2. unfold memory_read in Hm. rewrite D2 in Hm. cbn [gv_memory] in Hm. rewrite Hlen, Hs, Z.leb_refl in Hm. inversion Hm.
    rewrite Nat2Z.id, <- Hlen, firstn_all, D1. reflexivity.
Qed.

Lemma same_answers p e s l : forall tr r, reads (r_put_parts p e l) tr r -> answers_of s tr ->
  Forall (fun a => float_array (s_array s a)) (flat_map part_arrays l) -> put_parts e (map (seen s) l) = r.
Proof.
  induction l as [|[path x] l IH]; intros tr r H Ha Hl.
  - apply reads_give_inv in H as [-> ->]. reflexivity.
  - cbn [r_put_parts] in H. apply reads_then in H as (tr1 & r1 & H1 & H2). cbn [flat_map] in Hl. apply Forall_app in Hl as [Hl1 Hl2].
    cbn [map put_parts]. assert (G : answers_of s tr1 -> put_part e (seen s (path, x)) = r1).
    { intros Ha1. unfold r_put_part, seen, put_part in *. cbn [fst snd] in *. destruct x as [labels|a].
      - apply reads_give_inv in H1 as [_ ->]. reflexivity.
      - apply reads_put_data in H1. refine (wrote_same _ _ _ _ _ _ _ H1 _ _).
        + cbn [part_arrays snd] in Hl1. inversion Hl1. assumption.
        + unfold answers_of in Ha1. assert (Hc : Forall (fun cg => read_array (fst cg) = pointer_of a) tr1).
          { inversion H1; subst; repeat constructor. }
          clear - Ha1 Hc. induction Hc as [|[c g] tr Hc _ IHc]; [constructor|]. inversion Ha1; subst. constructor; [|apply IHc; assumption].
          cbn [fst snd] in *. rewrite <- Hc. assumption. }
    destruct H2 as [(Hfin & tr2 & r2 & H2 & -> & ->)|(Hfin & -> & ->)].
    + apply Forall_app in Ha as [Ha1 Ha2]. rewrite (G Ha1), (IH tr2 r2 H2 Ha2 Hl2). unfold and_then. rewrite Hfin. reflexivity.
    + rewrite (G Ha). unfold and_then, finished in *. destruct (snd r1) as [[]|?|?|?]; [contradiction Hfin; reflexivity| | |]; reflexivity.
Qed.

(** * Properties *)

Lemma save_asks p e t tr r : reads (r_save p e t) tr r ->
  exists rest, flat_map calls_for (tensor_arrays t) = map fst tr ++ rest /\ (snd r = Ok tt -> rest = []).
Proof. intros H. apply r_save_parts in H. rewrite <- parts_arrays. exact (asked_in_order p e (parts_of t) tr r H). Qed.

Lemma save_reports p e t tr r before c g after : reads (r_save p e t) tr r -> tr = before ++ (c, g) :: after -> call_failed g ->
  after = [] /\ reported c g (snd r).
Proof. intros H E Hf. apply r_save_parts in H. destruct (asked_reported p e (parts_of t) tr r H _ _ _ _ E Hf) as (H1 & H2 & _). auto. Qed.

Lemma save_given p e t tr a s : reads (r_save p e t) tr (a, Ok tt) ->
  (forall x, In x (tensor_arrays t) -> answered tr x (s_array s x)) -> put_tensor e (see s t) = (a, Ok tt).
Proof.
  intros H Ha. apply r_save_parts in H. rewrite put_tensor_parts, <- seen_parts. rewrite <- parts_arrays in Ha.
  exact (given_content p e s (parts_of t) tr _ H eq_refl Ha).
Qed.

Lemma save_same p e t tr r s : reads (r_save p e t) tr r -> answers_of s tr ->
  Forall (fun a => float_array (s_array s a)) (tensor_arrays t) -> r = put_tensor e (see s t).
Proof.
  intros H Ha Hf. apply r_save_parts in H. rewrite put_tensor_parts, <- seen_parts. rewrite <- parts_arrays in Hf.
  symmetry. exact (same_answers p e s (parts_of t) tr _ H Ha Hf).
Qed.

Lemma save_given_load p e t tr a s names : reads (r_save p e t) tr (a, Ok tt) ->
  (forall x, In x (tensor_arrays t) -> answered tr x (s_array s x)) ->
  wf_tensor (see s t) -> tensor_in_memory (see s t) -> c_parameters (see s t) -> Permutation names (map fst a) ->
  exists t', load p names a = Ok t' /\ same_tensor (see s t) t'.
Proof.
  intros H Ha Hw Hm Hc Hn. pose proof (save_given p e t tr a s H Ha) as E. pose proof (put_tensor_save e (see s t)) as E'.
  assert (Es : save e (see s t) = Ok a).
  { destruct (save e (see s t)); [rewrite E in E'; inversion E'; reflexivity| | |]; rewrite E in E'; discriminate. }
  destruct (load_save p e (see s t) a names Hw Hm Hc Es Hn) as (t' & H1 & H2 & _). exists t'. auto.
Qed.

(* the functions of arrays in memory *)
Fixpoint ask {A} (answer : read_call -> given) (m : reading A) : answers * A :=
  match m with
  | Give a => ([], a)
  | Query c k => let '(tr, a) := ask answer (k (answer c)) in ((c, answer c) :: tr, a)
  end.

Lemma ask_reads {A} answer (m : reading A) : reads m (fst (ask answer m)) (snd (ask answer m)).
Proof.
  induction m as [a|c k IH]; [constructor|]. cbn [ask]. specialize (IH (answer c)). destruct (ask answer (k (answer c))) as [tr a].
  cbn [fst snd] in *. constructor. exact IH.
Qed.

Lemma ask_answers {A} answer (m : reading A) : Forall (fun cg => snd cg = answer (fst cg)) (fst (ask answer m)).
Proof.
  induction m as [a|c k IH]; [constructor|]. cbn [ask]. specialize (IH (answer c)). destruct (ask answer (k (answer c))) as [tr a].
  cbn [fst snd] in *. constructor; [reflexivity|exact IH].
Qed.

Lemma save_same_exists p e t s : Forall (fun a => float_array (s_array s a)) (tensor_arrays t) ->
  exists tr, answers_of s tr /\ reads (r_save p e t) tr (put_tensor e (see s t)).
Proof.
  intros Hf. set (answer := fun c => array_answers (s_array s (read_array c)) c).
  pose proof (ask_reads answer (r_save p e t)) as H. pose proof (ask_answers answer (r_save p e t)) as Ha.
  exists (fst (ask answer (r_save p e t))). split; [exact Ha|]. rewrite <- (save_same p e t _ _ s H Ha Hf). exact H.
Qed.
