(* Lemmas about what is in files after saving *)
From Coq Require Import Lia Permutation.
From Verif Require Import Base BaseFacts LayoutFacts Labels Array Block Tensor Npy Io Origin CApi Saving Spec SpecTensor SpecIo SpecApi SpecFormat SpecSaving
  LabelsFacts ArrayFacts BlockFacts TensorFacts MergeFacts MergePropertiesFacts NpyFacts PathFacts IoFacts LoadFacts FormatFacts
  ApiFacts QuietFacts ReportFacts OwnerFacts LabelsApiFacts ReachFacts HandleFacts FileApiFacts.
Local Open Scope string_scope.
Local Open Scope list_scope.
Local Open Scope nat_scope.

(** * Buffered files *)

Lemma overwrite_nil content position : overwrite content position [] = content.
Proof. reflexivity. Qed.

Lemma overwrite_some content position new k : new <> [] ->
  nth_error (overwrite content position new) k =
    if (position <=? k) && (k <? position + length new) then nth_error new (k - position)
    else if k <? length content then nth_error content k
    else if k <? position then Some (ascii_of_nat 0) else None.
Proof.
  intros Hn. unfold overwrite. destruct new as [|c new]; [congruence|]. set (n := c :: new) in *. clearbody n. clear c new.
  assert (Hl : length (firstn position content) + (position - length content) = position) by (rewrite firstn_length; lia).
  destruct (Nat.leb_spec position k) as [H1|H1]; cbn [andb].
  - rewrite app_assoc. rewrite nth_error_app2 by (rewrite app_length, repeat_length; lia).
    rewrite app_length, repeat_length. rewrite Hl. destruct (Nat.ltb_spec k (position + length n)) as [H2|H2].
    + rewrite nth_error_app1 by lia. reflexivity.
    + rewrite nth_error_app2 by lia. destruct (Nat.ltb_spec k (length content)) as [H3|H3].
      * rewrite <- (firstn_skipn (position + length n) content) at 2. rewrite nth_error_app2 by (rewrite firstn_length; lia).
        f_equal. rewrite firstn_length. lia.
      * destruct (Nat.ltb_spec k position); [lia|]. apply nth_error_None. rewrite skipn_length. lia.
  - destruct (Nat.ltb_spec k (length content)) as [H3|H3].
    + rewrite nth_error_app1 by (rewrite firstn_length; lia). rewrite <- (firstn_skipn position content) at 2.
      rewrite nth_error_app1 by (rewrite firstn_length; lia). reflexivity.
    + destruct (Nat.ltb_spec k position); [|lia]. rewrite nth_error_app2 by (rewrite firstn_length; lia).
      rewrite nth_error_app1 by (rewrite repeat_length, firstn_length; lia).
      rewrite nth_error_repeat; [reflexivity|]. rewrite firstn_length. lia.
Qed.

Definition placed (position : nat) (new : bytes) : list (nat * ascii) := combine (seq position (length new)) new.

Lemma placed_keys position new k : In k (map fst (placed position new)) <-> position <= k < position + length new.
Proof.
  unfold placed. revert position. induction new as [|c new IH]; intros position; cbn [length seq combine map In fst].
  - lia.
  - rewrite IH. lia.
Qed.

Lemma placed_app position a b : placed position (a ++ b) = placed position a ++ placed (position + length a) b.
Proof.
  unfold placed. revert position. induction a as [|c a IH]; intros position.
  - cbn. rewrite Nat.add_0_r. reflexivity.
  - cbn [length seq combine app]. rewrite IH. rewrite Nat.add_succ_comm. reflexivity.
Qed.

Lemma placed_last position new k c : last_byte (placed position new) k c <-> position <= k /\ nth_error new (k - position) = Some c.
Proof.
  split.
  - intros (b & a & E & Hn). assert (Hin : In (k, c) (placed position new)) by (rewrite E; apply in_elt).
    clear E Hn. unfold placed in Hin. apply In_nth_error in Hin as (i & Hi). clear b a.
    revert position i Hi. induction new as [|c' new IH]; intros position i Hi; cbn [length seq combine] in Hi; [destruct i; discriminate Hi|].
    destruct i as [|i]; cbn [nth_error] in Hi.
    + injection Hi as <- <-. rewrite Nat.sub_diag. split; [lia|reflexivity].
    + apply IH in Hi as [H1 H2]. split; [lia|]. replace (k - position) with (S (k - S position)) by lia. exact H2.
  - intros [H1 H2]. apply nth_error_split in H2 as (b & a & -> & Hb). exists (placed position b), (placed (S k) a). split.
    + rewrite placed_app. f_equal. rewrite Hb. replace (position + (k - position)) with k by lia. reflexivity.
    + rewrite placed_keys. lia.
Qed.

Lemma last_byte_app w1 w2 k c :
  last_byte (w1 ++ w2) k c <-> last_byte w2 k c \/ (last_byte w1 k c /\ ~ In k (map fst w2)).
Proof.
  split.
  - intros (b & a & E & Hn). apply app_eq_app in E as (l & [[-> E]|[-> E]]).
    + destruct l as [|x l].
      * cbn [app] in E. left. exists [], a. subst w2. auto.
      * cbn [app] in E. injection E as <- ->. right. rewrite map_app, in_app_iff in Hn. split; [|tauto].
        exists b, l. tauto.
    + left. exists l, a. auto.
  - intros [(b & a & -> & Hn)|[(b & a & -> & Hn) H2]].
    + exists (w1 ++ b), a. rewrite app_assoc. auto.
    + exists b, (a ++ w2). rewrite <- app_assoc. split; [reflexivity|]. rewrite map_app, in_app_iff. tauto.
Qed.

Lemma last_byte_in w k c : last_byte w k c -> In k (map fst w).
Proof. intros (b & a & -> & _). rewrite map_app. apply in_or_app. right. left. reflexivity. Qed.

Lemma in_last_byte w k : In k (map fst w) -> exists c, last_byte w k c.
Proof.
  induction w as [|[k' c'] w IH] using rev_ind; [intros []|]. rewrite map_app, in_app_iff. intros H.
  destruct (Nat.eq_dec k' k) as [->|Hne].
  - exists c', w, []. auto.
  - destruct H as [H|[H|[]]]; [|cbn in H; congruence]. destruct (IH H) as (c & Hc). exists c. apply last_byte_app. right.
    split; [exact Hc|]. cbn. tauto.
Qed.

Lemma file_length w content k : file_of w content -> (k < length content <-> exists k', k <= k' /\ In k' (map fst w)).
Proof.
  intros H. split.
  - intros Hk. destruct (nth_error content k) as [c|] eqn:E; [|apply nth_error_None in E; lia].
    apply H in E as [E|(_ & _ & k' & Hk' & Hin)]; [exists k; split; [lia|]; eapply last_byte_in; exact E|].
    exists k'. split; [lia|exact Hin].
  - intros (k' & Hk' & Hin). destruct (in_dec Nat.eq_dec k (map fst w)) as [Hk|Hk].
    + apply in_last_byte in Hk as (c & Hc). apply nth_error_Some. rewrite (proj2 (H k c) (or_introl Hc)). discriminate.
    + apply nth_error_Some. rewrite (proj2 (H k (ascii_of_nat 0))); [discriminate|]. right. split; [reflexivity|]. split; [exact Hk|].
      exists k'. split; [|exact Hin]. assert (k <> k') by (intros ->; contradiction). lia.
Qed.

Lemma file_of_overwrite w content position new :
  file_of w content -> file_of (w ++ placed position new) (overwrite content position new).
Proof.
  intros H. destruct new as [|c0 new0].
  { rewrite overwrite_nil. unfold placed. cbn. rewrite app_nil_r. exact H. }
  assert (Hne : c0 :: new0 <> []) by discriminate. set (new := c0 :: new0) in *. clearbody new. clear c0 new0.
  assert (Hpos : 0 < length new) by (destruct new; [congruence|cbn; lia]).
  intros k c. rewrite overwrite_some by exact Hne. rewrite last_byte_app, placed_last, map_app.
  setoid_rewrite in_app_iff. setoid_rewrite placed_keys. destruct (Nat.leb_spec position k) as [H1|H1]; cbn [andb].
  - destruct (Nat.ltb_spec k (position + length new)) as [H2|H2].
    + split; [intros E; left; left; auto|]. intros [[[_ E]|[_ E]]|(_ & E & _)]; [exact E|lia|]. exfalso. apply E. right. lia.
    + destruct (Nat.ltb_spec k (length content)) as [H3|H3].
      * rewrite (H k c). split.
        -- intros [E|(E1 & E2 & k' & E3 & E4)]; [left; right; split; [exact E|lia]|]. right. split; [exact E1|].
           split; [intros [E|E]; [contradiction|lia]|]. exists k'. auto.
        -- intros [[[_ E]|[E _]]|(E1 & E2 & k' & E3 & [E4|E4])]; [|left; exact E| |lia].
           ++ apply nth_error_Some_length in E || (assert (k - position < length new) by (apply nth_error_Some; congruence)); lia.
           ++ right. split; [exact E1|]. split; [tauto|]. exists k'. auto.
      * destruct (Nat.ltb_spec k position); [lia|]. split; [discriminate|]. intros E. exfalso.
        assert (Hno : ~ exists k', k <= k' /\ In k' (map fst w)) by (rewrite <- (file_length _ _ _ H); lia).
        destruct E as [[[_ E]|[E _]]|(_ & _ & k' & E3 & [E4|E4])].
        -- assert (k - position < length new) by (apply nth_error_Some; congruence). lia.
        -- apply Hno. exists k. split; [lia|]. eapply last_byte_in. exact E.
        -- apply Hno. exists k'. split; [lia|exact E4].
        -- lia.
  - destruct (Nat.ltb_spec k (length content)) as [H3|H3].
    + rewrite (H k c). split.
      * intros [E|(E1 & E2 & k' & E3 & E4)]; [left; right; split; [exact E|lia]|]. right. split; [exact E1|].
        split; [intros [E|E]; [contradiction|lia]|]. exists k'. auto.
      * intros [[[E _]|[E _]]|(E1 & E2 & k' & E3 & E4)]; [lia|left; exact E|]. right. split; [exact E1|]. split; [tauto|].
        assert (Hk : exists k', k <= k' /\ In k' (map fst w)) by (apply (file_length _ _ _ H); exact H3).
        destruct Hk as (k2 & Hk2 & Hin). exists k2. split; [|exact Hin]. assert (k <> k2) by (intros ->; tauto). lia.
    + destruct (Nat.ltb_spec k position) as [H4|H4]; [|lia].
      assert (Hno : ~ In k (map fst w)).
      { intros Hin. assert (k < length content) by (apply (file_length _ _ _ H); exists k; split; [lia|exact Hin]). lia. }
      split.
      * intros E. injection E as <-. right. split; [reflexivity|]. split; [intros [E|E]; [contradiction|lia]|].
        exists position. split; [lia|]. right. lia.
      * intros [[[E _]|[E _]]|(-> & _)]; [lia| |reflexivity]. exfalso. apply Hno. eapply last_byte_in. exact E.
Qed.

(* the position after some operations *)
Fixpoint end_position (position : nat) (ops : list file_op) : nat :=
  match ops with
  | [] => position
  | WriteAll new :: ops => end_position (position + length new) ops
  | SeekTo position :: ops => end_position position ops
  end.

Lemma byte_writes_app ops1 ops2 : forall position,
  byte_writes position (ops1 ++ ops2) = byte_writes position ops1 ++ byte_writes (end_position position ops1) ops2.
Proof.
  induction ops1 as [|[new|p] ops1 IH]; intros position; cbn [app byte_writes end_position]; [reflexivity| |apply IH].
  rewrite IH, app_assoc. reflexivity.
Qed.

Lemma end_position_app ops1 ops2 : forall position,
  end_position position (ops1 ++ ops2) = end_position (end_position position ops1) ops2.
Proof. induction ops1 as [|[new|p] ops1 IH]; intros position; cbn [app end_position]; auto. Qed.

Lemma byte_writes_all after : forall position, byte_writes position (map WriteAll after) = placed position (concat after).
Proof.
  induction after as [|b after IH]; intros position; cbn [map byte_writes concat]; [reflexivity|].
  rewrite IH, placed_app. reflexivity.
Qed.

Lemma end_position_all after : forall position, end_position position (map WriteAll after) = position + length (concat after).
Proof.
  induction after as [|b after IH]; intros position; cbn [map end_position concat]; [cbn; lia|]. rewrite IH, app_length. lia.
Qed.

(* what was done: everything [before] is in the file, what comes [after] is in the
   buffer *)
Definition buffering (f : buffered) (before : list file_op) (after : list bytes) : Prop :=
  all_written before (f_content f) /\ f_position f = end_position 0 before
  /\ f_buffer f = concat after /\ length (f_buffer f) <= capacity.

Lemma written_writes before after content position new :
  all_written before content -> position = end_position 0 before -> new = concat after ->
  all_written (before ++ map WriteAll after) (overwrite content position new).
Proof.
  intros H -> ->. unfold all_written. rewrite byte_writes_app, byte_writes_all. apply file_of_overwrite. exact H.
Qed.

Lemma raw_write_ok f new g before after : raw_write f new = (g, true) ->
  all_written before (f_content f) -> f_position f = end_position 0 before -> new = concat after ->
  all_written (before ++ map WriteAll after) (f_content g) /\ f_position g = end_position 0 (before ++ map WriteAll after)
  /\ f_buffer g = f_buffer f.
Proof.
  intros H Hh Hp Hn.
  assert (E : f_content g = overwrite (f_content f) (f_position f) new /\ f_position g = f_position f + length new /\ f_buffer g = f_buffer f).
  { unfold raw_write in H. destruct (f_answers f) as [|[n|] answers]; [| |]; injection H as <-; auto. discriminate. }
  destruct E as (E1 & E2 & E3). split; [|split; [|exact E3]].
  - rewrite E1. apply written_writes; assumption.
  - rewrite E2, Hp, end_position_app, end_position_all, Hn. reflexivity.
Qed.

Lemma flush_ok f g before after : flush_buf f = (g, true) -> buffering f before after ->
  buffering g (before ++ map WriteAll after) [].
Proof.
  intros H (Hh & Hp & Hb & Hc). unfold flush_buf in H. destruct (f_buffer f) as [|c b] eqn:E.
  - injection H as <-. assert (Hn : all_written (before ++ map WriteAll after) (overwrite (f_content f) (f_position f) [])) by (apply written_writes; assumption).
    rewrite overwrite_nil in Hn. split; [exact Hn|]. split; [|rewrite E; split; [reflexivity|cbn; lia]].
    rewrite end_position_app, end_position_all, <- Hb, Hp. cbn. lia.
  - destruct (raw_write f (c :: b)) as [g0 ok] eqn:Er. injection H as <- ->.
    destruct (raw_write_ok _ _ _ _ after Er Hh Hp Hb) as (H1 & H2 & H3). split; [exact H1|]. split; [exact H2|]. cbn [f_buffer].
    rewrite H2, Hp. rewrite end_position_app, end_position_all, <- Hb.
    replace (end_position 0 before + length (c :: b) - end_position 0 before) with (length (c :: b)) by lia.
    rewrite skipn_all. split; [reflexivity|cbn; lia].
Qed.

Lemma file_step_ok f op g before after : file_step f op = (g, true) -> buffering f before after ->
  exists before' after', before ++ map WriteAll after ++ [op] = before' ++ map WriteAll after'
    /\ buffering g before' after' /\ (forall p, op = SeekTo p -> after' = []).
Proof.
  intros H Hf. destruct op as [new|p]; cbn [file_step] in H.
  - destruct (Nat.ltb_spec (length (f_buffer f) + length new) capacity) as [Hl|Hl].
    + injection H as <-. exists before, (after ++ [new]). rewrite map_app. split; [reflexivity|]. split; [|discriminate].
      destruct Hf as (Hh & Hp & Hb & Hc). split; [exact Hh|]. split; [exact Hp|]. cbn [f_buffer].
      rewrite concat_app, <- Hb. cbn [concat]. rewrite app_nil_r, app_length. split; [reflexivity|lia].
    + destruct (if capacity <? length (f_buffer f) + length new then flush_buf f else (f, true)) as [f1 ok] eqn:Ef.
      destruct ok; [|discriminate H].
      assert (Hf1 : exists before1 after1, before ++ map WriteAll after = before1 ++ map WriteAll after1 /\ buffering f1 before1 after1
        /\ (length (f_buffer f1) = 0 \/ length (f_buffer f1) + length new = capacity)).
      { destruct (Nat.ltb_spec capacity (length (f_buffer f) + length new)) as [Hc|Hc].
        - pose proof (flush_ok _ _ _ _ Ef Hf) as Hg. exists (before ++ map WriteAll after), []. cbn [map]. rewrite app_nil_r.
          split; [reflexivity|]. split; [exact Hg|]. left. destruct Hg as (_ & _ & -> & _). reflexivity.
        - injection Ef as <-. exists before, after. split; [reflexivity|]. split; [exact Hf|]. right. lia. }
      destruct Hf1 as (before1 & after1 & E1 & (Hh & Hp & Hb & Hc) & Hl1).
      destruct (Nat.leb_spec capacity (length new)) as [Hn|Hn].
      * assert (Hz : f_buffer f1 = []) by (apply length_zero_iff_nil; lia). rewrite Hz in Hb.
        assert (Hh1 : all_written (before1 ++ map WriteAll after1) (f_content f1)).
        { rewrite <- (overwrite_nil (f_content f1) (f_position f1)). apply written_writes; assumption. }
        assert (Hp1 : f_position f1 = end_position 0 (before1 ++ map WriteAll after1)).
        { rewrite end_position_app, end_position_all, <- Hb, Hp. cbn. lia. }
        destruct (raw_write_ok _ _ _ _ [new] H Hh1 Hp1) as (H1 & H2 & H3); [cbn; rewrite app_nil_r; reflexivity|].
        exists ((before1 ++ map WriteAll after1) ++ map WriteAll [new]), []. split.
        { rewrite app_assoc, E1. cbn [map]. rewrite app_nil_r. reflexivity. }
        split; [|discriminate]. split; [exact H1|]. split; [exact H2|]. rewrite H3, Hz. cbn. split; [reflexivity|lia].
      * injection H as <-. exists before1, (after1 ++ [new]). split.
        { rewrite app_assoc, E1, map_app, app_assoc. reflexivity. }
        split; [|discriminate]. split; [exact Hh|]. split; [exact Hp|]. cbn [f_buffer]. rewrite concat_app, <- Hb. cbn [concat].
        rewrite app_nil_r, app_length. split; [reflexivity|lia].
  - destruct (flush_buf f) as [f1 ok] eqn:Ef. destruct ok; [|discriminate H]. injection H as <-.
    destruct (flush_ok _ _ _ _ Ef Hf) as (Hh & Hp & Hb & Hc). exists (before ++ map WriteAll after ++ [SeekTo p]), [].
    cbn [map]. rewrite app_nil_r. split; [reflexivity|]. split; [|intros _ _; reflexivity]. rewrite app_assoc. split; [|split; [|split; assumption]].
    + unfold all_written. rewrite byte_writes_app. cbn [byte_writes]. rewrite app_nil_r. exact Hh.
    + rewrite end_position_app. reflexivity.
Qed.

Lemma file_steps_ok ops : forall f g before after, file_steps f ops = (g, true) -> buffering f before after ->
  exists before' after', before ++ map WriteAll after ++ ops = before' ++ map WriteAll after' /\ buffering g before' after'.
Proof.
  induction ops as [|op ops IH]; intros f g before after H Hf; cbn [file_steps] in H.
  - injection H as <-. exists before, after. rewrite app_nil_r. split; [reflexivity|exact Hf].
  - destruct (file_step f op) as [f1 ok] eqn:Es. destruct ok; [|discriminate H].
    destruct (file_step_ok _ _ _ _ _ Es Hf) as (b1 & a1 & E1 & Hf1 & _).
    destruct (IH _ _ _ _ H Hf1) as (b2 & a2 & E2 & Hf2). exists b2, a2. split; [|exact Hf2].
    rewrite <- E2. change (op :: ops) with ([op] ++ ops). rewrite !app_assoc. rewrite <- (app_assoc before), E1. reflexivity.
Qed.

Lemma file_steps_app ops1 ops2 : forall f,
  file_steps f (ops1 ++ ops2) = let '(g, ok) := file_steps f ops1 in if ok then file_steps g ops2 else (g, false).
Proof.
  induction ops1 as [|op ops1 IH]; intros f; cbn [app file_steps]; [reflexivity|].
  destruct (file_step f op) as [f1 ok]. destruct ok; [apply IH|reflexivity].
Qed.

Lemma written_nil : all_written [] [].
Proof.
  intros k c. cbn. split; [destruct k; discriminate|]. intros [(b & a & E & _)|(_ & _ & k' & _ & [])]. destruct b; discriminate E.
Qed.

Lemma buffering_start answers : buffering (mk_buffered [] 0 [] answers) [] [].
Proof. split; [exact written_nil|]. split; [reflexivity|]. split; [reflexivity|]. cbn. lia. Qed.

(* the last flush can fail *)
Lemma flush_any f before after : buffering f before after ->
  exists n, f_content (fst (flush_buf f)) = overwrite (f_content f) (f_position f) (firstn n (f_buffer f)).
Proof.
  intros _. unfold flush_buf. destruct (f_buffer f) as [|c b]; [exists 0; reflexivity|].
  unfold raw_write. destruct (f_answers f) as [|[n|] answers].
  - exists (length (c :: b)). rewrite firstn_all. reflexivity.
  - exists n. reflexivity.
  - exists (length (c :: b)). rewrite firstn_all. reflexivity.
Qed.

Lemma written_but_buffer answers ops content : write_through answers ops = (content, true) ->
  exists before after n, ops = before ++ map WriteAll after /\ length (concat after) <= capacity
    /\ all_written (before ++ [WriteAll (firstn n (concat after))]) content.
Proof.
  unfold write_through. destruct (file_steps _ ops) as [f ok] eqn:E. intros H. injection H as <- ->.
  destruct (file_steps_ok _ _ _ _ _ E (buffering_start answers)) as (before & after & E1 & Hf). cbn [map app] in E1.
  destruct (flush_any _ _ _ Hf) as (n & ->). destruct Hf as (Hh & Hp & Hb & Hc). exists before, after, n. split; [exact E1|].
  rewrite <- Hb. split; [exact Hc|]. change [WriteAll (firstn n (f_buffer f))] with (map WriteAll [firstn n (f_buffer f)]).
  apply written_writes; [exact Hh|exact Hp|]. cbn. rewrite app_nil_r. reflexivity.
Qed.

Lemma written_until_seek answers ops position content : write_through answers (ops ++ [SeekTo position]) = (content, true) ->
  all_written ops content.
Proof.
  unfold write_through. rewrite file_steps_app. destruct (file_steps _ ops) as [f ok] eqn:E. destruct ok; [|discriminate].
  cbn [file_steps]. destruct (file_step f (SeekTo position)) as [g ok] eqn:Es. destruct ok; [|discriminate]. intros H. injection H as <-.
  destruct (file_steps_ok _ _ _ _ _ E (buffering_start answers)) as (before & after & E1 & Hf). cbn [map app] in E1. subst ops.
  cbn [file_step] in Es. destruct (flush_buf f) as [f1 ok] eqn:Ef. destruct ok; [|discriminate Es]. injection Es as <-.
  destruct (flush_ok _ _ _ _ Ef Hf) as (Hh & _ & Hb & _). unfold flush_buf. cbn [f_buffer]. rewrite Hb. exact Hh.
Qed.

(* without errors of the operating system *)
Definition quiet_disk (f : buffered) : Prop := Forall (fun a => a = None) (f_answers f).

Lemma raw_write_quiet f new g ok : raw_write f new = (g, ok) -> quiet_disk f -> ok = true /\ quiet_disk g.
Proof.
  unfold raw_write, quiet_disk. intros H Hq. destruct (f_answers f) as [|[n|] answers] eqn:E.
  - injection H as <- <-. split; [reflexivity|constructor].
  - inversion Hq; discriminate.
  - injection H as <- <-. split; [reflexivity|]. inversion Hq; assumption.
Qed.

Lemma flush_quiet f g ok : flush_buf f = (g, ok) -> quiet_disk f -> ok = true /\ quiet_disk g.
Proof.
  unfold flush_buf. destruct (f_buffer f) as [|c b]; intros H Hq; [injection H as <- <-; auto|].
  destruct (raw_write f (c :: b)) as [g0 ok0] eqn:E. injection H as <- <-. exact (raw_write_quiet _ _ _ _ E Hq).
Qed.

Lemma file_step_quiet f op g ok : file_step f op = (g, ok) -> quiet_disk f -> ok = true /\ quiet_disk g.
Proof.
  intros H Hq. destruct op as [new|p]; cbn [file_step] in H.
  - destruct (_ <? capacity); [injection H as <- <-; auto|].
    destruct (if capacity <? length (f_buffer f) + length new then flush_buf f else (f, true)) as [f1 ok1] eqn:Ef.
    assert (Hf1 : ok1 = true /\ quiet_disk f1).
    { destruct (capacity <? _); [exact (flush_quiet _ _ _ Ef Hq)|injection Ef as <- <-; auto]. }
    destruct Hf1 as [-> Hq1]. destruct (capacity <=? length new); [exact (raw_write_quiet _ _ _ _ H Hq1)|injection H as <- <-; auto].
  - destruct (flush_buf f) as [f1 ok1] eqn:Ef. destruct (flush_quiet _ _ _ Ef Hq) as [-> Hq1]. injection H as <- <-. auto.
Qed.

Lemma file_steps_quiet ops : forall f g ok, file_steps f ops = (g, ok) -> quiet_disk f -> ok = true /\ quiet_disk g.
Proof.
  induction ops as [|op ops IH]; intros f g ok H Hq; cbn [file_steps] in H; [injection H as <- <-; auto|].
  destruct (file_step f op) as [f1 ok1] eqn:E. destruct (file_step_quiet _ _ _ _ E Hq) as [-> Hq1]. exact (IH _ _ _ H Hq1).
Qed.

Lemma written_without_errors answers ops : Forall (fun a => a = None) answers ->
  exists content, write_through answers ops = (content, true) /\ all_written ops content.
Proof.
  intros Hq. unfold write_through. destruct (file_steps _ ops) as [f ok] eqn:E.
  destruct (file_steps_quiet _ _ _ _ E Hq) as [-> Hqf]. eexists. split; [reflexivity|].
  destruct (file_steps_ok _ _ _ _ _ E (buffering_start answers)) as (before & after & E1 & Hf). cbn [map app] in E1. subst ops.
  destruct (flush_buf f) as [g ok] eqn:Ef. destruct (flush_quiet _ _ _ Ef Hqf) as [-> _]. apply (flush_ok _ _ _ _ Ef Hf).
Qed.

(** * Archives which are not finished *)

Definition content_left (e : endianness) (c : content) : bytes :=
  match c with FileLabels l => labels_left e l | FileData a => data_left e a end.

Definition put_part (e : endianness) (pc : part * content) : progress :=
  put_file (path_of (fst pc)) (write_content e (snd pc)) (content_left e (snd pc)).

Fixpoint put_parts (e : endianness) (l : list (part * content)) : progress :=
  match l with
  | [] => ([], Ok tt)
  | pc :: l => and_then (put_part e pc) (put_parts e l)
  end.

Lemma and_then_assoc a b c : and_then (and_then a b) c = and_then a (and_then b c).
Proof.
  destruct a as [a [[]|?|?|?]], b as [b [[]|?|?|?]]; unfold and_then; cbn; try reflexivity. rewrite app_assoc. reflexivity.
Qed.

Lemma and_then_start a : and_then ([], Ok tt) a = a.
Proof. destruct a; reflexivity. Qed.

Lemma put_parts_app e l r : put_parts e (l ++ r) = and_then (put_parts e l) (put_parts e r).
Proof.
  induction l as [|pc l IH]; cbn [app put_parts].
  - unfold and_then. cbn. destruct (put_parts e r); reflexivity.
  - rewrite IH, and_then_assoc. reflexivity.
Qed.

Lemma put_components_parts e directory name components : (forall j, path_of (name j) = component_path directory j) -> forall i,
  put_components e directory i components = put_parts e (components_parts name i components).
Proof.
  intros Hn. induction components as [|c rest IH]; intros i; [reflexivity|]. cbn [put_components components_parts put_parts].
  rewrite IH. unfold put_part. cbn [fst snd]. rewrite Hn. reflexivity.
Qed.

Lemma put_gradients_parts e i gradients : put_gradients e i gradients = put_parts e (gradients_parts i gradients).
Proof.
  induction gradients as [|[q g] rest IH]; [reflexivity|]. cbn [put_gradients gradients_parts]. unfold gradient_parts.
  rewrite put_parts_app. cbn [put_parts]. rewrite IH, !and_then_assoc.
  rewrite (put_components_parts e _ (fun j => GradientPart i q (GradientComponent j))) by reflexivity. reflexivity.
Qed.

Lemma put_blocks_parts e blocks : forall i, put_blocks e i blocks = put_parts e (blocks_parts i blocks).
Proof.
  induction blocks as [|b rest IH]; intros i; [reflexivity|]. cbn [put_blocks blocks_parts]. unfold block_parts, values_parts.
  rewrite <- app_assoc. cbn [app put_parts]. rewrite <- app_assoc, !put_parts_app. cbn [put_parts]. rewrite IH, put_gradients_parts, !and_then_assoc.
  rewrite (put_components_parts e _ (fun j => ValuesPart i (ValuesComponent j))) by reflexivity. rewrite and_then_start. reflexivity.
Qed.

Lemma put_tensor_parts e t : put_tensor e t = put_parts e (parts_of t).
Proof. unfold put_tensor, parts_of. cbn [put_parts]. rewrite put_blocks_parts. reflexivity. Qed.

(* the same result as save *)
Lemma put_parts_save e l : match mapM (save_part e) l with
  | Ok a => put_parts e l = (a, Ok tt)
  | failure => snd (put_parts e l) = (let? _ := failure in Ok tt)
  end.
Proof.
  induction l as [|[p c] l IH]; cbn [mapM put_parts]; [reflexivity|]. rewrite save_part_pair. unfold put_part. cbn [fst snd].
  destruct (write_content e c) as [f|?|?|?]; cbn [bind put_file and_then snd fst]; try reflexivity.
  unfold and_then. cbn [put_file fst snd]. destruct (mapM (save_part e) l) as [a|?|?|?]; cbn [bind] in *; rewrite IH; reflexivity.
Qed.

Lemma put_tensor_save e t : match save e t with
  | Ok a => put_tensor e t = (a, Ok tt)
  | failure => snd (put_tensor e t) = (let? _ := failure in Ok tt)
  end.
Proof. rewrite save_parts, put_tensor_parts. apply put_parts_save. Qed.

(* what is in the archive: everything before a part which could not be written *)
Lemma put_parts_failure e l : snd (put_parts e l) <> Ok tt ->
  exists l1 pc l2 a1, l = l1 ++ pc :: l2 /\ mapM (save_part e) l1 = Ok a1
    /\ (forall f, write_content e (snd pc) <> Ok f)
    /\ fst (put_parts e l) = a1 ++ [(path_of (fst pc), content_left e (snd pc))].
Proof.
  induction l as [|[p c] l IH]; cbn [put_parts]; intros H; [exfalso; apply H; reflexivity|]. unfold put_part in *. cbn [fst snd] in *.
  destruct (write_content e c) as [f|?|?|?] eqn:E; cbn [put_file] in *.
  - unfold and_then in *. cbn [fst snd] in *. destruct (IH H) as (l1 & pc & l2 & a1 & -> & Ha & Hf & E1).
    exists ((p, c) :: l1), pc, l2, ((path_of p, f) :: a1). split; [reflexivity|]. split; [|split; [exact Hf|]].
    + cbn [mapM]. rewrite save_part_pair, E. cbn [bind]. rewrite Ha. reflexivity.
    + rewrite E1. reflexivity.
  - exists [], (p, c), l, []. cbn. split; [reflexivity|]. split; [reflexivity|]. split; [|reflexivity]. intros f. rewrite E. discriminate.
  - exists [], (p, c), l, []. cbn. split; [reflexivity|]. split; [reflexivity|]. split; [|reflexivity]. intros f. rewrite E. discriminate.
  - exists [], (p, c), l, []. cbn. split; [reflexivity|]. split; [reflexivity|]. split; [|reflexivity]. intros f. rewrite E. discriminate.
Qed.

(* samples are written after the data *)
Definition samples_of (p : part) : part :=
  match p with
  | KeysPart => KeysPart
  | ValuesPart i _ => ValuesPart i ValuesSamples
  | GradientPart i q _ => GradientPart i q GradientSamples
  end.

Definition followed (l : list (part * content)) : Prop :=
  forall l1 p a l2, l = l1 ++ (p, FileData a) :: l2 ->
    (p = samples_of p -> False) /\ exists c l3, l2 = (samples_of p, c) :: l3.

Lemma followed_app l r : followed l -> followed r -> followed (l ++ r).
Proof.
  intros Hl Hr l1 p a l2 E. apply app_eq_app in E as (m & [[-> E]|[-> E]]).
  - destruct m as [|x m].
    + cbn [app] in E. apply (Hr [] p a l2). symmetry. exact E.
    + cbn [app] in E. injection E as <- ->. destruct (Hl l1 p a m eq_refl) as (H1 & c & l3 & ->). split; [exact H1|].
      exists c, (l3 ++ r). reflexivity.
  - apply (Hr m p a l2 E).
Qed.

Lemma followed_nil : followed [].
Proof. intros [|x l1] p a l2 E; discriminate E. Qed.

Lemma followed_labels p l r : followed r -> followed ((p, FileLabels l) :: r).
Proof.
  intros H [|x l1] p' a l2 E; [discriminate E|]. cbn [app] in E. injection E as _ E. exact (H _ _ _ _ E).
Qed.

Lemma followed_data p a c r : p <> samples_of p -> followed ((samples_of p, c) :: r) -> followed ((p, FileData a) :: (samples_of p, c) :: r).
Proof.
  intros Hp H [|x l1] p' a' l2 E; cbn [app] in E.
  - injection E as <- <- <-. split; [exact Hp|]. exists c, r. reflexivity.
  - injection E as _ E. exact (H _ _ _ _ E).
Qed.

Lemma components_followed name components : forall i, followed (components_parts name i components).
Proof. induction components as [|c rest IH]; intros i; [exact followed_nil|]. apply followed_labels, IH. Qed.

Lemma gradients_followed i gradients : followed (gradients_parts i gradients).
Proof.
  induction gradients as [|[q g] rest IH]; [exact followed_nil|]. cbn [gradients_parts]. apply followed_app; [|exact IH].
  apply (followed_data (GradientPart i q GradientData) (bb_data g)); [discriminate|]. apply followed_labels, components_followed.
Qed.

Lemma blocks_followed blocks : forall i, followed (blocks_parts i blocks).
Proof.
  induction blocks as [|b rest IH]; intros i; [exact followed_nil|]. cbn [blocks_parts]. apply followed_app; [|apply IH].
  apply followed_app; [|apply gradients_followed]. apply (followed_data (ValuesPart i ValuesData) (bb_data (tb_values b))); [discriminate|].
  apply followed_labels, followed_app; [apply components_followed|]. apply followed_labels, followed_nil.
Qed.

Lemma parts_followed t : followed (parts_of t).
Proof. apply followed_labels, blocks_followed. Qed.

(* where the data is *)
Lemma gradients_data_part i gradients p a : In (p, FileData a) (gradients_parts i gradients) ->
  exists q, p = GradientPart i q GradientData /\ In q (map fst gradients).
Proof.
  induction gradients as [|[q g] rest IH]; [intros []|]. cbn [gradients_parts]. rewrite in_app_iff. intros [H|H].
  - destruct H as [H|[H|H]]; [injection H as <- _; exists q; cbn; auto|discriminate H|]. exfalso. revert H. generalize 0.
    induction (bb_components g) as [|c rest' IHc]; intros n H; [destruct H|]. destruct H as [H|H]; [discriminate H|eauto].
  - destruct (IH H) as (q' & E & Hq). exists q'. cbn. auto.
Qed.

Lemma blocks_data_part blocks p a : forall i, In (p, FileData a) (blocks_parts i blocks) ->
  exists j b, nth_error blocks j = Some b
    /\ (p = ValuesPart (i + j) ValuesData \/ exists q, p = GradientPart (i + j) q GradientData /\ In q (map fst (tb_gradients b))).
Proof.
  induction blocks as [|b rest IH]; intros i; [intros []|]. cbn [blocks_parts]. rewrite in_app_iff. intros [H|H].
  - exists 0, b. rewrite Nat.add_0_r. split; [reflexivity|]. unfold block_parts in H. rewrite in_app_iff in H. destruct H as [H|H].
    + left. destruct H as [H|[H|H]]; [injection H as <- _; reflexivity|discriminate H|]. exfalso. apply in_app_iff in H as [H|[H|[]]]; [|discriminate H].
      revert H. generalize 0. induction (bb_components (tb_values b)) as [|c rest' IHc]; intros n H; [destruct H|]. destruct H as [H|H]; [discriminate H|eauto].
    + right. apply gradients_data_part in H. exact H.
  - destruct (IH _ H) as (j & b' & Hj & Hp). exists (S j), b'. split; [exact Hj|]. replace (i + S j) with (i + 1 + j) by lia. exact Hp.
Qed.

(* the parts of the first block are written before the ones of the other blocks *)
Lemma first_block_before t b0 rest l1 p c l2 : tm_blocks t = b0 :: rest -> parts_of t = l1 ++ (p, c) :: l2 ->
  block_of_part p <> Some 0 -> p <> KeysPart -> exists l, l1 = (KeysPart, FileLabels (tm_keys t)) :: block_parts 0 b0 ++ l.
Proof.
  intros Hb E Hp Hk. unfold parts_of in E. rewrite Hb in E. cbn [blocks_parts] in E. destruct l1 as [|x l1]; cbn [app] in E.
  { injection E as <- _. congruence. }
  assert (E0 : block_parts 0 b0 ++ blocks_parts (0 + 1) rest = l1 ++ (p, c) :: l2) by congruence.
  assert (Ex : x = (KeysPart, FileLabels (tm_keys t))) by congruence. clear E. subst x.
  apply app_eq_app in E0 as (m & [[E1 E2]|[E1 E2]]).
  - destruct m as [|y m].
    + rewrite app_nil_r in E1. exists []. rewrite app_nil_r. congruence.
    + cbn [app] in E2. injection E2 as <- _. exfalso. apply Hp. apply (block_parts_in 0 b0). rewrite E1, map_app. apply in_or_app. right. left. reflexivity.
  - exists m. congruence.
Qed.

Lemma foldM_each {A S} (f : S -> A -> outcome S) l x : forall s s', foldM f l s = Ok s' -> In x l -> exists s1 s2, f s1 x = Ok s2.
Proof.
  induction l as [|y l IH]; intros s s' H Hx; [destruct Hx|]. cbn [foldM] in H. apply bind_ok in H as (s1 & H1 & H).
  destruct Hx as [->|Hx]; [exists s, s1; exact H1|exact (IH _ _ H Hx)].
Qed.

Lemma mapM_each {A B} (f : A -> outcome B) l ys x : mapM f l = Ok ys -> In x l -> exists y, f x = Ok y.
Proof. intros H Hx. apply mapM_ok in H. destruct (Forall2_In_l _ _ _ _ H Hx) as (y & _ & Hy). exists y. exact Hy. Qed.

Lemma by_name_in a path f : by_name a path = Ok f -> In path (map fst a).
Proof.
  unfold by_name. destruct (hm_get String.eqb (rev a) path) as [c|] eqn:E; [|discriminate]. intros _.
  apply (BaseFacts.hm_get_In _ String.eqb_eq) in E. apply in_rev in E. apply in_map_iff. exists (path, c). auto.
Qed.

Lemma components_labels name components p l : forall i, In (p, FileLabels l) (components_parts name i components) -> In l components.
Proof.
  induction components as [|c rest IH]; intros i H; [destruct H|]. destruct H as [H|H]; [injection H as _ ->; left; reflexivity|].
  right. eapply IH. exact H.
Qed.

Lemma gradients_labels i gradients p l : In (p, FileLabels l) (gradients_parts i gradients) ->
  exists g, In g (map snd gradients) /\ In l (basic_labels g).
Proof.
  induction gradients as [|[q g] rest IH]; [intros []|]. cbn [gradients_parts]. rewrite in_app_iff. intros [H|H].
  - exists g. split; [left; reflexivity|]. unfold basic_labels. destruct H as [H|[H|H]]; [discriminate H|injection H as _ ->; left; reflexivity|].
    right. apply in_or_app. left. eapply components_labels. exact H.
  - destruct (IH H) as (g' & H1 & H2). exists g'. split; [right; exact H1|exact H2].
Qed.

Lemma blocks_labels blocks p l : forall i, In (p, FileLabels l) (blocks_parts i blocks) ->
  exists b part, In b blocks /\ In part (parts_of_block b) /\ In l (basic_labels part).
Proof.
  induction blocks as [|b rest IH]; intros i; [intros []|]. cbn [blocks_parts]. rewrite in_app_iff. intros [H|H].
  - exists b. unfold block_parts in H. rewrite in_app_iff in H. destruct H as [H|H].
    + exists (tb_values b). split; [left; reflexivity|]. split; [left; reflexivity|]. unfold basic_labels.
      destruct H as [H|[H|H]]; [discriminate H|injection H as _ ->; left; reflexivity|]. right. apply in_or_app.
      apply in_app_iff in H as [H|[H|[]]]; [left; eapply components_labels; exact H|injection H as _ ->; right; left; reflexivity].
    + apply gradients_labels in H as (g & H1 & H2). exists g. split; [left; reflexivity|]. split; [right; exact H1|exact H2].
  - destruct (IH _ H) as (b' & part & H1 & H2 & H3). exists b', part. split; [right; exact H1|auto].
Qed.

(* data which can not be read is the only reason not to write something *)
Lemma only_data_fails e t p c : wf_tensor t -> tensor_in_memory t -> describable t -> In (p, c) (parts_of t) ->
  (forall f, write_content e c <> Ok f) -> exists a, c = FileData a.
Proof.
  intros ([Hk Hkn] & Hbs & _) [Hmk Hmb] [Hdk Hdb] Hin Hf. destruct c as [l|a]; [|exists a; reflexivity]. exfalso.
  assert (Hl : wf_labels l /\ labels_names l <> [] /\ labels_in_memory l /\ describable_labels l).
  2:{ destruct Hl as (H1 & H2 & H3 & H4). destruct (labels_write_succeeds e l H1 H2 H3 H4) as [f E]. exact (Hf f E). }
  destruct Hin as [Hin|Hin]; [injection Hin as _ <-; auto|]. apply blocks_labels in Hin as (b & part & Hb & Hp & Hl).
  assert (Hw : wf_basic part).
  { rewrite Forall_forall in Hbs. destruct (Hbs b Hb) as (Hv & Hg & _). destruct Hp as [<-|Hp]; [assumption|].
    apply in_map_iff in Hp as ([q g] & <- & Hg'). rewrite Forall_forall in Hg. apply (Hg _ Hg'). }
  destruct Hw as (_ & Hax & _). rewrite Forall_forall in Hax. destruct (Hax l Hl) as [H1 H2].
  pose proof (proj1 (Hmb b part Hb Hp)) as Hm. pose proof (proj1 (Hdb b part Hb Hp)) as Hd. rewrite Forall_forall in Hm, Hd. auto.
Qed.

(* the archive of a tensor map which could not be saved is not loaded *)
Lemma unfinished_not_loaded p e t names t' : wf_tensor t -> tensor_in_memory t -> describable t ->
  snd (put_tensor e t) <> Ok tt -> Permutation names (map fst (fst (put_tensor e t))) ->
  load p names (fst (put_tensor e t)) <> Ok t'.
Proof.
  intros Ht Hm Hd Hfail Hperm Hload. rewrite put_tensor_parts in *.
  destruct (put_parts_failure _ _ Hfail) as (l1 & [part c] & l2 & a1 & El & Ha1 & Hc & Ea). cbn [fst snd] in *.
  set (a := fst (put_parts e (parts_of t))) in *.
  assert (Hin : In (part, c) (parts_of t)) by (rewrite El; apply in_elt).
  destruct (only_data_fails e t part c Ht Hm Hd Hin Hc) as (d & ->).
  destruct (parts_followed t l1 part d l2 El) as (Hns & c' & l3 & ->).
  assert (Hpaths : map fst a = map path_of (map fst l1 ++ [part])).
  { rewrite Ea, !map_app. cbn [map fst]. f_equal. apply mapM_ok in Ha1. clear - Ha1.
    induction Ha1 as [|[q c] [k f] l r H _ IH]; [reflexivity|]. cbn [map fst]. rewrite save_part_pair in H.
    apply bind_ok in H as (g & _ & H). injection H as <- <-. rewrite IH. reflexivity. }
  (* the samples are missing *)
  assert (Hmissing : forall f, by_name a (path_of (samples_of part)) <> Ok f).
  { intros f Hf. apply by_name_in in Hf. rewrite Hpaths in Hf. apply in_map_iff in Hf as (q & Hq & Hf). apply path_of_inj in Hq. subst q.
    pose proof (parts_of_nodup t Ht) as Hnd. rewrite El, map_app in Hnd. cbn [map fst] in Hnd.
    change (part :: samples_of part :: map fst l3) with ([part] ++ samples_of part :: map fst l3) in Hnd. rewrite app_assoc in Hnd.
    apply NoDup_remove_2 in Hnd. apply Hnd. apply in_or_app. left. exact Hf. }
  (* the keys are there *)
  unfold load in Hload. apply bind_ok in Hload as (kf & Hkf & Hload). apply bind_ok in Hload as (keys & Hkeys & Hload).
  apply bind_ok in Hload as (qs & Hqs & Hload). apply bind_ok in Hload as (count & Hcount & Hload).
  apply bind_ok in Hload as (blocks & Hblocks & _).
  assert (Hl1 : exists l1', l1 = (KeysPart, FileLabels (tm_keys t)) :: l1').
  { unfold parts_of in El. destruct l1 as [|x l1']; cbn [app] in El; [discriminate El|]. injection El as <- _. exists l1'. reflexivity. }
  destruct Hl1 as (l1' & El1).
  assert (Hkw : write_labels e (tm_keys t) = Ok kf).
  { rewrite El1 in Ha1. cbn [mapM] in Ha1. rewrite save_part_pair in Ha1. cbn [write_content] in Ha1.
    apply bind_ok in Ha1 as (y & Hy & Ha1). apply bind_ok in Hy as (f0 & Hf0 & Hy). injection Hy as <-.
    apply bind_ok in Ha1 as (ys & Hys & Ha1). injection Ha1 as <-.
    assert (Hnd : NoDup (map fst a)).
    { rewrite Hpaths. apply NoDup_map_inj; [exact path_of_inj|]. pose proof (parts_of_nodup t Ht) as Hnd.
      rewrite El, map_app in Hnd. cbn [map fst] in Hnd.
      change (part :: samples_of part :: map fst l3) with ([part] ++ samples_of part :: map fst l3) in Hnd. rewrite app_assoc in Hnd.
      clear - Hnd. induction (map fst l1 ++ [part]) as [|x l IH]; [constructor|]. inversion Hnd as [|? ? H1 H2]; subst.
      constructor; [|auto]. intros Hx. apply H1. apply in_or_app. left. exact Hx. }
    unfold by_name in Hkf. rewrite (In_hm_get _ String.eqb_eq (rev a) "keys.npy" f0) in Hkf.
    - injection Hkf as <-. exact Hf0.
    - rewrite map_rev. apply NoDup_rev. exact Hnd.
    - apply -> in_rev. rewrite Ea. left. reflexivity. }
  destruct Ht as ([Hwk Hkn] & Hbs & Hlen & Hsame) eqn:Et. clear Et.
  destruct (NpyFacts.labels_round_trip p e (tm_keys t) kf Hwk (proj1 Hm) Hkw) as (keys' & Hkeys' & Hsk & Hwk').
  rewrite Hkeys' in Hkeys. injection Hkeys as <-.
  assert (Ecount : count = length (tm_blocks t)).
  { apply labels_count_ok in Hcount as [_ ->]; [|exact Hwk']. rewrite Hlen. destruct Hsk as [_ ->]. reflexivity. }
  subst count.
  (* one of the blocks is not complete *)
  assert (Hgrad : forall q j b, nth_error (tm_blocks t) j = Some b -> part = GradientPart j q GradientData -> In q (map fst (tb_gradients b)) -> In q qs).
  { intros q j b Hj -> Hq. assert (Hps : exists ps, names = map path_of ps /\ Permutation ps (map fst l1 ++ [GradientPart j q GradientData])).
    { rewrite Hpaths in Hperm. apply Permutation_map_inv in Hperm as (ps & -> & Hps). exists ps. split; [reflexivity|]. symmetry. exact Hps. }
    destruct Hps as (ps & -> & Hps). rewrite gradient_parameters_saved in Hqs. injection Hqs as <-.
    apply in_flat_map. exists (GradientPart 0 q GradientData). split; [|left; reflexivity].
    apply (Permutation_in _ (Permutation_sym Hps)). apply in_or_app. destruct j as [|j]; [right; left; reflexivity|]. left.
    destruct (tm_blocks t) as [|b0 rest] eqn:Eb; [discriminate Hj|].
    destruct (first_block_before t b0 rest l1 _ _ _ Eb El) as (l & ->); [discriminate|discriminate|].
    right. rewrite map_app. apply in_or_app. left.
    assert (Hq0 : In q (map fst (tb_gradients b0))).
    { apply in_map_iff in Hq as ([q' g] & E & Hg). cbn [fst] in E. subst q'.
      assert (Hs : same_names b b0) by (apply Hsame; [eapply nth_error_In; exact Hj|left; reflexivity]).
      destruct Hs as (_ & _ & _ & Hs & _). destruct (Hs q g Hg) as (g2 & Hg2 & _). apply in_map_iff. exists (q, g2). auto. }
    apply in_map_iff in Hq0 as ([q' g] & <- & Hg). cbn [fst].
    unfold block_parts. rewrite map_app. apply in_or_app. right. clear - Hg.
    induction (tb_gradients b0) as [|[q1 g1] gs IH]; [destruct Hg|]. cbn [gradients_parts]. rewrite map_app. apply in_or_app.
    destruct Hg as [Hg|Hg]; [injection Hg as -> ->; left; left; reflexivity|right; auto]. }
  destruct Hin as [Hin|Hin]; [discriminate Hin|].
  apply blocks_data_part in Hin as (j & b & Hj & Hp). cbn [Nat.add] in Hp.
  assert (Hjl : In j (seq 0 (length (tm_blocks t)))) by (apply in_seq; split; [lia|]; apply nth_error_Some; congruence).
  destruct (mapM_each _ _ _ _ Hblocks Hjl) as (b' & Hb'). unfold load_block in Hb'.
  apply bind_ok in Hb' as (f1 & _ & Hb'). apply bind_ok in Hb' as (d1 & _ & Hb'). apply bind_ok in Hb' as (f2 & Hf2 & Hb').
  destruct Hp as [->|(q & -> & Hq)].
  - exact (Hmissing f2 Hf2).
  - apply bind_ok in Hb' as (s2 & _ & Hb'). apply bind_ok in Hb' as (c2 & _ & Hb'). apply bind_ok in Hb' as (f3 & _ & Hb').
    apply bind_ok in Hb' as (p3 & _ & Hb'). apply bind_ok in Hb' as (block & _ & Hb').
    destruct (foldM_each _ _ _ _ _ Hb' (Hgrad q j b Hj eq_refl Hq)) as (s3 & s4 & Hg). unfold load_gradient in Hg.
    apply bind_ok in Hg as (f4 & _ & Hg). apply bind_ok in Hg as (d4 & _ & Hg). apply bind_ok in Hg as (f5 & Hf5 & _).
    exact (Hmissing f5 Hf5).
Qed.

(** * Programs *)

Lemma call_files p files calls i thread c v r name :
  called p (world_start files) calls i thread c v r -> ~ writes_file c name ->
  file_at (state_at p (world_start files) calls (S i)) name = file_at (state_at p (world_start files) calls i) name.
Proof.
  intros Hc Hn. pose proof (called_step _ _ _ _ _ _ _ _ Hc) as Hstep. apply run_call_fields in Hstep as (w1 & o & Hb & _ & _ & _ & _ & Hf & _).
  unfold file_at. rewrite Hf. pose proof (call_body_files p thread (state_at p (world_start files) calls i) c name Hn) as H.
  rewrite Hb in H. exact H.
Qed.

Lemma only_saving_writes p files calls i thread c v r name :
  called p (world_start files) calls i thread c v r ->
  file_at (state_at p (world_start files) calls (S i)) name <> file_at (state_at p (world_start files) calls i) name ->
  exists path tensor system remains, c = TensorSave (Some path) tensor system remains /\ c_str path = name.
Proof.
  intros Hc Hne. destruct c; try (exfalso; apply Hne; apply (call_files _ _ _ _ _ _ _ _ _ Hc); cbn; tauto).
  destruct path as [path|]; [|exfalso; apply Hne; apply (call_files _ _ _ _ _ _ _ _ _ Hc); cbn; tauto].
  destruct (string_dec (c_str path) name) as [E|E]; [eauto 10|]. exfalso. apply Hne. apply (call_files _ _ _ _ _ _ _ _ _ Hc). cbn. tauto.
Qed.

(* what happens to the file *)
Lemma save_steps p files calls i thread path tensor system remains v r :
  called p (world_start files) calls i thread (TensorSave path tensor system remains) v r ->
  let before := state_at p (world_start files) calls i in
  let after := state_at p (world_start files) calls (S i) in
  (r <> Returned 0 /\ w_files after = w_files before
    /\ ~ exists memory q h t, path = Some memory /\ c_str_to_str "use UTF-8 for path" memory = Ok q /\ tensor = Some h /\ system = None
         /\ hm_get Nat.eqb (w_tensors before) h = Some t)
  \/ exists memory h t, path = Some memory /\ tensor = Some h /\ system = None /\ hm_get Nat.eqb (w_tensors before) h = Some t
      /\ match save LittleEndian (ot_tensor t) with
         | Ok content => r = Returned 0 /\ file_at after (c_str memory) = Some (Some content)
         | _ => r <> Returned 0 /\ file_at after (c_str memory) = Some remains
         end.
Proof.
  intros Hc before after. pose proof (called_step _ _ _ _ _ _ _ _ Hc) as Hstep. fold before after in Hstep.
  pose proof (run_call_zero _ _ _ _ _ _ _ (state_plain p files calls i) Hstep) as Hz. fold before in Hz.
  apply run_call_fields in Hstep as (w1 & o & Hb & _ & _ & _ & _ & Hf & _).
  assert (Hr : r = Returned 0 <-> o = Ok tt).
  { rewrite Hz. rewrite Hb. split; [intros (w2 & E); injection E as _ ->; reflexivity|intros ->; exists w1; reflexivity]. }
  clear Hz. cbn [call_body] in Hb. unfold eqs_tensormap_save in Hb. cbv zeta in Hb.
  match type of Hb with match ?x with Ok _ => _ | Err _ => _ | Panic _ => _ | Undefined _ => _ end = _ =>
    destruct x as [[path' t]|e|m|u] eqn:E end.
  - destruct path as [memory|]; [|discriminate E]. cbn [check_pointer bind] in E.
    destruct tensor as [h|]; [|discriminate E]. cbn [check_pointer bind] in E.
    apply bind_ok in E as (path1 & Hp & E). apply c_str_to_str_ok in Hp. apply bind_ok in E as (u & Hs & E).
    apply bind_ok in E as (t1 & Ht & E). injection E as -> ->. subst path'. destruct system as [|]; [discriminate Hs|].
    right. exists memory, h, t. split; [reflexivity|]. split; [reflexivity|]. split; [reflexivity|]. split; [apply get_tensor_ok; exact Ht|].
    unfold file_at. rewrite Hf.
    destruct (save LittleEndian (ot_tensor t)) as [content|e|m|x]; injection Hb as <- <- <-; (split; [rewrite Hr|]); cbn [bind];
      try discriminate; try reflexivity; unfold write_file, set_files; cbn [w_files hm_get]; rewrite String.eqb_refl; reflexivity.
  - left. injection Hb as <- <- <-. split; [rewrite Hr; discriminate|]. split; [exact Hf|].
    intros (memory & q & h & t & -> & Hq & -> & -> & Ht). cbn [check_pointer bind] in E. rewrite Hq in E. cbn [bind] in E.
    rewrite (proj2 (get_tensor_ok _ _ _) Ht) in E. discriminate E.
  - left. injection Hb as <- <- <-. split; [rewrite Hr; discriminate|]. split; [exact Hf|].
    intros (memory & q & h & t & -> & Hq & -> & -> & Ht). cbn [check_pointer bind] in E. rewrite Hq in E. cbn [bind] in E.
    rewrite (proj2 (get_tensor_ok _ _ _) Ht) in E. discriminate E.
  - left. injection Hb as <- <- <-. split; [rewrite Hr; discriminate|]. split; [exact Hf|].
    intros (memory & q & h & t & -> & Hq & -> & -> & Ht). cbn [check_pointer bind] in E. rewrite Hq in E. cbn [bind] in E.
    rewrite (proj2 (get_tensor_ok _ _ _) Ht) in E. discriminate E.
Qed.

Lemma state_tensor p files calls i h t : never_crashed p (world_start files) calls -> ordinary p (world_start files) calls ->
  (tensor_at (state_at p (world_start files) calls i) h t <-> hm_get Nat.eqb (w_tensors (state_at p (world_start files) calls i)) h = Some t).
Proof.
  intros Hn Ho. pose proof (own_tensors _ _ (owners_state p files calls Hn i)) as [Hnd _]. split.
  - apply (BaseFacts.In_hm_get _ Nat.eqb_eq _ _ _ Hnd).
  - apply hm_get_at.
Qed.

Lemma saved_content p files calls i thread path h system remains v t :
  never_crashed p (world_start files) calls -> ordinary p (world_start files) calls ->
  called p (world_start files) calls i thread (TensorSave (Some path) (Some h) system remains) v (Returned 0) ->
  tensor_at (state_at p (world_start files) calls i) h t -> tensor_in_memory (ot_tensor t) ->
  exists content, file_at (state_at p (world_start files) calls (S i)) (c_str path) = Some (Some content) /\ conforming (ot_tensor t) content.
Proof.
  intros Hn Ho Hc Ht Hm. apply (state_tensor p files calls i h t Hn Ho) in Ht.
  destruct (save_steps _ _ _ _ _ _ _ _ _ _ _ Hc) as [[H _]|(memory & h' & t' & E1 & E2 & _ & Ht' & Hs)]; [congruence|].
  injection E1 as <-. injection E2 as <-. rewrite Ht in Ht'. injection Ht' as <-.
  destruct (save LittleEndian (ot_tensor t)) as [content|e|m|x] eqn:Es; [|destruct Hs; congruence..]. destruct Hs as [_ Hs].
  exists content. split; [exact Hs|]. pose proof (valid_state p files calls Ho i) as Hval. destruct (valid_tensor _ _ _ Hval Ht) as [Hwf _].
  exact (save_conforming _ _ _ Hwf Hm Es).
Qed.

Lemma failed_save_keeps p files calls i thread path tensor system remains v r name :
  never_crashed p (world_start files) calls -> ordinary p (world_start files) calls ->
  called p (world_start files) calls i thread (TensorSave path tensor system remains) v r -> r <> Returned 0 ->
  (forall h t, tensor = Some h -> tensor_at (state_at p (world_start files) calls i) h t ->
     tensor_in_memory (ot_tensor t) /\ describable (ot_tensor t) /\ readable_tensor (ot_tensor t)) ->
  file_at (state_at p (world_start files) calls (S i)) name = file_at (state_at p (world_start files) calls i) name.
Proof.
  intros Hn Ho Hc Hr Ht. destruct (save_steps _ _ _ _ _ _ _ _ _ _ _ Hc) as [(_ & E & _)|(memory & h & t & -> & -> & -> & Hh & Hs)].
  - unfold file_at. rewrite E. reflexivity.
  - exfalso. destruct (Ht h t eq_refl) as (Hm & Hd & Hread); [apply (state_tensor p files calls i h t Hn Ho); exact Hh|].
    pose proof (valid_state p files calls Ho i) as Hval. destruct (valid_tensor _ _ _ Hval Hh) as [Hwf _].
    destruct (save_succeeds LittleEndian _ Hwf Hm Hd Hread) as [a Ha]. rewrite Ha in Hs. destruct Hs. contradiction.
Qed.

Lemma unfinished_refused p files calls i j t1 t2 path h t v1 r1 path' names temporary v2 r2 :
  never_crashed p (world_start files) calls -> ordinary p (world_start files) calls ->
  called p (world_start files) calls i t1 (TensorSave (Some path) (Some h) None (unfinished (ot_tensor t))) v1 r1 -> r1 <> Returned 0 ->
  tensor_at (state_at p (world_start files) calls i) h t -> tensor_in_memory (ot_tensor t) -> describable (ot_tensor t) ->
  i < j ->
  (forall k thread c v r, i < k < j -> called p (world_start files) calls k thread c v r -> ~ writes_file c (c_str path)) ->
  called p (world_start files) calls j t2 (TensorLoad (Some path') names temporary) v2 r2 ->
  c_str path' = c_str path -> lists_archive (state_at p (world_start files) calls j) (c_str path) names ->
  r2 <> Returned 0 /\ v2 = VTensor None [].
Proof.
  intros Hn Ho Hi Hr1 Ht Hm Hd Hij Hk Hj Hpath Hl. set (sj := state_at p (world_start files) calls j) in *.
  apply (state_tensor p files calls i h t Hn Ho) in Ht.
  pose proof (valid_state p files calls Ho i) as Hval. destruct (valid_tensor _ _ _ Hval Ht) as [Hwf _].
  pose proof (called_step _ _ _ _ _ _ _ _ Hj) as Hstep. fold sj in Hstep.
  pose proof (run_call_zero _ _ _ _ _ _ _ (state_plain p files calls j) Hstep) as Hz. fold sj in Hz.
  apply run_call_fields in Hstep as (w1 & o & Hb & _). rewrite Hb in Hz.
  assert (Hno : forall tensor, (let? path := c_str_to_str "use UTF-8 for path" path' in
      let? content := open_file sj path in load p names content) <> Ok tensor).
  { intros tensor E. apply bind_ok in E as (q & Hq & E). apply bind_ok in E as (content & Hf & E).
    pose proof (c_str_to_str_ok _ _ _ Hq) as ->. rewrite Hpath in Hf.
    assert (Hkept : file_at sj (c_str path) = file_at (state_at p (world_start files) calls (S i)) (c_str path)).
    { apply file_kept; [lia|]. intros k th c v r Hr. apply Hk. lia. }
    destruct (save_steps _ _ _ _ _ _ _ _ _ _ _ Hi) as [(_ & _ & Hbad)|(memory & h' & t' & E1 & E2 & _ & Ht' & Hs)].
    - apply Hbad. exists path, (c_str path), h, t. split; [reflexivity|]. split; [|auto]. unfold c_str_to_str in *. cbv zeta in *.
      rewrite <- Hpath. exact Hq.
    - injection E1 as <-. injection E2 as <-. rewrite Ht in Ht'. injection Ht' as <-.
      assert (Hfile : file_at sj (c_str path) = Some (unfinished (ot_tensor t)) /\ snd (put_tensor LittleEndian (ot_tensor t)) <> Ok tt).
      { rewrite Hkept. pose proof (put_tensor_save LittleEndian (ot_tensor t)) as Hp.
        destruct (save LittleEndian (ot_tensor t)) as [a|e|m|x]; destruct Hs as [Hs1 Hs2]; [contradiction|..]; (split; [exact Hs2|rewrite Hp; discriminate]). }
      destruct Hfile as [Hfile Hbad]. unfold open_file in Hf. unfold file_at in Hfile. rewrite Hfile in Hf. injection Hf as <-.
      exact (unfinished_not_loaded p LittleEndian (ot_tensor t) names tensor Hwf Hm Hd Hbad (Hl _ Hfile) E). }
  cbn [call_body] in Hb. unfold eqs_tensormap_load in Hb. cbv zeta in Hb. cbn [check_pointer bind] in Hb.
  match type of Hb with match ?x with Ok _ => _ | Err _ => _ | Panic _ => _ | Undefined _ => _ end = _ =>
    destruct x as [tensor|e|m|u] eqn:E end; [exfalso; exact (Hno tensor eq_refl)|..].
  all: injection Hb as <- <- <-; split; [|reflexivity]; rewrite Hz; intros (w2 & E2); discriminate E2.
Qed.

(* nothing but the end of what comes after the last seek can be missing *)
Lemma suffix_of_writes ops p footer : forall before after,
  ops ++ SeekTo p :: map WriteAll footer = before ++ map WriteAll after ->
  exists footer', footer = footer' ++ after /\ before = ops ++ SeekTo p :: map WriteAll footer'.
Proof.
  induction ops as [|op ops IH]; cbn [app]; intros before after E.
  - destruct before as [|b before]; [destruct after; discriminate E|]. injection E as <- E.
    cut (exists footer', footer = footer' ++ after /\ before = map WriteAll footer').
    { intros (f' & -> & ->). exists f'. split; reflexivity. }
    clear - E. revert footer E. induction before as [|b before IH]; cbn [app]; intros footer E.
    + exists []. split; [|reflexivity]. cbn [app]. revert after E. induction footer as [|x footer IH]; intros [|y after] E; cbn [map] in E; try discriminate E; [reflexivity|].
      injection E as <- E. f_equal. apply IH. exact E.
    + destruct footer as [|x footer]; cbn [map] in E; [discriminate E|]. injection E as <- E. destruct (IH _ E) as (f' & -> & ->). exists (x :: f'). split; reflexivity.
  - destruct before as [|b before]; cbn [app] in E.
    + exfalso. destruct after as [|a after]; [discriminate E|]. injection E as _ E. clear IH a.
      revert after E. induction ops as [|op' ops IH]; cbn [app]; intros [|a after] E; try discriminate E. injection E as _ E. eauto.
    + injection E as <- E. destruct (IH _ _ E) as (f' & E1 & ->). exists f'. split; [exact E1|reflexivity].
Qed.

Lemma written_but_footer answers ops p footer content :
  write_through answers (ops ++ SeekTo p :: map WriteAll footer) = (content, true) ->
  exists n, length (concat footer) <= n + capacity
    /\ all_written (ops ++ [SeekTo p; WriteAll (firstn n (concat footer))]) content.
Proof.
  intros H. destruct (written_but_buffer _ _ _ H) as (before & after & n & E & Hlen & Hw).
  destruct (suffix_of_writes _ _ _ _ _ E) as (footer' & -> & ->). rewrite concat_app.
  exists (length (concat footer') + n). rewrite app_length. split; [lia|].
  revert Hw. unfold all_written. rewrite firstn_app_2.
  replace (byte_writes 0 ((ops ++ SeekTo p :: map WriteAll footer') ++ [WriteAll (firstn n (concat after))]))
    with (byte_writes 0 (ops ++ [SeekTo p; WriteAll (concat footer' ++ firstn n (concat after))])); [intros Hw; exact Hw|].
  rewrite <- app_assoc. cbn [app]. rewrite !(byte_writes_app ops). cbn [byte_writes]. f_equal.
  rewrite byte_writes_app, byte_writes_all, end_position_all. cbn [byte_writes]. rewrite !app_nil_r. apply placed_app.
Qed.
