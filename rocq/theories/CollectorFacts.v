(* Facts about copies and the garbage collector *)
From Verif Require Import Base BaseFacts Collector SpecCollector.
Local Open Scope list_scope.
Local Open Scope nat_scope.

Lemma execution_app s before rest :
  execution s (before ++ rest) = (let? s' := execution s before in execution s' rest).
Proof.
  revert s. induction before as [|e before IH]; intros s; [reflexivity|]. cbn [app execution].
  destruct (happens s e); cbn [bind]; [apply IH|reflexivity..].
Qed.

(* a property of states which is kept by all events *)
Lemma execution_invariant enabled blocks (I : collector -> Prop) events :
  I (collector_start enabled blocks) ->
  (forall e s s', happens_in enabled blocks events e s -> I s -> happens s e = Ok s' -> I s') ->
  forall s, after enabled blocks events s -> I s.
Proof.
  intros H0 Hstep s. unfold after.
  enough (G : forall rest before s0, events = before ++ rest -> after enabled blocks before s0 -> I s0 ->
    forall s, execution s0 rest = Ok s -> I s).
  { apply (G events [] _ eq_refl eq_refl H0). }
  clear s. induction rest as [|e rest IH]; intros before s0 E Ha Hi s H; cbn [execution] in H; [injection H as <-; exact Hi|].
  destruct (happens s0 e) as [s1|?|?|?] eqn:Es; try discriminate H. cbn [bind] in H.
  apply (IH (before ++ [e]) s1) in H; [exact H|rewrite <- app_assoc; exact E| |].
  - unfold after in *. rewrite execution_app, Ha. cbn [bind execution]. rewrite Es. reflexivity.
  - apply (Hstep e s0); [exists before, rest; auto|exact Hi|exact Es].
Qed.

(* an event changes at most one thread *)
Lemma set_place_nth s thread t p i t' : nth_error (gc_threads s) thread = Some t ->
  nth_error (set_place s thread t p) i = Some t' ->
  (i = thread /\ t' = mk_copier (co_arrays t) p) \/ (i <> thread /\ nth_error (gc_threads s) i = Some t').
Proof.
  unfold set_place. intros Ht. rewrite nth_error_set_nth. destruct (Nat.eqb_spec i thread) as [->|Hne].
  - assert (Hl : thread < length (gc_threads s)) by (apply nth_error_Some; congruence).
    destruct (Nat.ltb_spec thread (length (gc_threads s))); [|lia]. cbn [andb]. intros E. injection E as <-. auto.
  - cbn [andb]. auto.
Qed.

(** * Whether the collector is enabled *)

Lemma has_disabled_dec p : has_disabled p \/ ~ has_disabled p.
Proof. destruct p as [| |[] ? ?|[] ? ?|?|?|? ?|]; cbn; tauto. Qed.

Lemma enabled_after enabled blocks events s : after enabled blocks events s ->
  (enabled = false -> gc_enabled s = false)
  /\ (enabled = true -> gc_enabled s = true
      \/ (exists thread p, is_at s thread p /\ has_disabled p)
      \/ exists thread s0 p, happens_in enabled blocks events (Raise thread) s0 /\ is_at s0 thread p /\ has_disabled p).
Proof.
  intros H. enough (G : (enabled = false -> gc_enabled s = false /\ forall thread p, is_at s thread p -> p <> Disabling /\ ~ has_disabled p)
    /\ (enabled = true -> gc_enabled s = true
      \/ (exists thread p, is_at s thread p /\ has_disabled p)
      \/ exists thread s0 p, happens_in enabled blocks events (Raise thread) s0 /\ is_at s0 thread p /\ has_disabled p)).
  { destruct G as [G1 G2]. split; [apply G1|exact G2]. }
  revert s H. apply execution_invariant.
  - split; intros ->; [|left; reflexivity]. split; [reflexivity|]. intros thread p (t & Ht & <-).
    cbn [collector_start gc_threads] in Ht. apply nth_error_In, in_map_iff in Ht as (arrays & <- & _). split; [discriminate|intros []].
  - intros e s s' He [H1 H2] Hs. destruct e as [thread|thread| |]; cbn [happens] in Hs.
    + destruct (nth_error (gc_threads s) thread) as [t|] eqn:Et; [|injection Hs as <-; auto].
      destruct (next_step s t) as [[[en nx] p]|?|?|?] eqn:En; try discriminate Hs. cbn [bind] in Hs. injection Hs as <-.
      assert (Hat : is_at s thread (co_place t)) by (exists t; auto).
      split; intros Hen.
      * destruct (H1 Hen) as [Hg Hp]. cbn [gc_enabled]. assert (Hp' : en = false /\ p <> Disabling /\ ~ has_disabled p).
        { destruct (Hp _ _ Hat) as [Hd Hh]. unfold next_step in En. rewrite Hg in En.
          destruct (co_place t) as [| |reset [|python todo] made|reset [|o todo] taken|taken|taken|[|o todo] taken|] eqn:Ep.
          - injection En as <- <- <-. split; [reflexivity|]. split; [discriminate|intros []].
          - contradiction Hd; reflexivity.
          - injection En as <- <- <-. split; [reflexivity|]. split; [discriminate|exact Hh].
          - destruct python; injection En as <- <- <-; (split; [reflexivity|]; split; [discriminate|exact Hh]).
          - injection En as <- <- <-. split; [reflexivity|]. destruct reset; [contradiction Hh; exact I|]. split; [discriminate|intros []].
          - destruct (use s o); try discriminate En. injection En as <- <- <-. split; [reflexivity|]. split; [discriminate|exact Hh].
          - contradiction Hh; exact I.
          - injection En as <- <- <-. split; [reflexivity|]. split; [discriminate|intros []].
          - injection En as <- <- <-. split; [reflexivity|]. split; [discriminate|intros []].
          - destruct (use s o); try discriminate En. injection En as <- <- <-. split; [reflexivity|]. split; [discriminate|intros []].
          - injection En as <- <- <-. split; [reflexivity|]. split; [discriminate|intros []]. }
        destruct Hp' as (-> & Hd & Hh). split; [reflexivity|]. intros i q (t' & Ht' & <-). cbn [gc_threads] in Ht'.
        apply (set_place_nth _ _ _ _ _ _ Et) in Ht' as [[-> ->]|[Hne Ht']]; [split; assumption|]. apply (Hp i). exists t'. auto.
      * cbn [gc_enabled]. destruct en; [left; reflexivity|]. right.
        assert (Hthread : forall q, q = p -> is_at (mk_collector false nx (gc_freed s) (set_place s thread t p)) thread q).
        { intros q ->. exists (mk_copier (co_arrays t) p). split; [|reflexivity]. cbn [gc_threads]. unfold set_place.
          rewrite nth_error_set_nth, Nat.eqb_refl. assert (Hl : thread < length (gc_threads s)) by (apply nth_error_Some; congruence).
          apply Nat.ltb_lt in Hl. rewrite Hl. reflexivity. }
        destruct (has_disabled_dec p) as [Hd|Hd]; [left; exists thread, p; auto|].
        (* the thread can not stop having disabled without enabling *)
        assert (Hbefore : gc_enabled s = false /\ ~ has_disabled (co_place t)).
        { unfold next_step in En.
          destruct (co_place t) as [| |reset [|python todo] made|reset [|o todo] taken|taken|taken|[|o todo] taken|] eqn:Ep.
          - injection En as E1 E2 E3. split; [exact E1|intros []].
          - injection En as E2 <-. contradiction Hd. exact I.
          - injection En as E1 E2 <-. split; [exact E1|exact Hd].
          - destruct python; injection En as E1 E2 <-; (split; [exact E1|exact Hd]).
          - injection En as E1 E2 <-. split; [exact E1|]. destruct reset; [contradiction Hd; exact I|intros []].
          - destruct (use s o); try discriminate En. injection En as E1 E2 <-. split; [exact E1|exact Hd].
          - discriminate En.
          - injection En as E1 E2 <-. split; [exact E1|intros []].
          - injection En as E1 E2 <-. split; [exact E1|intros []].
          - destruct (use s o); try discriminate En. injection En as E1 E2 <-. split; [exact E1|intros []].
          - injection En as E1 E2 <-. split; [exact E1|intros []]. }
        destruct Hbefore as [Hg Hnd]. destruct (H2 Hen) as [H|[(i & q & (t' & Ht' & <-) & Hq)|H]]; [congruence| |right; exact H].
        left. exists i, (co_place t'). split; [|exact Hq]. exists t'. split; [|reflexivity]. cbn [gc_threads]. unfold set_place.
        rewrite nth_error_set_nth. destruct (Nat.eqb_spec i thread) as [->|Hne]; [|exact Ht']. exfalso. apply Hnd. congruence.
    + destruct (nth_error (gc_threads s) thread) as [t|] eqn:Et; [|injection Hs as <-; auto]. injection Hs as <-.
      split; intros Hen.
      * destruct (H1 Hen) as [Hg Hp]. split; [exact Hg|]. intros i q (t' & Ht' & <-). cbn [gc_threads] in Ht'.
        apply (set_place_nth _ _ _ _ _ _ Et) in Ht' as [[-> ->]|[Hne Ht']]; [|apply (Hp i); exists t'; auto].
        cbn [co_place]. destruct (co_place t); cbn [raise_at]; (split; [discriminate|intros []]).
      * cbn [gc_enabled]. destruct (has_disabled_dec (co_place t)) as [Hd|Hd].
        { right. right. exists thread, s, (co_place t). split; [exact He|]. split; [exists t; auto|exact Hd]. }
        destruct (H2 Hen) as [H|[(i & q & (t' & Ht' & <-) & Hq)|H]]; [left; exact H| |right; right; exact H].
        right. left. exists i, (co_place t'). split; [|exact Hq]. exists t'. split; [|reflexivity]. cbn [gc_threads]. unfold set_place.
        rewrite nth_error_set_nth. destruct (Nat.eqb_spec i thread) as [->|Hne]; [|exact Ht']. exfalso. apply Hd. congruence.
    + injection Hs as <-. destruct (gc_enabled s) eqn:Eg; [|rewrite Eg in *; auto].
      split; intros Hen; [destruct (H1 Hen); congruence|left; exact Eg].
    + injection Hs as <-. auto.
Qed.

Lemma enabled_at_the_end enabled blocks events s : after enabled blocks events s ->
  (forall thread p, is_at s thread p -> ended p) ->
  gc_enabled s = enabled
  \/ (enabled = true /\ exists thread s0 p, happens_in enabled blocks events (Raise thread) s0 /\ is_at s0 thread p /\ has_disabled p).
Proof.
  intros H Hend. destruct (enabled_after _ _ _ _ H) as [H1 H2]. destruct enabled; [|left; auto].
  destruct (H2 eq_refl) as [E|[(i & p & Hp & Hd)|E]]; [left; exact E| |right; auto].
  exfalso. specialize (Hend i p Hp). destruct p as [| |[] ? ?|[] ? ?|?|?|? ?|]; cbn in Hend, Hd; contradiction.
Qed.

(** * Objects *)

Definition objects (p : place) : list nat :=
  match p with
  | Copying _ _ made => made
  | Taking _ todo taken => taken ++ todo
  | Enabling taken | Finished taken => taken
  | Undoing todo _ => todo
  | _ => []
  end.

Definition counted (arrays : list bool) (p : place) : Prop :=
  match p with
  | Copying _ todo made => length made + count_occ Bool.bool_dec todo true = count_occ Bool.bool_dec arrays true
  | Taking _ todo taken => length taken + length todo = count_occ Bool.bool_dec arrays true
  | Enabling taken | Finished taken => length taken = count_occ Bool.bool_dec arrays true
  | _ => True
  end.

Record sound (blocks : list (list bool)) (s : collector) : Prop := {
  so_disabled : forall thread p, is_at s thread p -> in_copy p -> gc_enabled s = false;
  so_alive : forall thread p o, is_at s thread p -> In o (objects p) -> o < gc_next s /\ ~ In o (gc_freed s);
  so_nodup : forall thread p, is_at s thread p -> NoDup (objects p);
  so_disjoint : forall thread p other q o, thread <> other -> is_at s thread p -> is_at s other q ->
    In o (objects p) -> ~ In o (objects q);
  so_freed : forall o, In o (gc_freed s) -> o < gc_next s;
  so_counted : forall thread t, nth_error (gc_threads s) thread = Some t -> counted (co_arrays t) (co_place t);
  so_arrays : map co_arrays (gc_threads s) = blocks;
}.

Lemma sound_start enabled blocks : sound blocks (collector_start enabled blocks).
Proof.
  assert (H : forall thread p, is_at (collector_start enabled blocks) thread p -> p = Before).
  { intros thread p (t & Ht & <-). cbn [collector_start gc_threads] in Ht. apply nth_error_In, in_map_iff in Ht as (a & <- & _). reflexivity. }
  constructor.
  - intros i p Hp Hc. rewrite (H _ _ Hp) in Hc. destruct Hc.
  - intros i p o Hp Ho. rewrite (H _ _ Hp) in Ho. destruct Ho.
  - intros i p Hp. rewrite (H _ _ Hp). constructor.
  - intros i p j q o _ Hp _ Ho. rewrite (H _ _ Hp) in Ho. destruct Ho.
  - intros o [].
  - intros i t Ht. rewrite (H i (co_place t)) by (exists t; auto). exact I.
  - cbn [collector_start gc_threads]. rewrite map_map. cbn [co_arrays]. apply map_id.
Qed.

Lemma sound_collect blocks s : sound blocks s -> (forall thread p, is_at s thread p -> ~ in_copy p) -> sound blocks (collect s).
Proof.
  intros [S1 S2 S3 S4 S5 S6 S7] Hno. constructor; try assumption.
  - intros i p o Hp Ho. destruct (S2 i p o Hp Ho) as [Hlt Hf]. split; [exact Hlt|]. cbn [collect gc_freed]. rewrite in_app_iff.
    intros [Hin|Hin]; [exact (Hf Hin)|]. apply filter_In in Hin as [_ Hk]. apply negb_true_iff in Hk.
    assert (Hex : existsb (Nat.eqb o) (flat_map (fun t => referenced (co_place t)) (gc_threads s)) = true); [|congruence].
    apply existsb_exists. exists o. split; [|apply Nat.eqb_refl]. apply in_flat_map. destruct Hp as (t & Ht & E).
    exists t. split; [exact (nth_error_In _ _ Ht)|]. rewrite E. specialize (Hno i p ltac:(exists t; auto)).
    destruct p; cbn in *; try contradiction; exact Ho.
  - cbn [collect gc_freed gc_next]. intros o Hin. apply in_app_or in Hin as [Hin|Hin]; [auto|]. apply filter_In in Hin as [Hin _].
    apply in_seq in Hin. lia.
Qed.

Lemma use_alive s o : ~ In o (gc_freed s) -> use s o = Ok tt.
Proof.
  intros H. unfold use. destruct (existsb (Nat.eqb o) (gc_freed s)) eqn:E; [|reflexivity].
  apply existsb_exists in E as (x & Hin & Ex). apply Nat.eqb_eq in Ex. subst x. contradiction.
Qed.

(* changing the place of a thread *)
Lemma sound_place blocks s thread t en nx p :
  sound blocks s -> nth_error (gc_threads s) thread = Some t ->
  gc_next s <= nx ->
  (forall o, In o (objects p) -> In o (objects (co_place t)) \/ (o = gc_next s /\ gc_next s < nx)) ->
  NoDup (objects p) -> counted (co_arrays t) p ->
  (in_copy p -> en = false) ->
  (gc_enabled s = false -> en = true -> forall other q, other <> thread -> is_at s other q -> ~ in_copy q) ->
  sound blocks (mk_collector en nx (gc_freed s) (set_place s thread t p)).
Proof.
  intros [S1 S2 S3 S4 S5 S6 S7] Et Hnx Hobj Hnd Hcount Hen Hother.
  assert (Hat : is_at s thread (co_place t)) by (exists t; auto).
  assert (Hcase : forall i q, is_at (mk_collector en nx (gc_freed s) (set_place s thread t p)) i q ->
    (i = thread /\ q = p) \/ (i <> thread /\ is_at s i q)).
  { intros i q (t' & Ht' & <-). cbn [gc_threads] in Ht'. apply (set_place_nth _ _ _ _ _ _ Et) in Ht' as [[-> ->]|[Hne Ht']]; [left; auto|].
    right. split; [exact Hne|]. exists t'. auto. }
  assert (Hfresh : forall i q, is_at s i q -> ~ In (gc_next s) (objects q)).
  { intros i q Hq Hin. destruct (S2 i q _ Hq Hin). lia. }
  constructor; cbn [gc_enabled gc_next gc_freed gc_threads].
  - intros i q Hq Hc. destruct (Hcase i q Hq) as [[-> ->]|[Hne Hq']]; [auto|].
    destruct en; [|reflexivity]. exfalso. apply (Hother (S1 i q Hq' Hc) eq_refl i q Hne Hq'). exact Hc.
  - intros i q o Hq Ho. destruct (Hcase i q Hq) as [[-> ->]|[Hne Hq']].
    + destruct (Hobj o Ho) as [Hold|[-> Hlt]].
      * destruct (S2 thread _ o Hat Hold). split; [lia|assumption].
      * split; [lia|]. intros Hf. apply S5 in Hf. lia.
    + destruct (S2 i q o Hq' Ho). split; [lia|assumption].
  - intros i q Hq. destruct (Hcase i q Hq) as [[-> ->]|[Hne Hq']]; [exact Hnd|exact (S3 i q Hq')].
  - intros i q j r o Hij Hq Hr Ho Hin. destruct (Hcase i q Hq) as [[-> ->]|[Hne Hq']], (Hcase j r Hr) as [[-> ->]|[Hne' Hr']].
    + contradiction Hij. reflexivity.
    + destruct (Hobj o Ho) as [Hold|[-> _]]; [exact (S4 thread _ j r o Hij Hat Hr' Hold Hin)|exact (Hfresh j r Hr' Hin)].
    + destruct (Hobj o Hin) as [Hold|[-> _]]; [exact (S4 i q thread _ o Hij Hq' Hat Ho Hold)|exact (Hfresh i q Hq' Ho)].
    + exact (S4 i q j r o Hij Hq' Hr' Ho Hin).
  - intros o Hin. apply S5 in Hin. lia.
  - intros i t' Ht'. apply (set_place_nth _ _ _ _ _ _ Et) in Ht' as [[-> ->]|[Hne Ht']]; [exact Hcount|exact (S6 i t' Ht')].
  - unfold set_place. rewrite <- S7. clear - Et. revert thread Et. generalize (gc_threads s). intros l. induction l as [|x l IH]; intros [|i] Et; cbn in *; try congruence.
    f_equal. apply IH. exact Et.
Qed.

Lemma NoDup_snoc_nat (l : list nat) x : NoDup l -> ~ In x l -> NoDup (l ++ [x]).
Proof.
  intros H Hx. induction H as [|y l Hy H IH]; cbn [app]; [repeat constructor; auto|]. constructor.
  - rewrite in_app_iff. intros [Hin|[->|[]]]; [contradiction|]. apply Hx. left. reflexivity.
  - apply IH. intros Hin. apply Hx. right. exact Hin.
Qed.

Lemma sound_step blocks s thread :
  sound blocks s ->
  (forall taken other p, is_at s thread (Enabling taken) -> other <> thread -> is_at s other p -> ~ in_copy p) ->
  exists s', happens s (Step thread) = Ok s' /\ sound blocks s'.
Proof.
  intros Hs Hsep. cbn [happens]. destruct (nth_error (gc_threads s) thread) as [t|] eqn:Et; [|eauto].
  assert (Hat : is_at s thread (co_place t)) by (exists t; auto).
  pose proof (so_counted _ _ Hs _ _ Et) as Hc. pose proof (so_nodup _ _ Hs _ _ Hat) as Hnd.
  pose proof (fun o => so_alive _ _ Hs thread _ o Hat) as Hal.
  pose proof (so_disabled _ _ Hs thread _ Hat) as Hdis.
  assert (Hkeep : gc_enabled s = false -> gc_enabled s = true -> forall other q, other <> thread -> is_at s other q -> ~ in_copy q) by congruence.
  assert (Hoff : gc_enabled s = false -> false = true -> forall other q, other <> thread -> is_at s other q -> ~ in_copy q) by discriminate.
  destruct (next_step s t) as [[[en nx] p]|e|m|u] eqn:En; cbn [bind].
  2-4: exfalso; unfold next_step in En; destruct (co_place t) as [| |reset [|[] todo] made|reset [|o todo] taken|taken|taken|[|o todo] taken|];
    try discriminate En; rewrite use_alive in En; try discriminate En; apply Hal; cbn [objects];
    [apply in_or_app; right; left; reflexivity|left; reflexivity].
  eexists. split; [reflexivity|]. unfold next_step in En.
  destruct (co_place t) as [| |reset [|python todo] made|reset [|o todo] taken|taken|taken|[|o todo] taken|] eqn:Ep; cbn [objects counted in_copy] in *.
  - injection En as <- <- <-. destruct (gc_enabled s) eqn:Eg; apply sound_place; cbn [objects counted in_copy]; auto; first [congruence|intros o []|intros []|constructor].
  - injection En as <- <- <-. apply sound_place; cbn [objects counted in_copy]; auto; first [intros o []|intros []|constructor].
  - injection En as <- <- <-. apply sound_place; cbn [objects counted in_copy length app]; auto.
    + intros o Ho. rewrite Ep. left. exact Ho.
    + cbn [count_occ] in Hc. lia.
  - cbn [count_occ] in Hc. destruct python; injection En as <- <- <-; apply sound_place; cbn [objects counted in_copy]; auto; rewrite ?Ep; cbn [objects].
    + intros o Ho. apply in_app_or in Ho as [Ho|[<-|[]]]; [auto|right; lia].
    + apply NoDup_snoc_nat; [assumption|]. intros Hin. apply Hal in Hin. lia.
    + rewrite app_length. cbn [length]. destruct (Bool.bool_dec true true); [lia|contradiction].
    + auto.
  - injection En as <- <- <-. destruct reset; apply sound_place; cbn [objects counted in_copy]; rewrite ?app_nil_r in *; auto; rewrite ?Ep; cbn [objects];
      rewrite ?app_nil_r; auto; cbn [length] in Hc; try lia; try (intros []).
  - rewrite use_alive in En by (apply Hal, in_or_app; right; left; reflexivity). injection En as <- <- <-.
    apply sound_place; cbn [objects counted in_copy]; auto; rewrite ?Ep; cbn [objects]; rewrite <- ?app_assoc; cbn [app]; auto.
    rewrite app_length. cbn [length] in *. lia.
  - injection En as <- <- <-. apply sound_place; cbn [objects counted in_copy]; auto; rewrite ?Ep; cbn [objects]; auto; [intros []|].
    intros _ _ other q Hne Hq. exact (Hsep taken other q Hat Hne Hq).
  - injection En as <- <- <-. apply sound_place; cbn [objects counted in_copy]; auto; rewrite ?Ep; cbn [objects]; auto.
  - injection En as <- <- <-. apply sound_place; cbn [objects counted in_copy]; auto; intros o [].
  - rewrite use_alive in En by (apply Hal; left; reflexivity). injection En as <- <- <-.
    apply sound_place; cbn [objects counted in_copy]; auto; rewrite ?Ep; cbn [objects].
    + intros o' Ho. left. right. exact Ho.
    + inversion Hnd; assumption.
  - injection En as <- <- <-. apply sound_place; cbn [objects counted in_copy]; auto; intros o [].
Qed.

Lemma sound_raise blocks s thread :
  sound blocks s -> exists s', happens s (Raise thread) = Ok s' /\ sound blocks s'.
Proof.
  intros Hs. cbn [happens]. destruct (nth_error (gc_threads s) thread) as [t|] eqn:Et; [|eauto]. eexists. split; [reflexivity|].
  assert (Hat : is_at s thread (co_place t)) by (exists t; auto).
  pose proof (so_counted _ _ Hs _ _ Et) as Hc. pose proof (so_nodup _ _ Hs _ _ Hat) as Hnd. pose proof (so_disabled _ _ Hs thread _ Hat) as Hdis.
  apply sound_place; try assumption; auto; try congruence.
  - intros o. left. destruct (co_place t); cbn [raise_at objects] in *; auto; contradiction.
  - destruct (co_place t); cbn [raise_at objects] in *; auto; constructor.
  - destruct (co_place t); cbn [raise_at counted] in *; auto.
  - destruct (co_place t); cbn [raise_at in_copy] in *; auto; contradiction.
Qed.

Lemma separate_sound enabled blocks events :
  separate_copies enabled blocks events -> no_collect_in_copy enabled blocks events ->
  exists s, after enabled blocks events s /\ sound blocks s.
Proof.
  intros Hsep Hcol.
  enough (G : forall rest before s0, events = before ++ rest -> after enabled blocks before s0 -> sound blocks s0 ->
    exists s, execution s0 rest = Ok s /\ sound blocks s).
  { exact (G events [] _ eq_refl eq_refl (sound_start enabled blocks)). }
  induction rest as [|e rest IH]; intros before s0 E Ha Hs; [exists s0; auto|]. cbn [execution].
  assert (He : happens_in enabled blocks events e s0) by (exists before, rest; auto).
  enough (Hn : exists s1, happens s0 e = Ok s1 /\ sound blocks s1).
  { destruct Hn as (s1 & Es & Hs1). rewrite Es. cbn [bind]. apply (IH (before ++ [e]) s1); [rewrite <- app_assoc; exact E| |exact Hs1].
    unfold after in *. rewrite execution_app, Ha. cbn [bind execution]. rewrite Es. reflexivity. }
  destruct e as [thread|thread| |].
  - apply sound_step; [exact Hs|]. intros taken other p Hp Hne Hq. exact (Hsep thread s0 taken other p He Hp Hne Hq).
  - apply sound_raise. exact Hs.
  - cbn [happens]. eexists. split; [reflexivity|]. destruct (gc_enabled s0) eqn:Eg; [|exact Hs]. apply sound_collect; [exact Hs|].
    intros i p Hp Hc. rewrite (so_disabled _ _ Hs i p Hp Hc) in Eg. discriminate Eg.
  - cbn [happens]. eexists. split; [reflexivity|]. apply sound_collect; [exact Hs|]. intros i p Hp. exact (Hcol s0 i p He Hp).
Qed.

Lemma copies_are_good enabled blocks events :
  separate_copies enabled blocks events -> no_collect_in_copy enabled blocks events ->
  exists s, after enabled blocks events s /\ good_copies blocks s.
Proof.
  intros Hsep Hcol. destruct (separate_sound _ _ _ Hsep Hcol) as (s & Ha & [S1 S2 S3 S4 S5 S6 S7]). exists s. split; [exact Ha|]. split.
  - intros i taken arrays Hp Hb. split; [exact (S3 _ _ Hp)|]. split; [|intros o Ho; exact (proj2 (S2 _ _ o Hp Ho))].
    destruct Hp as (t & Ht & E). specialize (S6 i t Ht). rewrite E in S6. cbn [counted] in S6. rewrite S6. f_equal.
    rewrite <- S7 in Hb. rewrite nth_error_map, Ht in Hb. injection Hb as <-. reflexivity.
  - intros i taken j taken' o Hij Hi Hj Ho. exact (S4 i _ j _ o Hij Hi Hj Ho).
Qed.

(** * Special cases *)

(* the collector was disabled by the program: gc.enable() is never called *)
Lemma disabled_separate blocks events : separate_copies false blocks events.
Proof.
  intros thread s taken other p (before & rest & _ & Ha) Hp. exfalso.
  enough (G : forall s, after false blocks before s -> gc_enabled s = false /\ forall thread p, is_at s thread p -> p <> Disabling /\ ~ has_disabled p).
  { destruct (G s Ha) as [_ H]. destruct (H _ _ Hp) as [_ Hn]. apply Hn. exact I. }
  clear s Ha thread taken other p Hp rest. apply execution_invariant.
  - split; [reflexivity|]. intros i p (t & Ht & <-). cbn [collector_start gc_threads] in Ht. apply nth_error_In, in_map_iff in Ht as (a & <- & _).
    split; [discriminate|intros []].
  - intros e s s' _ [Hg Hp] Hs. destruct e as [thread|thread| |]; cbn [happens] in Hs.
    + destruct (nth_error (gc_threads s) thread) as [t|] eqn:Et; [|injection Hs as <-; auto].
      destruct (next_step s t) as [[[en nx] p]|?|?|?] eqn:En; try discriminate Hs. cbn [bind] in Hs. injection Hs as <-.
      assert (Hat : is_at s thread (co_place t)) by (exists t; auto).
      cbn [gc_enabled]. assert (Hp' : en = false /\ p <> Disabling /\ ~ has_disabled p).
      { destruct (Hp _ _ Hat) as [Hd Hh]. unfold next_step in En. rewrite Hg in En.
        destruct (co_place t) as [| |reset [|[] todo] made|[] [|o todo] taken|taken|taken|[|o todo] taken|] eqn:Ep; cbn in Hh;
          try (exfalso; apply Hh; exact I); try (contradiction Hd; reflexivity);
          try (destruct (use s o); try discriminate En; cbn [bind] in En);
          injection En as <- <- <-; (split; [reflexivity|]; split; [discriminate|cbn; auto]). }
      destruct Hp' as (-> & Hd & Hh). split; [reflexivity|]. intros i q (t' & Ht' & <-). cbn [gc_threads] in Ht'.
      apply (set_place_nth _ _ _ _ _ _ Et) in Ht' as [[-> ->]|[Hne Ht']]; [split; assumption|]. apply (Hp i). exists t'. auto.
    + destruct (nth_error (gc_threads s) thread) as [t|] eqn:Et; [|injection Hs as <-; auto]. injection Hs as <-.
      split; [exact Hg|]. intros i q (t' & Ht' & <-). cbn [gc_threads] in Ht'.
      apply (set_place_nth _ _ _ _ _ _ Et) in Ht' as [[-> ->]|[Hne Ht']]; [|apply (Hp i); exists t'; auto].
      cbn [co_place]. destruct (co_place t); cbn [raise_at]; (split; [discriminate|intros []]).
    + injection Hs as <-. rewrite Hg. auto.
    + injection Hs as <-. auto.
Qed.

(* a single thread *)
Lemma single_separate enabled arrays events : separate_copies enabled [arrays] events.
Proof.
  intros thread s taken other p (before & rest & _ & Ha) (t & Ht & _) Hne (t' & Ht' & _). exfalso.
  enough (G : forall s, after enabled [arrays] before s -> length (gc_threads s) = 1).
  { pose proof (G s Ha). assert (thread < length (gc_threads s)) by (apply nth_error_Some; congruence).
    assert (other < length (gc_threads s)) by (apply nth_error_Some; congruence). lia. }
  clear. apply execution_invariant; [reflexivity|]. intros e s s' _ Hl Hs. destruct e as [i|i| |]; cbn [happens] in Hs.
  - destruct (nth_error (gc_threads s) i) as [t|]; [|injection Hs as <-; exact Hl].
    destruct (next_step s t) as [[[en nx] p]|?|?|?]; try discriminate Hs. injection Hs as <-. cbn [gc_threads]. unfold set_place.
    rewrite set_nth_length. exact Hl.
  - destruct (nth_error (gc_threads s) i) as [t|]; [|injection Hs as <-; exact Hl]. injection Hs as <-. cbn [gc_threads]. unfold set_place.
    rewrite set_nth_length. exact Hl.
  - injection Hs as <-. destruct (gc_enabled s); exact Hl.
  - injection Hs as <-. exact Hl.
Qed.

Lemma execution_keeps (I : collector -> Prop) events :
  (forall e s s', I s -> happens s e = Ok s' -> I s') -> forall s s', I s -> execution s events = Ok s' -> I s'.
Proof.
  intros Hstep. induction events as [|e events IH]; intros s s' Hi H; cbn [execution] in H; [injection H as <-; exact Hi|].
  destruct (happens s e) as [s1|?|?|?] eqn:E; try discriminate H. exact (IH s1 s' (Hstep e s s1 Hi E) H).
Qed.

(* one thread which disabled the collector *)
Definition one_thread (s : collector) : Prop :=
  exists t, gc_threads s = [t] /\ (has_disabled (co_place t) -> gc_enabled s = false).

Lemma one_thread_step e s s' : one_thread s -> happens s e = Ok s' -> one_thread s'.
Proof.
  intros (t & Et & Hd) Hs. destruct e as [[|i]|[|i]| |]; cbn [happens] in Hs; rewrite ?Et in Hs; cbn [nth_error] in Hs.
  - destruct (next_step s t) as [[[en nx] p]|?|?|?] eqn:En; try discriminate Hs. cbn [bind] in Hs. injection Hs as <-.
    exists (mk_copier (co_arrays t) p). unfold set_place. cbn [gc_threads gc_enabled co_place]. rewrite Et. split; [reflexivity|].
    unfold next_step in En.
    destruct (co_place t) as [| |[] [|[] todo] made|[] [|o todo] taken|taken|taken|[|o todo] taken|] eqn:Ep; cbn in Hd;
      try (destruct (use s o); try discriminate En; cbn [bind] in En);
      injection En as <- <- <-; cbn; auto; try (intros []); destruct (gc_enabled s); cbn; auto; intros [].
  - destruct i; injection Hs as <-; exists t; auto.
  - injection Hs as <-. eexists. unfold set_place. cbn [gc_threads gc_enabled co_place]. rewrite Et. split; [reflexivity|].
    cbn [co_place]. destruct (co_place t); cbn; intros [].
  - destruct i; injection Hs as <-; exists t; auto.
  - injection Hs as <-. exists t. destruct (gc_enabled s) eqn:Eg; (split; [exact Et|]; cbn [collect gc_enabled]; rewrite Eg; exact Hd).
  - injection Hs as <-. exists t. auto.
Qed.

Lemma one_thread_raised s events s' t :
  gc_threads s = [t] -> (exists todo taken, co_place t = Undoing todo taken) -> gc_enabled s = false ->
  execution s events = Ok s' -> gc_enabled s' = false.
Proof.
  intros Et Hp Hg H.
  set (I := fun s => (exists t, gc_threads s = [t] /\ ((exists todo taken, co_place t = Undoing todo taken) \/ co_place t = Raised)) /\ gc_enabled s = false).
  enough (G : I s') by (destruct G; assumption).
  refine (execution_keeps I events _ s s' _ H); [|split; eauto]. clear. intros e s s' [(t & Et & Hp) Hg] Hs. unfold I.
  destruct e as [[|i]|[|i]| |]; cbn [happens] in Hs; rewrite ?Et in Hs; cbn [nth_error] in Hs.
  - destruct (next_step s t) as [[[en nx] p]|?|?|?] eqn:En; try discriminate Hs. cbn [bind] in Hs. injection Hs as <-.
    cbn [gc_threads gc_enabled]. unfold set_place. rewrite Et. cbn [set_nth]. unfold next_step in En.
    destruct Hp as [(todo & taken & Ep)|Ep]; rewrite Ep in En.
    + destruct todo as [|o todo]; [injection En as <- <- <-; split; [eexists; split; [reflexivity|right; reflexivity]|exact Hg]|].
      destruct (use s o); try discriminate En. injection En as <- <- <-. split; [eexists; split; [reflexivity|left; cbn [co_place]; eauto]|exact Hg].
    + injection En as <- <- <-. split; [eexists; split; [reflexivity|right; reflexivity]|exact Hg].
  - destruct i; injection Hs as <-; eauto.
  - injection Hs as <-. cbn [gc_threads gc_enabled]. unfold set_place. rewrite Et. cbn [set_nth]. split; [|exact Hg].
    eexists. split; [reflexivity|]. cbn [co_place]. destruct Hp as [(todo & taken & ->)| ->]; cbn [raise_at]; eauto.
  - destruct i; injection Hs as <-; eauto.
  - injection Hs as <-. rewrite Hg. eauto.
  - injection Hs as <-. cbn [collect gc_threads gc_enabled]. eauto.
Qed.

Lemma single_enabled_iff enabled arrays events s : after enabled [arrays] events s ->
  (forall thread p, is_at s thread p -> ended p) ->
  (gc_enabled s = enabled <->
   ~ (enabled = true /\ exists thread s0 p, happens_in enabled [arrays] events (Raise thread) s0 /\ is_at s0 thread p /\ has_disabled p)).
Proof.
  intros H Hend. split.
  - intros Hg (-> & thread & s0 & p & (before & rest & E & Hb) & Hp & Hd). unfold after in *. rewrite E in H. rewrite execution_app, Hb in H.
    cbn [bind execution] in H.
    assert (Hone : one_thread s0).
    { apply (execution_keeps one_thread before one_thread_step (collector_start true [arrays])); [|exact Hb].
      exists (mk_copier arrays Before). split; [reflexivity|intros []]. }
    destruct Hone as (t & Et & Ht). destruct Hp as (t' & Ht' & <-). rewrite Et in Ht'. destruct thread as [|[|i]]; try discriminate Ht'.
    injection Ht' as <-. cbn [happens] in H. rewrite Et in H. cbn [nth_error bind] in H.
    refine (_ (one_thread_raised _ rest s _ _ _ _ H)); [congruence| | |exact (Ht Hd)].
    + cbn [gc_threads]. unfold set_place. rewrite Et. reflexivity.
    + cbn [co_place]. destruct (co_place t); cbn in Hd; try contradiction; cbn [raise_at]; eauto.
  - intros Hn. destruct (enabled_at_the_end _ _ _ _ H Hend) as [E|[E1 E2]]; [exact E|]. exfalso. apply Hn. auto.
Qed.

Lemma enabled_without_exceptions enabled blocks events s : after enabled blocks events s ->
  (forall thread, ~ In (Raise thread) events) -> (forall thread p, is_at s thread p -> ended p) -> gc_enabled s = enabled.
Proof.
  intros H Hno Hend. destruct (enabled_at_the_end _ _ _ _ H Hend) as [E|(_ & i & s0 & p & (before & rest & E & _) & _)]; [exact E|].
  exfalso. apply (Hno i). rewrite E. apply in_or_app. right. left. reflexivity.
Qed.

Lemma single_copy_good enabled arrays events : no_collect_in_copy enabled [arrays] events ->
  exists s, after enabled [arrays] events s /\ good_copies [arrays] s.
Proof. intros H. exact (copies_are_good _ _ _ (single_separate _ _ _) H). Qed.

Lemma disabled_copies_good blocks events : no_collect_in_copy false blocks events ->
  exists s, after false blocks events s /\ good_copies blocks s.
Proof. intros H. exact (copies_are_good _ _ _ (disabled_separate _ _) H). Qed.
