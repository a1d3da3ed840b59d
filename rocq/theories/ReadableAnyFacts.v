(* When the data of the arrays can be read after moving any component *)
From Verif Require Import Base BaseFacts Layout LayoutFacts SwapLayoutFacts SwapAnyFacts SwapAnyFacts2 Labels Array Block Tensor Spec SpecTensor SpecIo SpecExact LabelsFacts ArrayFacts BlockFacts TensorFacts GroupFacts DefinedFacts ComponentsFacts ComponentsExactFacts ReadableFacts.
Local Open Scope string_scope.
Local Open Scope list_scope.
Local Open Scope nat_scope.

Lemma split_around {A} (l : list A) n m : length l = n + S (m + 2) ->
  exists s0 sa sm sl sp, l = s0 ++ sa :: sm ++ [sl; sp] /\ length s0 = n /\ length sm = m.
Proof.
  intros H. destruct (skipn n l) as [|sa rest] eqn:E.
  { apply (f_equal (@length A)) in E. rewrite skipn_length in E. cbn [length] in E. lia. }
  assert (Hr : length rest = m + 2).
  { apply (f_equal (@length A)) in E. rewrite skipn_length in E. cbn [length] in E. lia. }
  destruct (skipn m rest) as [|sl [|sp [|? ?]]] eqn:E'; try (apply (f_equal (@length A)) in E'; rewrite skipn_length in E'; cbn [length] in E'; lia).
  exists (firstn n l), sa, (firstn m rest), sl, sp. split; [rewrite <- E', firstn_skipn, <- E, firstn_skipn; reflexivity|].
  split; apply firstn_length_le; lia.
Qed.

Lemma cut_of_entries components n : cut_of (map (fun c => length (rows c)) components) n
  <-> exists first others, components = first ++ others /\ entries_of first = n.
Proof.
  unfold cut_of, entries_of. split.
  - intros [k <-]. exists (firstn k components), (skipn k components). rewrite firstn_skipn, firstn_map. split; reflexivity.
  - intros (first & others & -> & <-). exists (length first). rewrite map_app.
    rewrite <- (map_length (fun c => length (rows c)) first) at 1. rewrite firstn_app, firstn_all, Nat.sub_diag. cbn [firstn].
    rewrite app_nil_r. reflexivity.
Qed.

Lemma entries_one l : entries_of [l] = length (rows l).
Proof. unfold entries_of. cbn [map prod]. lia. Qed.

Lemma moved_readable_any name b pre x post b' :
  wf_basic b -> component_moved [name] b pre x post b' ->
  a_kind (bb_data b) = RustNdarray -> readable (bb_data b) ->
  (readable (bb_data b') <-> ~ exchanged_in_memory b name).
Proof.
  intros Hwf Hm K Hr. pose proof Hwf as (Ha & _ & Hsh & _ & Hnd).
  apply (readable_ndarray _ K) in Hr. rewrite (readable_ndarray _ (eq_trans (cm_kind _ _ _ _ _ _ Hm) K)).
  pose proof (cm_strides _ _ _ _ _ _ Hm K) as Hst. cbv zeta in Hst. pose proof (proj2 Ha K) as Hl.
  pose proof (cm_components _ _ _ _ _ _ Hm) as Hc. pose proof (cm_moved _ _ _ _ _ _ Hm) as Hx.
  assert (Hu : forall pre' x' between last, bb_components b = pre' ++ x' :: between ++ [last] -> labels_names x' = [name] ->
    pre = pre' /\ x = x' /\ post = between ++ [last]).
  { intros pre' x' between last E En. rewrite Hc in E, Hnd. exact (split_unique [name] _ _ _ _ _ _ Hx En Hnd E). }
  destruct (list_eq_dec (fun a c : nat => Nat.eq_dec a c) (map (fun _ => 0) post) []) as [E0|E0].
  - destruct post as [|? ?]; [|discriminate]. cbn [length] in Hst. rewrite Nat.add_0_r, !swap_nth_self in Hst.
    rewrite (reshape_standard _ _ _ _ Hl Hr Hst). split; [intros _|reflexivity].
    intros (pre' & m & between & l & E & En & _). destruct (Hu _ _ _ _ E En) as (_ & _ & E'). destruct between; discriminate.
  - destruct (exists_last (l := post)) as (between & last & ->); [intros ->; apply E0; reflexivity|]. clear E0.
    pose proof (cm_shape _ _ _ _ _ _ Hm) as Hsh'.
    set (size := fun l => length (rows l)) in *.
    set (shape0 := size (bb_samples b) :: map size pre).
    assert (E1 : shape_of (bb_data b) = shape0 ++ size x :: map size between ++ [size last; size (bb_properties b)]).
    { rewrite Hsh. unfold axes. rewrite Hc. cbn [map]. rewrite !map_app. cbn [map]. rewrite !map_app. cbn [map].
      unfold shape0. cbn [app]. rewrite <- app_assoc. cbn [app]. rewrite <- app_assoc. reflexivity. }
    assert (E2 : shape_of (bb_data b') = shape0 ++ map size between ++ [size last; size x * size (bb_properties b)]).
    { rewrite Hsh'. rewrite !map_app. cbn [map]. unfold shape0. cbn [app]. rewrite <- !app_assoc. reflexivity. }
    assert (L0 : length shape0 = S (length pre)) by (unfold shape0; cbn [length]; rewrite map_length; reflexivity).
    assert (Lb : length (map size between) = length between) by apply map_length.
    destruct (split_around (a_strides (bb_data b)) (length shape0) (length between)) as (s0 & sa & sm & sl & sp & Es & Ls0 & Lsm).
    { rewrite Hl, E1, !app_length. cbn [length]. rewrite app_length. cbn [length]. rewrite map_length. lia. }
    rewrite E1, E2, Es in *. rewrite <- L0 in Hst. rewrite app_length in Hst. cbn [length] in Hst. rewrite Nat.add_1_r in Hst.
    pose proof (swap_ends shape0 (map size between) [size (bb_properties b)] (size x) (size last)) as X1.
    pose proof (swap_ends s0 sm [sp] sa sl) as X2. rewrite Lb in X1. rewrite Ls0, Lsm in X2. rewrite X1, X2 in Hst.
    rewrite (any_standard shape0 (map size between) s0 sm (size x) (size last) (size (bb_properties b)) sa sl sp _ Ls0 ltac:(lia) Hr Hst).
    assert (Hcut : cut_of (map size between ++ [size last]) (size last)
      <-> exists first others, between ++ [last] = first ++ others /\ entries_of first = entries_of [last]).
    { change [size last] with (map size [last]). rewrite <- map_app. rewrite entries_one. apply cut_of_entries. }
    assert (Hz : prod (shape0 ++ size x :: map size between ++ [size last; size (bb_properties b)]) <> 0
      <-> rows (bb_samples b) <> [] /\ Forall (fun c => rows c <> []) (bb_components b) /\ rows (bb_properties b) <> []).
    { rewrite Hc, <- nonempty_rows. fold size. rewrite !map_app. cbn [map]. rewrite map_app. cbn [map].
      rewrite !prod_app. cbn [prod]. rewrite prod_app. cbn [prod].
      assert (Hn : forall l : Labels, size l <> 0 <-> rows l <> []).
      { intros l. unfold size. destruct (rows l); cbn [length]; split; congruence || lia. }
      rewrite <- !Hn. rewrite prod_app. cbn [prod]. unfold shape0. cbn [prod]. rewrite !Nat.mul_1_r.
      set (u := size (bb_samples b)). set (v := prod (map size pre)). set (w := size x). set (y := prod (map size between)).
      set (z := size last). set (p := size (bb_properties b)).
      split; [intros G; repeat split; intros G'; apply G|intros (G1 & G2 & G3) G; apply Nat.mul_eq_0 in G as [G|G]].
      - rewrite G'. reflexivity.
      - replace (u * v * (w * (y * (z * p)))) with (u * p * (v * (w * (y * z)))) by lia. rewrite G'. lia.
      - rewrite G'. lia.
      - apply Nat.mul_eq_0 in G as [G|G]; [contradiction|]. apply G2. rewrite G. reflexivity.
      - replace (w * (y * (z * p))) with (w * (y * z) * p) in G by lia. apply Nat.mul_eq_0 in G as [G|G]; [|contradiction].
        apply G2. rewrite G. lia. }
    rewrite Hz, Hcut. unfold exchanged_in_memory. change (prod (map size between)) with (entries_of between).
    split; intros G X; apply G; clear G.
    + destruct X as (pre' & m & between' & l & E & En & X1' & X2' & X3 & X4 & X5 & X6).
      destruct (Hu _ _ _ _ E En) as (<- & <- & E'). apply app_inj_tail in E' as [<- <-].
      rewrite !entries_one in X3. repeat split; try assumption; destruct X3 as [X3|[X3|X3]]; tauto.
    + destruct X as ((X4 & X5 & X6) & X1' & X2' & X3). exists pre, x, between, last.
      repeat split; try assumption. rewrite !entries_one. exact X3.
Qed.

Lemma parts_moved_any b name b' :
  wf_block b -> tensor_block_components_to_properties b [name] = (b', Ok tt) ->
  Forall2 (fun part part' => wf_basic part /\ exists pre x post, component_moved [name] part pre x post part')
    (parts_of_block b) (parts_of_block b').
Proof.
  intros Hwf H. destruct (block_components_ok b [name] b' Hwf ltac:(discriminate) H) as ((pre & x & post & Hv) & Hg & _).
  constructor; [split; [exact (proj1 Hwf)|]; exists pre, x, post; exact Hv|].
  assert (G : forall l l', (forall q g, In (q, g) l -> In (q, g) (tb_gradients b)) ->
    Forall2 (fun pg pg' => fst pg' = fst pg
       /\ exists pre x post, component_moved [name] (snd pg) pre x post (snd pg')) l l' ->
    Forall2 (fun part part' => wf_basic part /\ exists pre x post, component_moved [name] part pre x post part')
      (map snd l) (map snd l')).
  { intros l l' Hin F. induction F as [|[q g] [q' g'] l l' (E & pre_g & x_g & post_g & Hm) F IH]; cbn [map snd]; constructor.
    - pose proof (Hin q g (or_introl eq_refl)) as Hgi. destruct (wf_block_gradient _ _ _ Hwf Hgi) as (Hwg & _ & _).
      split; [exact Hwg|]. exists pre_g, x_g, post_g. exact Hm.
    - apply IH. intros q0 g0 H0. apply Hin. right. exact H0. }
  apply G; [auto|exact Hg].
Qed.

Lemma components_readable_any t name t' :
  wf_tensor t -> in_ndarrays t -> readable_tensor t ->
  components_to_properties t [name] = (t', Ok tt) ->
  (readable_tensor t' <-> forall b part, In b (tm_blocks t) -> In part (parts_of_block b) -> ~ exchanged_in_memory part name).
Proof.
  intros Hwf Hn Hr H. destruct (components_to_properties_ok t [name] t' ltac:(discriminate) H) as [_ Hf].
  assert (G : forall b b', In b (tm_blocks t) -> tensor_block_components_to_properties b [name] = (b', Ok tt) ->
    Forall2 (fun part part' => readable (bb_data part') <-> ~ exchanged_in_memory part name) (parts_of_block b) (parts_of_block b')).
  { intros b b' Hb E. assert (Hwb : wf_block b) by (destruct Hwf as (_ & Hbs & _); rewrite Forall_forall in Hbs; exact (Hbs b Hb)).
    pose proof (parts_moved_any b name b' Hwb E) as F.
    assert (Hp : Forall (fun part => a_kind (bb_data part) = RustNdarray /\ readable (bb_data part)) (parts_of_block b)).
    { apply Forall_forall. intros part Hp. split; [exact (Hn b part Hb Hp)|exact (Hr b part Hb Hp)]. }
    clear -F Hp. induction F as [|part part' l l' (Hw & pre & x & post & Hm) F IH]; constructor.
    - destruct (Forall_inv Hp) as [K R]. exact (moved_readable_any name part pre x post part' Hw Hm K R).
    - apply IH. exact (Forall_inv_tail Hp). }
  split.
  - intros Hr' b part Hb Hp. destruct (Forall2_In_l _ _ _ _ Hf Hb) as (b' & Hb' & E).
    destruct (Forall2_In_l _ _ _ _ (G b b' Hb E) Hp) as (part' & Hp' & X). apply X. exact (Hr' b' part' Hb' Hp').
  - intros Hx b' part' Hb' Hp'. destruct (Forall2_In_r _ _ _ _ Hf Hb') as (b & Hb & E).
    destruct (Forall2_In_r _ _ _ _ (G b b' Hb E) Hp') as (part & Hp & X). apply X. exact (Hx b part Hb Hp).
Qed.
