(* The blocks, tensor maps and arrays of a program (C37 to C40, C56, C57) *)
From Coq Require Import Lia Permutation Sorted.
From Verif Require Import Base BaseFacts Labels Array Block Tensor Npy Io Origin CApi Spec SpecTensor SpecIo SpecApi
  LabelsFacts ArrayFacts BlockFacts TensorFacts KeysFacts ApiFacts QuietFacts ReportFacts OwnerFacts LabelsApiFacts ReachFacts.
Local Open Scope string_scope.
Local Open Scope list_scope.
Local Open Scope nat_scope.

(** * C39 *)

Lemma owners_call p thread w c w' v result : owners w -> run_call p thread w c = (w', v, result) ->
  (forall r, result <> Crashed r) -> owners w'.
Proof.
  intros Hw H Hr. apply run_call_body in H as (w1 & o & Hb & Hres & ->). apply owners_errors.
  eapply call_body_owners; [exact Hw|exact Hb|]. intros r ->. apply (Hr r). rewrite <- Hres. reflexivity.
Qed.

Lemma owners_state p files calls : never_crashed p (world_start files) calls ->
  forall i, owners (state_at p (world_start files) calls i).
Proof.
  intros Hn. induction i as [|i IH]; [apply owners_start|].
  destruct (state_at_next p calls (world_start files) i) as [(t & c & v & r & Hc)|Hs]; [|rewrite Hs; exact IH].
  pose proof (called_step _ _ _ _ _ _ _ _ Hc) as Hstep. eapply owners_call; [exact IH|exact Hstep|].
  intros m ->. apply (Hn v m). eapply nth_error_In. apply Hc.
Qed.

Lemma cnt_In x l : In x l <-> 0 < cnt x l.
Proof. apply count_occ_In. Qed.

Lemma cnt_NoDup l : (forall x, cnt x l <= 1) -> NoDup l.
Proof. intros H. apply (NoDup_count_occ Nat.eq_dec). exact H. Qed.

Lemma arrays_once w : owners w ->
  NoDup (w_destroyed w) /\ NoDup (owned_arrays w)
  /\ (forall a, In a (owned_arrays w) -> ~ In a (w_destroyed w))
  /\ (forall a, In a (owned_arrays w) \/ In a (w_destroyed w) <-> a < w_next_array w)
  /\ (w_blocks w = [] -> w_tensors w = [] -> forall a, a < w_next_array w -> In a (w_destroyed w)).
Proof.
  intros [_ _ _ _ Hc]. assert (Hc' : forall x, cnt x (w_destroyed w) + cnt x (owned_arrays w) = if x <? w_next_array w then 1 else 0).
  { intros x. specialize (Hc x). rewrite cnt_nil, cnt_seq in Hc. unfold owned_arrays. rewrite cnt_app.
    cbn [Nat.add Nat.leb andb] in Hc. change (0 <=? x) with true in Hc. cbn [andb] in Hc. lia. }
  assert (Hiff : forall a, In a (owned_arrays w) \/ In a (w_destroyed w) <-> a < w_next_array w).
  { intros a. rewrite !cnt_In. specialize (Hc' a). destruct (Nat.ltb_spec a (w_next_array w)); lia. }
  split; [apply cnt_NoDup; intros x; specialize (Hc' x); destruct (x <? w_next_array w); lia|].
  split; [apply cnt_NoDup; intros x; specialize (Hc' x); destruct (x <? w_next_array w); lia|].
  split; [intros a; rewrite !cnt_In; specialize (Hc' a); destruct (a <? w_next_array w); lia|].
  split; [exact Hiff|]. intros E1 E2 a Ha. apply Hiff in Ha as [Ha|Ha]; [|exact Ha].
  unfold owned_arrays in Ha. rewrite E1, E2 in Ha. destruct Ha.
Qed.

Lemma arrays_destroyed_once p files calls i : never_crashed p (world_start files) calls ->
  let w := state_at p (world_start files) calls i in
  NoDup (w_destroyed w) /\ NoDup (owned_arrays w)
  /\ (forall a, In a (owned_arrays w) -> ~ In a (w_destroyed w))
  /\ (forall a, In a (owned_arrays w) \/ In a (w_destroyed w) <-> a < w_next_array w)
  /\ (w_blocks w = [] -> w_tensors w = [] -> forall a, a < w_next_array w -> In a (w_destroyed w)).
Proof. intros H. apply arrays_once. apply owners_state. exact H. Qed.

(** * Blocks and their arrays *)

Lemma read_block_owned w block b : owners w -> read_block w block = Ok b ->
  block_arrays_ok b /\ incl (ob_arrays b) (owned_arrays w).
Proof.
  intros [_ _ Hb Ht _] H. rewrite Forall_forall in Hb, Ht. unfold read_block in H. destruct block as [|h|t i].
  - discriminate H.
  - apply bind_ok in H as ([h' b'] & Hg & H). injection H as <-. apply get_block_ok in Hg as [_ Hg]. apply hm_get_at in Hg.
    split; [apply (Hb _ Hg)|]. intros a Ha. unfold owned_arrays. apply in_or_app. left. apply in_flat_map. exists (h', b'). auto.
  - destruct (hm_get Nat.eqb (w_tensors w) t) as [ot|] eqn:Et; [|discriminate H].
    destruct (nth_error (tm_blocks (ot_tensor ot)) i) as [b1|] eqn:Eb; [|discriminate H].
    destruct (nth_error (ot_arrays ot) i) as [l|] eqn:El; [|discriminate H]. injection H as <-. apply hm_get_at in Et. split.
    + specialize (Ht _ Et). cbn [snd] in Ht. unfold tensor_arrays_ok in Ht. unfold block_arrays_ok. cbn [ob_arrays ob_block].
      apply (f_equal (fun l => nth_error l i)) in Ht. rewrite !nth_error_map, El, Eb in Ht. cbn [option_map] in Ht. congruence.
    + cbn [ob_arrays]. intros a Ha. unfold owned_arrays. apply in_or_app. right. apply in_flat_map. exists (t, ot).
      split; [exact Et|]. cbn [snd]. apply in_concat. exists l. split; [eapply nth_error_In; exact El|exact Ha].
Qed.

Lemma gradient_array_some gs : forall arrays q, length arrays = length gs -> In q (map fst gs) ->
  exists a, gradient_array gs arrays q = Some a /\ In a arrays.
Proof.
  induction gs as [|[q0 g0] gs IH]; intros arrays q Hl Hq; [destruct Hq|]. destruct arrays as [|a arrays]; [discriminate Hl|].
  cbn [gradient_array]. destruct (String.eqb_spec q q0) as [->|Hne]; [exists a; split; [reflexivity|left; reflexivity]|].
  destruct Hq as [Hq|Hq]; [cbn [fst] in Hq; congruence|].
  destruct (IH arrays q) as (a' & H1 & H2); [injection Hl; auto|exact Hq|]. exists a'. split; [exact H1|right; exact H2].
Qed.

Lemma select_array_ok b name part : block_arrays_ok b -> named_part (ob_block b) name part ->
  exists a, select_array b name = Ok a /\ In a (ob_arrays b).
Proof.
  unfold block_arrays_ok, arrays_count, select_array. intros Hl Hp. destruct (ob_arrays b) as [|a0 arrays]; [discriminate Hl|].
  injection Hl as Hl. destruct Hp as [[-> ->]|[Hn Hin]].
  - exists a0. split; [reflexivity|left; reflexivity].
  - apply String.eqb_neq in Hn. rewrite Hn. apply (in_map fst) in Hin. cbn [fst] in Hin.
    destruct (gradient_array_some _ _ _ Hl Hin) as (a & H1 & H2). exists a. rewrite H1. split; [reflexivity|right; exact H2].
Qed.

Lemma select_basic_ok b name part : NoDup (map fst (tb_gradients b)) ->
  (select_basic_block b name = Ok part <-> named_part b name part).
Proof.
  intros Hnd. unfold select_basic_block, named_part. destruct (String.eqb_spec name "values") as [->|Hn].
  - split; [intros H; injection H as <-; left; auto|]. intros [[_ ->]|[H _]]; [reflexivity|congruence].
  - unfold tensor_block_gradient. destruct (hm_get String.eqb (tb_gradients b) name) as [g|] eqn:E.
    + apply (BaseFacts.hm_get_iff _ String.eqb_eq _ _ _ Hnd) in E. split.
      * intros H. injection H as <-. right. auto.
      * intros [[H _]|[_ H]]; [congruence|]. apply (BaseFacts.hm_get_iff _ String.eqb_eq _ _ _ Hnd) in E, H. congruence.
    + split; [discriminate|]. intros [[H _]|[_ H]]; [congruence|]. apply (BaseFacts.hm_get_None _ String.eqb_eq) in E. exfalso. apply E.
      apply (in_map fst) in H. exact H.
Qed.

(** * What callers see *)

Lemma run_call_ok p thread w c w1 v : call_body p thread w c = (w1, v, Ok tt) ->
  run_call p thread w c = (set_errors w1 (w_errors w1), v, Returned 0).
Proof. intros H. unfold run_call. rewrite H. reflexivity. Qed.

Lemma run_call_error p thread w c w1 v e : plain_world w -> reportable c -> call_body p thread w c = (w1, v, Err e) ->
  exists w2, run_call p thread w c = (w2, v, Returned (error_code e)).
Proof.
  intros Hw Hc H. pose proof (proj2 (call_body_good p thread w c Hw Hc)) as Hq. rewrite H in Hq. cbn [snd] in Hq.
  destruct Hq as [Hq _]. unfold run_call. rewrite H. unfold catch_unwind, from_error, cstring_new. unfold no_nul in Hq. rewrite Hq.
  eexists. reflexivity.
Qed.

Lemma reading_ok w o v : o = Ok v -> reading w o = (w, v, Ok tt).
Proof. intros ->. reflexivity. Qed.

Lemma reading_err w o e : o = Err e -> reading w o = (w, VNone, Err e).
Proof. intros ->. reflexivity. Qed.

Lemma utf8_str m memory : utf8_text memory -> c_str_to_str m memory = Ok (c_str memory).
Proof. intros H. unfold c_str_to_str. cbv zeta. rewrite H. reflexivity. Qed.

Lemma points_to_read w block b : owners w -> points_to w block b -> read_block w block = Ok b.
Proof.
  intros Hw [(h & -> & Hb)|(t & i & ot & -> & Ht & Hb & Ha)]; cbn [read_block get_block].
  - pose proof (own_blocks _ _ Hw) as [Hnd _]. apply (BaseFacts.In_hm_get _ Nat.eqb_eq _ _ _ Hnd) in Hb. rewrite Hb. reflexivity.
  - pose proof (own_tensors _ _ Hw) as [Hnd _]. apply (BaseFacts.In_hm_get _ Nat.eqb_eq _ _ _ Hnd) in Ht. rewrite Ht, Hb, Ha.
    destruct b. reflexivity.
Qed.

Lemma read_block_pointer w block b : read_block w block = Ok b ->
  check_pointer "block" (block_pointer block) = Ok block.
Proof. destruct block; [discriminate|reflexivity..]. Qed.

Lemma axis_of_block_ok x axis l : nth_error (axes x) axis = Some l -> axis_of_block x axis = Ok l.
Proof.
  unfold axes, axis_of_block. destruct axis as [|axis]; cbn [nth_error Nat.eqb]; [intros H; injection H as <-; reflexivity|].
  intros H. replace (S axis - 1) with axis by lia. destruct (Nat.ltb_spec axis (length (bb_components x))) as [Hl|Hl].
  - rewrite nth_error_app1 in H by assumption. unfold index_slice. rewrite H. reflexivity.
  - rewrite nth_error_app2 in H by assumption. destruct (axis - length (bb_components x)) as [|k] eqn:Ek.
    + cbn [nth_error] in H. injection H as <-. replace (length (bb_components x) + 1) with (S axis) by lia.
      cbn [Nat.eqb]. rewrite Nat.eqb_refl. reflexivity.
    + cbn [nth_error] in H. destruct k; discriminate H.
Qed.

Lemma axis_of_block_err x axis : length (axes x) <= axis -> exists m, axis_of_block x axis = Err (InvalidParameter m).
Proof.
  unfold axes, axis_of_block. cbn [length]. rewrite app_length. cbn [length]. intros H. cbv zeta.
  destruct (Nat.eqb_spec axis 0); [lia|]. destruct (Nat.ltb_spec (axis - 1) (length (bb_components x))); [lia|].
  destruct (Nat.eqb_spec axis (length (bb_components x) + 1)); [lia|]. eexists. reflexivity.
Qed.

(** * C37 *)

Lemma block_labels_match p files calls i thread block b name axis s1 vd rd s2 vl rl :
  never_crashed p (world_start files) calls -> ordinary p (world_start files) calls ->
  let s := state_at p (world_start files) calls i in
  points_to s block b -> utf8_text name ->
  run_call p thread s (BlockData block (Some name) out) = (s1, vd, rd) ->
  run_call p thread s (BlockLabels block (Some name) axis out) = (s2, vl, rl) ->
  (exists part, named_part (ob_block b) (c_str name) part
     /\ rd = Returned 0 /\ (exists id, vd = VArray (mk_given (bb_data part) id false) /\ In id (owned_arrays s))
     /\ (forall l, nth_error (axes part) axis = Some l ->
           rl = Returned 0 /\ exists c, vl = VLabels c /\ c_names c = labels_names l /\ c_rows c = rows l
             /\ nth_error (shape_of (bb_data part)) axis = Some (cl_count c))
     /\ (length (shape_of (bb_data part)) <= axis -> rl = Returned 1 /\ vl = VNone))
  \/ ((forall part, ~ named_part (ob_block b) (c_str name) part)
      /\ rd = Returned 1 /\ vd = VNone /\ rl = Returned 1 /\ vl = VNone).
Proof.
  intros Hn Ho s Hb Hu Hd Hl. pose proof (owners_state p files calls Hn i) as Hown. pose proof (valid_state p files calls Ho i) as Hval.
  pose proof (state_plain p files calls i) as Hpl. fold s in Hown, Hval, Hpl.
  apply (points_to_read _ _ _ Hown) in Hb. destruct (valid_read _ _ _ Hval Hb) as [Hwf _]. destruct (read_block_owned _ _ _ Hown Hb) as [Harr Hincl].
  assert (Hnd : NoDup (map fst (tb_gradients (ob_block b)))) by apply Hwf.
  pose proof (read_block_pointer _ _ _ Hb) as Hptr.
  destruct (select_basic_block (ob_block b) (c_str name)) as [part|e|m|r] eqn:Es.
  - left. exists part. pose proof (proj1 (select_basic_ok _ _ _ Hnd) Es) as Hp. split; [exact Hp|].
    destruct (select_array_ok b _ _ Harr Hp) as (id & Hid & Hin).
    assert (Hwp : wf_basic part).
    { destruct Hwf as (H1 & H2 & _). destruct Hp as [[_ ->]|[_ Hp]]; [exact H1|]. rewrite Forall_forall in H2. apply (H2 _ Hp). }
    assert (Hdata : call_body p thread s (BlockData block (Some name) out) = (s, VArray (mk_given (bb_data part) id false), Ok tt)).
    { cbn [call_body]. unfold eqs_block_data. apply reading_ok. rewrite Hptr. cbn [bind check_pointer]. rewrite (utf8_str _ _ Hu). cbn [bind].
      rewrite Hb. cbn [bind]. rewrite Es. cbn [bind]. rewrite Hid. reflexivity. }
    rewrite (run_call_ok _ _ _ _ _ _ Hdata) in Hd. injection Hd as <- <- <-. split; [reflexivity|]. split; [exists id; auto|].
    assert (Hlen : length (shape_of (bb_data part)) = length (axes part)).
    { destruct Hwp as (_ & _ & -> & _). apply map_length. }
    split.
    + intros l Hax. assert (Hal : axis_labels l).
      { destruct Hwp as (_ & H & _). rewrite Forall_forall in H. apply H. eapply nth_error_In. exact Hax. }
      destruct (labels_round_trip l Hal) as (c & l' & Hc & _ & _ & _ & Hcn & Hcr & _).
      assert (Hlab : call_body p thread s (BlockLabels block (Some name) axis out) = (s, VLabels c, Ok tt)).
      { cbn [call_body]. unfold eqs_block_labels. apply reading_ok. rewrite Hptr. cbn [bind check_pointer]. rewrite (utf8_str _ _ Hu). cbn [bind].
        rewrite Hb. cbn [bind]. rewrite Es. cbn [bind]. rewrite (axis_of_block_ok _ _ _ Hax). cbn [bind]. rewrite Hc. reflexivity. }
      rewrite (run_call_ok _ _ _ _ _ _ Hlab) in Hl. injection Hl as <- <- <-. split; [reflexivity|]. exists c. repeat split; auto.
      destruct Hwp as (_ & _ & -> & _). rewrite nth_error_map, Hax. cbn [option_map]. f_equal.
      rewrite (labels_to_c_ok l Hal) in Hc. injection Hc as <-. reflexivity.
    + rewrite Hlen. intros Hge. destruct (axis_of_block_err _ _ Hge) as [m Hm].
      assert (Hlab : call_body p thread s (BlockLabels block (Some name) axis out) = (s, VNone, Err (InvalidParameter m))).
      { cbn [call_body]. unfold eqs_block_labels. apply reading_err. rewrite Hptr. cbn [bind check_pointer]. rewrite (utf8_str _ _ Hu). cbn [bind].
        rewrite Hb. cbn [bind]. rewrite Es. cbn [bind]. rewrite Hm. reflexivity. }
      destruct (run_call_error p thread s (BlockLabels block (Some name) axis out) _ _ _ Hpl I Hlab) as [w2 E]. rewrite E in Hl. injection Hl as <- <- <-. split; reflexivity.
  - right. assert (He : error_code e = 1%Z).
    { unfold select_basic_block in Es. destruct (String.eqb _ _); [discriminate Es|]. destruct (tensor_block_gradient _ _); [discriminate Es|].
      injection Es as <-. reflexivity. }
    split. { intros part Hp. apply (select_basic_ok _ _ _ Hnd) in Hp. congruence. }
    assert (Hdata : call_body p thread s (BlockData block (Some name) out) = (s, VNone, Err e)).
    { cbn [call_body]. unfold eqs_block_data. apply reading_err. rewrite Hptr. cbn [bind check_pointer]. rewrite (utf8_str _ _ Hu). cbn [bind].
      rewrite Hb. cbn [bind]. rewrite Es. reflexivity. }
    assert (Hlab : call_body p thread s (BlockLabels block (Some name) axis out) = (s, VNone, Err e)).
    { cbn [call_body]. unfold eqs_block_labels. apply reading_err. rewrite Hptr. cbn [bind check_pointer]. rewrite (utf8_str _ _ Hu). cbn [bind].
      rewrite Hb. cbn [bind]. rewrite Es. reflexivity. }
    destruct (run_call_error p thread s (BlockData block (Some name) out) _ _ _ Hpl I Hdata) as [w1 E1]. rewrite E1 in Hd. injection Hd as <- <- <-.
    destruct (run_call_error p thread s (BlockLabels block (Some name) axis out) _ _ _ Hpl I Hlab) as [w2 E2]. rewrite E2 in Hl. injection Hl as <- <- <-. rewrite He. auto.
  - unfold select_basic_block in Es. destruct (String.eqb _ _); [discriminate Es|]. destruct (tensor_block_gradient _ _); discriminate Es.
  - unfold select_basic_block in Es. destruct (String.eqb _ _); [discriminate Es|]. destruct (tensor_block_gradient _ _); discriminate Es.
Qed.

(** * C38 *)

Lemma set_nth_at {A} (l1 : list A) y l2 x : set_nth (l1 ++ y :: l2) (length l1) x = l1 ++ x :: l2.
Proof. induction l1 as [|z l1 IH]; cbn [length app set_nth]; [reflexivity|]. rewrite IH. reflexivity. Qed.

Lemma write_indexes_fit idx : forall before rest, length idx <= length rest ->
  write_indexes (length before) (before ++ rest) idx = (before ++ idx ++ skipn (length idx) rest, Ok tt).
Proof.
  induction idx as [|x idx IH]; intros before rest H; cbn [write_indexes length app skipn]; [reflexivity|].
  destruct rest as [|y rest]; [cbn in H; lia|]. unfold set_slice. rewrite app_length. cbn [length].
  rewrite (proj2 (Nat.ltb_lt (length before) (length before + S (length rest)))) by lia. rewrite set_nth_at.
  specialize (IH (before ++ [x]) rest). rewrite app_length in IH. cbn [length] in IH. rewrite <- !app_assoc in IH.
  cbn [app] in IH. rewrite IH; [reflexivity|cbn [length] in H; lia].
Qed.

Lemma write_indexes_small idx : forall before rest, length rest < length idx ->
  exists m, write_indexes (length before) (before ++ rest) idx = (before ++ firstn (length rest) idx, Panic m).
Proof.
  induction idx as [|x idx IH]; intros before rest H; cbn [length] in H; [lia|]. cbn [write_indexes].
  destruct rest as [|y rest].
  - unfold set_slice. rewrite app_nil_r. rewrite (proj2 (Nat.ltb_ge (length before) (length before))) by lia.
    eexists. cbn [length firstn]. rewrite app_nil_r. reflexivity.
  - unfold set_slice. rewrite app_length. cbn [length].
    rewrite (proj2 (Nat.ltb_lt (length before) (length before + S (length rest)))) by lia. rewrite set_nth_at.
    destruct (IH (before ++ [x]) rest) as [m Hm]; [cbn [length] in H; lia|]. exists m. rewrite app_length in Hm. cbn [length] in Hm.
    rewrite <- !app_assoc in Hm. cbn [app] in Hm. exact Hm.
Qed.

Lemma run_call_panic p thread w c w1 v m : plain_world w -> reportable c -> call_body p thread w c = (w1, v, Panic m) ->
  exists w2, run_call p thread w c = (w2, v, Returned 255).
Proof.
  intros Hw Hc H. pose proof (proj2 (call_body_good p thread w c Hw Hc)) as Hq. rewrite H in Hq. cbn [snd] in Hq.
  unfold run_call. rewrite H. unfold catch_unwind, from_error, cstring_new. cbn [yields quiet] in Hq.
  assert (Hq' : has_nul (error_text (Internal m)) = false).
  { cbn [error_text]. apply no_nul_append; [reflexivity|exact Hq]. }
  rewrite Hq'. eexists. reflexivity.
Qed.

Lemma blocks_matching_call p files calls i thread handle t buffer c selection s' v r :
  never_crashed p (world_start files) calls -> ordinary p (world_start files) calls ->
  let s := state_at p (world_start files) calls i in
  tensor_at s handle t -> labels_from_c c = Ok selection ->
  run_call p thread s (TensorBlocksMatching (Some handle) (Some buffer) out c) = (s', v, r) ->
  (valid_selection (ot_tensor t) selection ->
     exists l, StronglySorted lt l /\ (forall i, In i l <-> selected (ot_tensor t) selection i)
     /\ (length l <= length buffer -> r = Returned 0 /\ v = VIndexes (l ++ skipn (length l) buffer) (length l))
     /\ (length buffer < length l -> r = Returned 255 /\ v = VIndexes (firstn (length buffer) l) (length l)))
  /\ (~ valid_selection (ot_tensor t) selection -> r = Returned 1 /\ v = VIndexes buffer (length buffer)).
Proof.
  intros Hn Ho s Ht Hc Hr. pose proof (own_tensors _ _ (owners_state p files calls Hn i)) as [Hnd _]. fold s in Hnd. pose proof (valid_state p files calls Ho i) as Hval. pose proof (state_plain p files calls i) as Hpl.
  fold s in Hval, Hpl. apply (BaseFacts.In_hm_get _ Nat.eqb_eq _ _ _ Hnd) in Ht. destruct (valid_tensor _ _ _ Hval Ht) as [Hwf _].
  apply get_tensor_ok in Ht. destruct (blocks_matching_spec _ _ Hwf (labels_from_c_wf _ _ Hc)) as [H1 H2].
  set (call := TensorBlocksMatching (Some handle) (Some buffer) out c) in *. split.
  - intros Hv. destruct (H1 Hv) as (l & Hl & Hs & Hin). exists l. split; [exact Hs|]. split; [exact Hin|].
    assert (Hb : call_body p thread s call = let '(b, o) := write_indexes 0 buffer l in (s, VIndexes b (length l), o)).
    { subst call. cbn [call_body]. unfold eqs_tensormap_blocks_matching. cbn [check_pointer bind out]. rewrite Hc. cbn [bind].
      rewrite Ht. cbn [bind]. rewrite Hl. reflexivity. }
    split; intros Hlen.
    + pose proof (write_indexes_fit l [] buffer Hlen) as Hw. cbn [length app] in Hw. rewrite Hw in Hb.
      rewrite (run_call_ok _ _ _ _ _ _ Hb) in Hr. injection Hr as <- <- <-. auto.
    + destruct (write_indexes_small l [] buffer Hlen) as [m Hw]. cbn [length app] in Hw. rewrite Hw in Hb.
      destruct (run_call_panic p thread s call _ _ _ Hpl I Hb) as [w2 E]. rewrite E in Hr. injection Hr as <- <- <-. auto.
  - intros Hv. destruct (H2 Hv) as [m Hm].
    assert (Hb : call_body p thread s call = (s, VIndexes buffer (length buffer), Err (InvalidParameter m))).
    { subst call. cbn [call_body]. unfold eqs_tensormap_blocks_matching. cbn [check_pointer bind out]. rewrite Hc. cbn [bind].
      rewrite Ht. cbn [bind]. rewrite Hm. reflexivity. }
    destruct (run_call_error p thread s call _ _ _ Hpl I Hb) as [w2 E]. rewrite E in Hr. injection Hr as <- <- <-. auto.
Qed.

(** * C40 *)

Lemma block_ptr_eqb_eq b1 b2 : block_ptr_eqb b1 b2 = true <-> b1 = b2.
Proof.
  destruct b1, b2; cbn [block_ptr_eqb]; split; intros H; try reflexivity; try discriminate H; try congruence.
  - apply Nat.eqb_eq in H. congruence.
  - injection H as ->. apply Nat.eqb_refl.
  - apply andb_true_iff in H as [H1 H2]. apply Nat.eqb_eq in H1, H2. congruence.
  - injection H as -> ->. rewrite !Nat.eqb_refl. reflexivity.
Qed.

Lemma run_call_zero p thread w c w' v r : plain_world w -> run_call p thread w c = (w', v, r) ->
  (r = Returned 0 <-> exists w1, call_body p thread w c = (w1, v, Ok tt)).
Proof.
  intros Hw H. pose proof (proj2 (call_body_plain p thread w c Hw)) as Hcoded.
  apply run_call_body in H as (w1 & o & Hb & Hr & _). rewrite Hb in *. cbn [snd] in Hcoded. split.
  - intros ->. destruct o as [[]|e|m|x]; [exists w1; reflexivity| | |discriminate Hr].
    + cbn [catch_unwind] in Hr. destruct (from_error thread (w_errors w1) e) as [er r] eqn:E. cbn [snd] in Hr. subst r.
      apply from_error_returned in E as (E & _). exfalso. apply (Hcoded e eq_refl). congruence.
    + cbn [catch_unwind] in Hr. destruct (from_error thread (w_errors w1) (Internal m)) as [er r] eqn:E. cbn [snd] in Hr. subst r.
      apply from_error_returned in E as (E & _). discriminate E.
  - intros [w2 E]. injection E as <- ->. rewrite <- Hr. reflexivity.
Qed.

Lemma run_call_fields p thread w c w' v r : run_call p thread w c = (w', v, r) ->
  exists w1 o, call_body p thread w c = (w1, v, o) /\ w_blocks w' = w_blocks w1 /\ w_tensors w' = w_tensors w1
    /\ w_destroyed w' = w_destroyed w1 /\ w_origins w' = w_origins w1 /\ w_files w' = w_files w1
    /\ w_next_array w' = w_next_array w1 /\ w_next_handle w' = w_next_handle w1.
Proof. intros H. apply run_call_body in H as (w1 & o & Hb & _ & ->). exists w1, o. auto 10. Qed.

Lemma remove_In {A} h (l : list (nat * A)) h' a : In (h', a) (remove_handle h l) <-> In (h', a) l /\ h' <> h.
Proof.
  unfold remove_handle. rewrite filter_In. cbn [fst]. rewrite negb_true_iff, Nat.eqb_neq. reflexivity.
Qed.

Lemma take_blocks_all bs : forall w owned, NoDup (map fst (w_blocks w)) -> NoDup bs ->
  Forall2 (fun b ob => exists h, b = BlockAt h /\ block_at w h ob) bs owned ->
  exists w1, take_blocks w bs = (w1, Ok owned)
    /\ (forall h ob, block_at w1 h ob <-> block_at w h ob /\ ~ In (BlockAt h) bs)
    /\ w_tensors w1 = w_tensors w /\ w_destroyed w1 = w_destroyed w /\ w_next_handle w1 = w_next_handle w
    /\ w_next_array w1 = w_next_array w /\ w_origins w1 = w_origins w /\ w_files w1 = w_files w.
Proof.
  induction bs as [|b bs IH]; intros w owned Hnd Hd Hf; inversion Hf as [|? ob ? owned' (h & -> & Hb) Hf']; subst.
  - exists w. cbn [take_blocks In]. intuition.
  - apply NoDup_cons_iff in Hd as [Hn Hd]. cbn [take_blocks get_block].
    pose proof Hb as Hg. apply (BaseFacts.In_hm_get _ Nat.eqb_eq _ _ _ Hnd) in Hg. rewrite Hg.
    set (w0 := set_blocks w (remove_handle h (w_blocks w))).
    destruct (IH w0 owned') as (w1 & Ht & Hbs & Hrest).
    + cbn. clear -Hnd. induction (w_blocks w) as [|[k a] l IHl]; [constructor|]. cbn [map fst] in Hnd.
      apply NoDup_cons_iff in Hnd as [H1 H2]. cbn [remove_handle filter fst]. destruct (negb _); [|auto].
      cbn [map fst]. constructor; [|auto]. intros Hin. apply H1. apply in_map_iff in Hin as ([k' a'] & <- & Hin).
      apply filter_In in Hin as [Hin _]. apply (in_map fst) in Hin. exact Hin.
    + exact Hd.
    + clear -Hf' Hn. induction Hf' as [|b ob bs owned (h' & -> & Hb) Hf IH]; constructor.
      * exists h'. split; [reflexivity|]. unfold block_at, w0. cbn. apply remove_In. split; [exact Hb|]. intros ->. apply Hn. left. reflexivity.
      * apply IH. intros Hin. apply Hn. right. exact Hin.
    + exists w1. fold w0. rewrite Ht. split; [reflexivity|]. split; [|exact Hrest].
      intros h' ob'. rewrite Hbs. unfold block_at, w0. cbn [set_blocks w_blocks]. rewrite remove_In. cbn [In]. split.
      * intros [[H1 H2] H3]. split; [exact H1|]. intros [E|E]; [injection E as ->; congruence|contradiction].
      * intros [H1 H2]. split; [split; [exact H1|intros ->; apply H2; left; reflexivity]|intros E; apply H2; right; exact E].
Qed.

Lemma tensormap_same_block p files calls i thread keys blocks s' v r :
  let s := state_at p (world_start files) calls i in
  ~ NoDup blocks -> run_call p thread s (TensorCreate keys blocks) = (s', v, r) ->
  r <> Returned 0 /\ v = VTensor None blocks /\ w_blocks s' = w_blocks s /\ w_tensors s' = w_tensors s
  /\ w_destroyed s' = w_destroyed s.
Proof.
  intros s Hd H. pose proof (state_plain p files calls i) as Hpl. fold s in Hpl.
  assert (Hb : exists o, call_body p thread s (TensorCreate keys blocks) = (s, VTensor None blocks, o) /\ o <> Ok tt).
  { cbn [call_body]. unfold eqs_tensormap. destruct (labels_from_c keys) as [k|e|m|x].
    - destruct (Nat.eqb_spec (count_distinct block_ptr_eqb blocks) (length blocks)) as [E|E].
      + apply (count_distinct_NoDup _ block_ptr_eqb_eq) in E. contradiction.
      + cbn [negb]. eexists. split; [reflexivity|discriminate].
    - eexists. split; [reflexivity|discriminate].
    - eexists. split; [reflexivity|discriminate].
    - eexists. split; [reflexivity|discriminate]. }
  destruct Hb as (o & Hb & Hne). pose proof (run_call_zero _ _ _ _ _ _ _ Hpl H) as Hz.
  apply run_call_fields in H as (w1 & o' & Hb' & E1 & E2 & E3 & _). rewrite Hb in Hb'. injection Hb' as <- <- <-.
  split; [|auto]. intros E. apply Hz in E as [w2 E]. rewrite Hb in E. injection E as _ E. congruence.
Qed.

Lemma tensormap_takes_blocks p files calls i thread keys k blocks owned s' v r :
  never_crashed p (world_start files) calls -> ordinary p (world_start files) calls ->
  let s := state_at p (world_start files) calls i in
  labels_from_c keys = Ok k -> labels_names k <> [] -> NoDup blocks ->
  Forall2 (fun b ob => exists h, b = BlockAt h /\ block_at s h ob) blocks owned ->
  run_call p thread s (TensorCreate keys blocks) = (s', v, r) ->
  (forall h ob, block_at s' h ob <-> block_at s h ob /\ ~ In (BlockAt h) blocks)
  /\ (r = Returned 0 <-> homogeneous k (map ob_block owned))
  /\ exists tensor, v = VTensor tensor (map (fun _ => BlockNull) blocks)
  /\ (r = Returned 0 -> w_destroyed s' = w_destroyed s
      /\ exists h, tensor = Some h /\ (forall t, ~ tensor_at s h t)
        /\ w_tensors s' = (h, mk_owned_tensor (mk_tensor k (map ob_block owned)) (map ob_arrays owned)) :: w_tensors s)
  /\ (r <> Returned 0 -> tensor = None /\ w_tensors s' = w_tensors s
      /\ w_destroyed s' = w_destroyed s ++ concat (map ob_arrays owned)).
Proof.
  intros Hn Ho s Hk Hne Hd Hf H. pose proof (state_plain p files calls i) as Hpl. pose proof (owners_state p files calls Hn i) as Hown.
  pose proof (valid_state p files calls Ho i) as Hval. fold s in Hpl, Hown, Hval.
  assert (Hnd : NoDup (map fst (w_blocks s))) by apply (own_blocks _ _ Hown).
  assert (Hwf : Forall wf_block (map ob_block owned)).
  { apply Forall_map. clear -Hf Hval. induction Hf as [|b ob bs owned (h & _ & Hb) _ IH]; constructor; [|exact IH].
    destruct Hval as [Hval _]. rewrite Forall_forall in Hval. apply (Hval _ Hb). }
  assert (Hax : axis_labels k) by (split; [eapply labels_from_c_wf; exact Hk|exact Hne]).
  destruct (take_blocks_all blocks s owned Hnd Hd Hf) as (w1 & Ht & Hbs & E1 & E2 & E3 & _).
  pose proof (run_call_zero _ _ _ _ _ _ _ Hpl H) as Hz. apply run_call_fields in H as (w2 & o & Hb & F1 & F2 & F3 & _).
  pose proof Hb as Hb'. cbn [call_body] in Hb. unfold eqs_tensormap in Hb. rewrite Hk in Hb.
  rewrite (proj2 (count_distinct_NoDup _ block_ptr_eqb_eq blocks) Hd), Nat.eqb_refl in Hb. cbn [negb] in Hb. rewrite Ht in Hb. cbv zeta in Hb.
  destruct (tensor_map_new k (map ob_block owned)) as [t|e|m|x] eqn:En.
  - apply tensor_map_new_ok in En as [Hh ->]; [|assumption..]. injection Hb as <- <- <-. cbn in F1, F2, F3.
    assert (Hr : r = Returned 0) by (apply Hz; eexists; exact Hb'). split; [unfold block_at; rewrite F1; exact Hbs|].
    split; [tauto|]. exists (Some (w_next_handle w1)). split; [reflexivity|]. split; [|congruence]. intros _.
    split; [congruence|]. exists (w_next_handle s). rewrite <- E3. split; [reflexivity|]. split; [|congruence].
    intros t Hin. rewrite E3 in Hin. pose proof (own_tensors _ _ Hown) as [_ Hlt]. unfold tensor_at in Hin. rewrite Forall_forall in Hlt.
    specialize (Hlt _ Hin). cbn [fst] in Hlt. lia.
  - assert (Hno : ~ homogeneous k (map ob_block owned)).
    { intros Hh. assert (E : tensor_map_new k (map ob_block owned) = Ok (mk_tensor k (map ob_block owned))) by (apply tensor_map_new_ok; auto). congruence. }
    injection Hb as <- <- <-. cbn in F1, F2, F3.
    assert (Hr : r <> Returned 0) by (intros E; apply Hz in E as [w3 E]; rewrite Hb' in E; discriminate E).
    split; [unfold block_at; rewrite F1; exact Hbs|]. split; [tauto|]. exists None. split; [reflexivity|]. split; [tauto|]. intros _.
    split; [reflexivity|]. split; congruence.
  - assert (Hno : ~ homogeneous k (map ob_block owned)).
    { intros Hh. assert (E : tensor_map_new k (map ob_block owned) = Ok (mk_tensor k (map ob_block owned))) by (apply tensor_map_new_ok; auto). congruence. }
    injection Hb as <- <- <-. cbn in F1, F2, F3.
    assert (Hr : r <> Returned 0) by (intros E; apply Hz in E as [w3 E]; rewrite Hb' in E; discriminate E).
    split; [unfold block_at; rewrite F1; exact Hbs|]. split; [tauto|]. exists None. split; [reflexivity|]. split; [tauto|]. intros _.
    split; [reflexivity|]. split; congruence.
  - assert (Hno : ~ homogeneous k (map ob_block owned)).
    { intros Hh. assert (E : tensor_map_new k (map ob_block owned) = Ok (mk_tensor k (map ob_block owned))) by (apply tensor_map_new_ok; auto). congruence. }
    injection Hb as <- <- <-. cbn in F1, F2, F3.
    assert (Hr : r <> Returned 0) by (intros E; apply Hz in E as [w3 E]; rewrite Hb' in E; discriminate E).
    split; [unfold block_at; rewrite F1; exact Hbs|]. split; [tauto|]. exists None. split; [reflexivity|]. split; [tauto|]. intros _.
    split; [reflexivity|]. split; congruence.
Qed.

(** * C56 *)

Lemma update_In {A} h (a : A) l h' a' : In (h', a') (update_handle h a l) -> h' = h \/ In (h', a') l.
Proof.
  unfold update_handle. intros H. apply in_map_iff in H as ([k x] & E & Hin). cbn [fst] in E.
  destruct (k =? h); injection E as <- <-; auto.
Qed.

Lemma In_update {A} h (a : A) l h' a' : h' <> h -> In (h', a') l -> In (h', a') (update_handle h a l).
Proof.
  intros Hne Hin. unfold update_handle. apply in_map_iff. exists (h', a'). cbn [fst]. apply Nat.eqb_neq in Hne. rewrite Hne. auto.
Qed.

(* the blocks and tensor maps which were not given to the call are still there;
   the others were given to the call or made by it *)
Definition frame (c : c_call) (w w' : world) (v : c_value) : Prop :=
  (forall h b, ~ changes_block c h -> block_at w h b -> block_at w' h b)
  /\ (forall h b, block_at w' h b -> block_at w h b \/ changes_block c h \/ (v = VBlock (BlockAt h) /\ h = w_next_handle w))
  /\ (forall h t, ~ changes_tensor c h -> tensor_at w h t -> tensor_at w' h t)
  /\ (forall h t, tensor_at w' h t -> tensor_at w h t \/ changes_tensor c h
        \/ (exists l, v = VTensor (Some h) l) /\ h = w_next_handle w).

Lemma frame_same c w w' v : w_blocks w' = w_blocks w -> w_tensors w' = w_tensors w -> frame c w w' v.
Proof. intros E1 E2. unfold frame, block_at, tensor_at. rewrite E1, E2. auto 10. Qed.

Lemma take_blocks_frame bs : forall w w' o, take_blocks w bs = (w', o) ->
  (forall h b, ~ In (BlockAt h) bs -> block_at w h b -> block_at w' h b) /\ (forall h b, block_at w' h b -> block_at w h b)
  /\ w_tensors w' = w_tensors w /\ w_next_handle w' = w_next_handle w.
Proof.
  induction bs as [|b bs IH]; intros w w' o H; cbn [take_blocks] in H; [injection H as <- <-; auto|].
  destruct (get_block w b) as [[h ob]|e|m|r] eqn:Eg; [|injection H as <- <-; auto..].
  apply get_block_ok in Eg as [-> Eg]. destruct (take_blocks (set_blocks w (remove_handle h (w_blocks w))) bs) as [w1 o1] eqn:Et.
  injection H as <- <-. apply IH in Et as (H1 & H2 & H3 & H4). split; [|split; [|split; [exact H3|exact H4]]].
  - intros h' b' Hn Hb. apply H1; [intros E; apply Hn; right; exact E|]. unfold block_at. cbn. apply remove_In.
    split; [exact Hb|]. intros ->. apply Hn. left. reflexivity.
  - intros h' b' Hb. apply H2 in Hb. unfold block_at in Hb. cbn in Hb. apply remove_In in Hb as [Hb _]. exact Hb.
Qed.

Lemma move_keys_frame c w tensor keys temporary move w' v o :
  (forall h, changes_tensor c h <-> tensor = Some h) -> move_keys w tensor keys temporary move = (w', v, o) -> frame c w w' v.
Proof.
  intros Hc H. unfold move_keys in H. cbv zeta in H.
  match type of H with match ?x with _ => _ end = _ => destruct x as [[[h k] t]|e|m|r] eqn:E end;
    [|injection H as <- <- <-; apply frame_same; reflexivity..].
  apply bind_ok in E as (h1 & Eh & E). apply bind_ok in E as (k1 & _ & E). apply bind_ok in E as (t1 & Et & E).
  injection E as -> -> ->. destruct tensor as [h0|]; [|discriminate Eh]. injection Eh as ->.
  destruct (move (ot_tensor t) k) as [moved r]. destruct r as [[]|e|m|r].
  - destruct (new_blocks_arrays w (tm_blocks moved)) as [w1 arrays] eqn:En. injection H as <- <- <-.
    apply new_blocks_arrays_handles in En as (E1 & E2 & _). unfold frame, block_at, tensor_at. cbn. rewrite E1, E2.
    split; [auto|]. split; [auto|]. split.
    + intros h' t' Hn Hin. apply In_update; [|exact Hin]. intros ->. apply Hn. apply Hc. reflexivity.
    + intros h' t' Hin. apply update_In in Hin as [->|Hin]; [right; left; apply Hc; reflexivity|auto].
  - injection H as <- <- <-. unfold frame, block_at, tensor_at. cbn. split; [auto|]. split; [auto|]. split.
    + intros h' t' Hn Hin. apply In_update; [|exact Hin]. intros ->. apply Hn. apply Hc. reflexivity.
    + intros h' t' Hin. apply update_In in Hin as [->|Hin]; [right; left; apply Hc; reflexivity|auto].
  - injection H as <- <- <-. unfold frame, block_at, tensor_at. cbn. split; [auto|]. split; [auto|]. split.
    + intros h' t' Hn Hin. apply In_update; [|exact Hin]. intros ->. apply Hn. apply Hc. reflexivity.
    + intros h' t' Hin. apply update_In in Hin as [->|Hin]; [right; left; apply Hc; reflexivity|auto].
  - injection H as <- <- <-. unfold frame, block_at, tensor_at. cbn. split; [auto|]. split; [auto|]. split.
    + intros h' t' Hn Hin. apply In_update; [|exact Hin]. intros ->. apply Hn. apply Hc. reflexivity.
    + intros h' t' Hin. apply update_In in Hin as [->|Hin]; [right; left; apply Hc; reflexivity|auto].
Qed.

Lemma call_body_frame p thread w c w' v o : call_body p thread w c = (w', v, o) -> frame c w w' v.
Proof.
  intros H. destruct c; cbn [call_body] in H; try (apply reading_world in H as ->; apply frame_same; reflexivity).
  - unfold eqs_register_data_origin in H. cbv zeta in H. match type of H with match ?x with _ => _ end = _ => destruct x end.
    + destruct (register_data_origin _ _). injection H as <- <- <-. apply frame_same; reflexivity.
    + injection H as <- <- <-. apply frame_same; reflexivity.
    + injection H as <- <- <-. apply frame_same; reflexivity.
    + injection H as <- <- <-. apply frame_same; reflexivity.
  - unfold eqs_get_data_origin in H. destruct buffer; [|injection H as <- <- <-; apply frame_same; reflexivity].
    destruct (get_data_origin _ _); [|injection H as <- <- <-; apply frame_same; reflexivity..]. destruct (copy_str_to_c _ _ _).
    injection H as <- <- <-. apply frame_same; reflexivity.
  - unfold eqs_block in H. destruct (new_arrays w 1) as [w1 arrays] eqn:E. cbv zeta in H.
    unfold new_arrays in E. injection E as <- <-.
    match type of H with match ?x with _ => _ end = _ => destruct x as [b|e|m|r] eqn:Eb end;
      [|injection H as <- <- <-; apply frame_same; reflexivity..].
    injection H as <- <- <-. unfold frame, block_at, tensor_at. cbn. split; [auto|]. split; [|auto].
    intros h b0 [E|Hin]; [injection E as <- _; auto|auto].
  - unfold eqs_block_free in H. destruct block as [|h|t i]; [injection H as <- <- <-; apply frame_same; reflexivity| |].
    + destruct (get_block w (BlockAt h)) as [[h' b]|e|m|r] eqn:Eg; [|injection H as <- <- <-; apply frame_same; reflexivity..].
      apply get_block_ok in Eg as [Eh _]. injection Eh as <-.
      injection H as <- <- <-. unfold frame, block_at, tensor_at. cbn. split; [|split; [|auto]].
      * intros h' b' Hn Hin. apply remove_In. split; [exact Hin|]. intros ->. apply Hn. reflexivity.
      * intros h' b' Hin. apply remove_In in Hin as [Hin _]. auto.
    + injection H as <- <- <-. apply frame_same; reflexivity.
  - unfold eqs_block_copy in H. match type of H with match ?x with _ => _ end = _ => destruct x as [b|e|m|r] eqn:Eb end;
      [|injection H as <- <- <-; apply frame_same; reflexivity..].
    destruct (clone_arrays (block_arrays (ob_block b))) as [n r] eqn:Ec. destruct (new_arrays w n) as [w1 arrays] eqn:E.
    unfold new_arrays in E. injection E as <- <-.
    destruct r as [[]|e|m|r]; [|injection H as <- <- <-; apply frame_same; reflexivity..].
    injection H as <- <- <-. unfold frame, block_at, tensor_at. cbn. split; [auto|]. split; [|auto].
    intros h b0 [E|Hin]; [injection E as <- _; auto|auto].
  - unfold eqs_block_add_gradient in H. destruct (new_arrays w 1) as [w1 arrays] eqn:E. cbv zeta in H.
    unfold new_arrays in E. injection E as <- <-.
    match type of H with match ?x with _ => _ end = _ => destruct x as [[[[[h b] q] s] cs]|e|m|r] eqn:Eb end;
      [|injection H as <- <- <-; apply frame_same; reflexivity..].
    apply bind_ok in Eb as (b0 & Hb0 & Eb). apply bind_ok in Eb as (q0 & _ & Eb). apply bind_ok in Eb as (q1 & Hq & Eb).
    apply bind_ok in Eb as (s0 & Hs & Eb). apply bind_ok in Eb as (cs0 & Hcs & Eb). apply bind_ok in Eb as ([h0 b1] & Eg & Eb).
    injection Eb as -> -> -> -> ->. apply get_block_ok in Eg as [-> _].
    assert (block = BlockAt h) as -> by (destruct block; cbn in Hb0; congruence).
    destruct (tensor_block_add_gradient (ob_block b) q data s cs) as [b' r] eqn:Ea.
    destruct (_ <? _); injection H as <- <- <-; [|apply frame_same; reflexivity].
    unfold frame, block_at, tensor_at. cbn. split; [|split; [|auto]].
    + intros h' b0 Hn Hin. apply In_update; [|exact Hin]. intros ->. apply Hn. reflexivity.
    + intros h' b0 Hin. apply update_In in Hin as [->|Hin]; auto.
  - unfold eqs_tensormap in H. destruct (labels_from_c keys) as [k|e|m|r] eqn:Ek; [|injection H as <- <- <-; apply frame_same; reflexivity..].
    destruct (negb _); [injection H as <- <- <-; apply frame_same; reflexivity|]. destruct (take_blocks w blocks) as [w1 o1] eqn:Et.
    apply take_blocks_frame in Et as (H1 & H2 & H3 & H4).
    assert (Hsame : forall w2 v, w_blocks w2 = w_blocks w1 -> w_tensors w2 = w_tensors w1 -> frame (TensorCreate keys blocks) w w2 v).
    { intros w2 v0 E1 E2. unfold frame, tensor_at. rewrite E2, H3. split; [|split; [|auto]].
      - intros h b Hn Hin. unfold block_at. rewrite E1. apply H1; assumption.
      - intros h b Hin. unfold block_at in Hin. rewrite E1 in Hin. left. apply H2. exact Hin. }
    destruct o1 as [owned|e|m|r]; [|injection H as <- <- <-; apply Hsame; reflexivity..]. cbv zeta in H.
    destruct (tensor_map_new k (map ob_block owned)) as [t|e|m|r] eqn:En; [|injection H as <- <- <-; apply Hsame; reflexivity..].
    injection H as <- <- <-. unfold frame, tensor_at. cbn. rewrite H3, H4. split; [|split; [|split; [auto|]]].
    + intros h b Hn Hin. apply H1; assumption.
    + intros h b Hin. left. apply H2. exact Hin.
    + intros h t' [E|Hin]; [injection E as <- _; right; right; split; [eexists; reflexivity|reflexivity]|auto].
  - unfold eqs_tensormap_free in H. destruct tensor as [h|]; [|injection H as <- <- <-; apply frame_same; reflexivity].
    destruct (get_tensor w h) as [t|e|m|r] eqn:Eg; [|injection H as <- <- <-; apply frame_same; reflexivity..].
    injection H as <- <- <-. unfold frame, block_at, tensor_at. cbn. split; [auto|]. split; [auto|]. split.
    + intros h' b' Hn Hin. apply remove_In. split; [exact Hin|]. intros ->. apply Hn. reflexivity.
    + intros h' b' Hin. apply remove_In in Hin as [Hin _]. auto.
  - unfold eqs_tensormap_blocks_matching in H. cbv zeta in H.
    match type of H with match ?x with _ => _ end = _ => destruct x as [[b idx]|e|m|r] end; [|injection H as <- <- <-; apply frame_same; reflexivity..].
    destruct (write_indexes 0 b idx). injection H as <- <- <-. apply frame_same; reflexivity.
  - eapply move_keys_frame; [|exact H]. intros h. reflexivity.
  - unfold eqs_tensormap_components_to_properties in H. cbv zeta in H.
    match type of H with match ?x with _ => _ end = _ => destruct x as [[[h vs] t]|e|m|r] eqn:E end; [|injection H as <- <- <-; apply frame_same; reflexivity..].
    apply bind_ok in E as (h1 & Eh & E). apply bind_ok in E as (k1 & _ & E). apply bind_ok in E as (k2 & _ & E).
    apply bind_ok in E as (t1 & Et & E). injection E as -> -> ->. destruct tensor as [h0|]; [|discriminate Eh]. injection Eh as ->.
    destruct (components_to_properties (ot_tensor t) vs) as [moved r] eqn:Ec. injection H as <- <- <-.
    unfold frame, block_at, tensor_at. cbn. split; [auto|]. split; [auto|]. split.
    + intros h' t' Hn Hin. apply In_update; [|exact Hin]. intros ->. apply Hn. reflexivity.
    + intros h' t' Hin. apply update_In in Hin as [->|Hin]; auto.
  - eapply move_keys_frame; [|exact H]. intros h. reflexivity.
  - unfold eqs_tensormap_load in H. cbv zeta in H.
    match type of H with match ?x with _ => _ end = _ => destruct x as [t|e|m|r] eqn:E end; [|injection H as <- <- <-; apply frame_same; reflexivity..].
    destruct (new_blocks_arrays w (tm_blocks t)) as [w1 arrays] eqn:En. injection H as <- <- <-.
    apply new_blocks_arrays_handles in En as (E1 & E2 & E3). unfold frame, block_at, tensor_at. cbn. rewrite E1, E2, E3.
    split; [auto|]. split; [auto|]. split; [auto|].
    intros h t' [E0|Hin]; [injection E0 as <- _; right; right; split; [eexists; reflexivity|reflexivity]|auto].
  - unfold eqs_tensormap_save in H. cbv zeta in H.
    match type of H with match ?x with _ => _ end = _ => destruct x as [[path' t]|e|m|r] end; [|injection H as <- <- <-; apply frame_same; reflexivity..].
    destruct (save LittleEndian (ot_tensor t)); injection H as <- <- <-; apply frame_same; reflexivity.
  - injection H as <- <- <-. apply frame_same; reflexivity.
Qed.

Lemma call_body_next p thread w c : w_next_handle w <= w_next_handle (fst (fst (call_body p thread w c))).
Proof.
  destruct c; cbn [call_body]; try reflexivity.
  - unfold eqs_register_data_origin. steps; reflexivity.
  - unfold eqs_get_data_origin. steps; reflexivity.
  - unfold eqs_labels_position. steps; reflexivity.
  - unfold eqs_block. steps; cbn; lia.
  - unfold eqs_block_free. steps; reflexivity.
  - unfold eqs_block_copy. steps; cbn; lia.
  - unfold eqs_block_labels. steps; reflexivity.
  - unfold eqs_block_data. steps; reflexivity.
  - unfold eqs_block_add_gradient. steps; reflexivity.
  - unfold eqs_block_gradients_list. steps; reflexivity.
  - unfold eqs_tensormap. destruct (take_blocks w blocks) as [w1 o] eqn:E.
    apply take_blocks_frame in E as (_ & _ & _ & E). steps; cbn; lia.
  - unfold eqs_tensormap_free. steps; reflexivity.
  - unfold eqs_tensormap_keys. steps; reflexivity.
  - unfold eqs_tensormap_block_by_id. steps; reflexivity.
  - unfold eqs_tensormap_blocks_matching. steps; reflexivity.
  - unfold eqs_tensormap_keys_to_properties. steps; try reflexivity.
    match goal with H : new_blocks_arrays ?w ?bs = _ |- _ => apply new_blocks_arrays_handles in H as (_ & _ & H) end. cbn. lia.
  - unfold eqs_tensormap_components_to_properties. steps; reflexivity.
  - unfold eqs_tensormap_keys_to_samples. steps; try reflexivity.
    match goal with H : new_blocks_arrays ?w ?bs = _ |- _ => apply new_blocks_arrays_handles in H as (_ & _ & H) end. cbn. lia.
  - unfold eqs_tensormap_load. steps; try reflexivity.
    match goal with H : new_blocks_arrays ?w ?bs = _ |- _ => apply new_blocks_arrays_handles in H as (_ & _ & H) end. cbn. lia.
  - unfold eqs_tensormap_save. steps; reflexivity.
Qed.

Lemma next_handle_grows p w calls i j : i <= j ->
  w_next_handle (state_at p w calls i) <= w_next_handle (state_at p w calls j).
Proof.
  intros H. induction H as [|j H IH]; [reflexivity|]. etransitivity; [exact IH|].
  destruct (state_at_next p calls w j) as [(t & c & v & r & Hc)|Hs]; [|rewrite Hs; reflexivity].
  apply called_step in Hc. apply run_call_fields in Hc as (w1 & o & Hb & _ & _ & _ & _ & _ & _ & ->).
  pose proof (call_body_next p t (state_at p w calls j) c) as Hn. rewrite Hb in Hn. exact Hn.
Qed.

Lemma call_frame p files calls i thread c v r :
  never_crashed p (world_start files) calls ->
  called p (world_start files) calls i thread c v r ->
  let before := state_at p (world_start files) calls i in
  let after := state_at p (world_start files) calls (S i) in
  (forall h b, ~ changes_block c h -> block_at before h b -> block_at after h b)
  /\ (forall h b, block_at after h b -> block_at before h b \/ changes_block c h
        \/ (v = VBlock (BlockAt h) /\ forall j b', j <= i -> ~ block_at (state_at p (world_start files) calls j) h b'))
  /\ (forall h t, ~ changes_tensor c h -> tensor_at before h t -> tensor_at after h t)
  /\ (forall h t, tensor_at after h t -> tensor_at before h t \/ changes_tensor c h
        \/ ((exists l, v = VTensor (Some h) l)
            /\ forall j t', j <= i -> ~ tensor_at (state_at p (world_start files) calls j) h t')).
Proof.
  intros Hn Hc before after. pose proof (called_step _ _ _ _ _ _ _ _ Hc) as H. apply run_call_fields in H as (w1 & o & Hb & E1 & E2 & _).
  apply call_body_frame in Hb. unfold frame in Hb. destruct Hb as (H1 & H2 & H3 & H4).
  fold after in E1, E2. fold before in H1, H2, H3, H4.
  assert (Hnew : forall j, j <= i -> let w := state_at p (world_start files) calls j in
    (forall b, ~ block_at w (w_next_handle before) b) /\ (forall t, ~ tensor_at w (w_next_handle before) t)).
  { intros j Hj w. pose proof (next_handle_grows p (world_start files) calls j i Hj) as Hle. fold before w in Hle.
    pose proof (owners_state p files calls Hn j) as Hown. fold w in Hown.
    pose proof (own_blocks _ _ Hown) as [_ Hlb]. pose proof (own_tensors _ _ Hown) as [_ Hlt]. rewrite Forall_forall in Hlb, Hlt.
    split; [intros b Hin; specialize (Hlb _ Hin); cbn [fst] in Hlb; lia|intros t Hin; specialize (Hlt _ Hin); cbn [fst] in Hlt; lia]. }
  unfold block_at, tensor_at in *. rewrite E1, E2. repeat split.
  - exact H1.
  - intros h b Hin. destruct (H2 _ _ Hin) as [H|[H|[-> ->]]]; auto. right. right. split; [reflexivity|].
    intros j b' Hj. apply (Hnew j Hj).
  - exact H3.
  - intros h b Hin. destruct (H4 _ _ Hin) as [H|[H|[H ->]]]; auto. right. right. split; [exact H|].
    intros j b' Hj. apply (Hnew j Hj).
Qed.

(** * C57 *)

Lemma update_same {A} h (a : A) l : NoDup (map fst l) -> hm_get Nat.eqb l h = Some a -> update_handle h a l = l.
Proof.
  intros Hnd Hg. apply hm_get_at in Hg. unfold update_handle. rewrite <- (map_id l) at 2. apply map_ext_in. intros [k x] Hin. cbn [fst].
  destruct (Nat.eqb_spec k h) as [->|Hne]; [|reflexivity]. f_equal.
  apply (BaseFacts.In_hm_get _ Nat.eqb_eq _ _ _ Hnd) in Hg, Hin. congruence.
Qed.

Lemma move_keys_failure w tensor keys temporary move w' v o : owners w -> keeps_on_failure move ->
  move_keys w tensor keys temporary move = (w', v, o) -> o <> Ok tt ->
  w_blocks w' = w_blocks w /\ w_tensors w' = w_tensors w.
Proof.
  intros Hw Hk H Hne. unfold move_keys in H. cbv zeta in H.
  match type of H with match ?x with _ => _ end = _ => destruct x as [[[h k] t]|e|m|r] eqn:E end;
    [|injection H as <- <- <-; split; reflexivity..].
  apply bind_ok in E as (h1 & Eh & E). apply bind_ok in E as (k1 & _ & E). apply bind_ok in E as (t1 & Et & E).
  injection E as -> -> ->. apply get_tensor_ok in Et. pose proof (own_tensors _ _ Hw) as [Hnd _].
  destruct (move (ot_tensor t) k) as [moved r] eqn:Em. pose proof (Hk _ _ _ _ Em) as Hcase.
  destruct r as [[]|e|m|r].
  - destruct (new_blocks_arrays w (tm_blocks moved)) as [w1 arrays] eqn:En. injection H as <- <- <-. congruence.
  - injection H as <- <- <-. destruct Hcase as [Hcase| ->]; [discriminate Hcase|]. cbn. split; [reflexivity|].
    rewrite update_same; [reflexivity|exact Hnd|]. destruct t. exact Et.
  - injection H as <- <- <-. destruct Hcase as [Hcase| ->]; [discriminate Hcase|]. cbn. split; [reflexivity|].
    rewrite update_same; [reflexivity|exact Hnd|]. destruct t. exact Et.
  - injection H as <- <- <-. destruct Hcase as [Hcase| ->]; [discriminate Hcase|]. cbn. split; [reflexivity|].
    rewrite update_same; [reflexivity|exact Hnd|]. destruct t. exact Et.
Qed.

Lemma call_body_failure p thread w c w' v o : owners w -> transactional c -> call_body p thread w c = (w', v, o) ->
  o <> Ok tt -> w_blocks w' = w_blocks w /\ w_tensors w' = w_tensors w.
Proof.
  intros Hw Ht H Hne. destruct c; cbn [call_body] in H; try (apply reading_world in H as ->; split; reflexivity); try destruct Ht.
  - unfold eqs_register_data_origin in H. cbv zeta in H. match type of H with match ?x with _ => _ end = _ => destruct x end.
    + destruct (register_data_origin _ _). injection H as <- <- <-. split; reflexivity.
    + injection H as <- <- <-. split; reflexivity.
    + injection H as <- <- <-. split; reflexivity.
    + injection H as <- <- <-. split; reflexivity.
  - unfold eqs_get_data_origin in H. destruct buffer; [|injection H as <- <- <-; split; reflexivity].
    destruct (get_data_origin _ _); [|injection H as <- <- <-; split; reflexivity..]. destruct (copy_str_to_c _ _ _).
    injection H as <- <- <-. split; reflexivity.
  - unfold eqs_block in H. destruct (new_arrays w 1) as [w1 arrays] eqn:E. cbv zeta in H.
    unfold new_arrays in E. injection E as <- <-.
    match type of H with match ?x with _ => _ end = _ => destruct x as [b|e|m|r] eqn:Eb end;
      [|injection H as <- <- <-; split; reflexivity..].
    injection H as <- <- <-. congruence.
  - unfold eqs_block_free in H. destruct block as [|h|t i]; [injection H as <- <- <-; split; reflexivity| |].
    + destruct (get_block w (BlockAt h)) as [[h' b]|e|m|r] eqn:Eg; [|injection H as <- <- <-; split; reflexivity..].
      injection H as <- <- <-. congruence.
    + injection H as <- <- <-. split; reflexivity.
  - unfold eqs_block_copy in H. match type of H with match ?x with _ => _ end = _ => destruct x as [b|e|m|r] eqn:Eb end;
      [|injection H as <- <- <-; split; reflexivity..].
    destruct (clone_arrays (block_arrays (ob_block b))) as [n r] eqn:Ec. destruct (new_arrays w n) as [w1 arrays] eqn:E.
    unfold new_arrays in E. injection E as <- <-.
    destruct r as [[]|e|m|r]; [|injection H as <- <- <-; split; reflexivity..]. injection H as <- <- <-. congruence.
  - unfold eqs_block_add_gradient in H. destruct (new_arrays w 1) as [w1 arrays] eqn:E. cbv zeta in H.
    unfold new_arrays in E. injection E as <- <-.
    match type of H with match ?x with _ => _ end = _ => destruct x as [[[[[h b] q] s] cs]|e|m|r] eqn:Eb end;
      [|injection H as <- <- <-; split; reflexivity..].
    apply bind_ok in Eb as (b0 & Hb0 & Eb). apply bind_ok in Eb as (q0 & _ & Eb). apply bind_ok in Eb as (q1 & Hq & Eb).
    apply bind_ok in Eb as (s0 & Hs & Eb). apply bind_ok in Eb as (cs0 & Hcs & Eb). apply bind_ok in Eb as ([h0 b1] & Eg & Eb).
    injection Eb as -> -> -> -> ->.
    destruct (tensor_block_add_gradient (ob_block b) q data s cs) as [b' r] eqn:Ea.
    assert (Hq' : has_nul q = false).
    { unfold c_str_to_str in Hq. destruct (is_utf8 _ _); [|discriminate Hq]. injection Hq as <-. apply no_nul_c_str. }
    destruct (add_gradient_frame _ _ _ _ _ _ _ Hq' Ea) as [Hf _].
    destruct (Nat.ltb_spec (length (tb_gradients (ob_block b))) (length (tb_gradients b'))) as [Hlt|Hge];
      injection H as <- <- <-; [|split; reflexivity].
    rewrite Hf in Hlt by assumption. lia.
  - unfold eqs_tensormap_free in H. destruct tensor as [h|]; [|injection H as <- <- <-; split; reflexivity].
    destruct (get_tensor w h) as [t|e|m|r] eqn:Eg; [|injection H as <- <- <-; split; reflexivity..].
    injection H as <- <- <-. congruence.
  - unfold eqs_tensormap_blocks_matching in H. cbv zeta in H.
    match type of H with match ?x with _ => _ end = _ => destruct x as [[b idx]|e|m|r] end; [|injection H as <- <- <-; split; reflexivity..].
    destruct (write_indexes 0 b idx). injection H as <- <- <-. split; reflexivity.
  - eapply move_keys_failure; [exact Hw|apply keys_to_properties_keeps|exact H|exact Hne].
  - eapply move_keys_failure; [exact Hw|apply keys_to_samples_keeps|exact H|exact Hne].
  - unfold eqs_tensormap_load in H. cbv zeta in H.
    match type of H with match ?x with _ => _ end = _ => destruct x as [t|e|m|r] eqn:E end; [|injection H as <- <- <-; split; reflexivity..].
    destruct (new_blocks_arrays w (tm_blocks t)) as [w1 arrays] eqn:En. injection H as <- <- <-. congruence.
  - unfold eqs_tensormap_save in H. cbv zeta in H.
    match type of H with match ?x with _ => _ end = _ => destruct x as [[path' t]|e|m|r] end; [|injection H as <- <- <-; split; reflexivity..].
    destruct (save LittleEndian (ot_tensor t)); injection H as <- <- <-; split; reflexivity.
  - injection H as <- <- <-. split; reflexivity.
Qed.

Lemma failed_call_keeps p files calls i thread c v r :
  never_crashed p (world_start files) calls ->
  called p (world_start files) calls i thread c v r -> r <> Returned 0 -> transactional c ->
  let before := state_at p (world_start files) calls i in
  let after := state_at p (world_start files) calls (S i) in
  w_blocks after = w_blocks before /\ w_tensors after = w_tensors before.
Proof.
  intros Hn Hc Hr Ht before after. pose proof (called_step _ _ _ _ _ _ _ _ Hc) as H.
  pose proof (run_call_zero _ _ _ _ _ _ _ (state_plain p files calls i) H) as Hz.
  apply run_call_fields in H as (w1 & o & Hb & E1 & E2 & _). fold before in Hb, Hz. fold after in E1, E2.
  rewrite E1, E2. eapply call_body_failure; [apply (owners_state p files calls Hn i)|exact Ht|exact Hb|].
  intros ->. apply Hr. apply Hz. exists w1. exact Hb.
Qed.

(** * C33 *)

Lemma get_data_origin_copies p files calls j thread id buffer v r :
  called p (world_start files) calls j thread (GetDataOrigin id (Some buffer)) v r -> 0 < length buffer ->
  exists name,
    (forall i n, i < j -> registered p (world_start files) calls i n id -> n = name)
    /\ ((forall i n, i < j -> ~ registered p (world_start files) calls i n id) -> name = "unregistered origin")
    /\ (String.length name < length buffer ->
          r = Returned 0 /\ v = VText (list_ascii_of_string name ++ nul :: skipn (S (String.length name)) buffer))
    /\ (length buffer <= String.length name -> r = Returned 1 /\ v = VText buffer).
Proof.
  intros Hc Hlen. destruct (get_data_origin_named p files calls j id) as (name & Hn & H1 & H2).
  exists name. split; [exact H1|]. split; [exact H2|]. apply called_step in Hc.
  set (s := state_at p (world_start files) calls j) in *.
  assert (Hb : call_body p thread s (GetDataOrigin id (Some buffer)) =
    let '(b, o) := copy_str_to_c p name buffer in (s, VText b, o)).
  { cbn [call_body]. unfold eqs_get_data_origin. rewrite Hn. reflexivity. }
  split; intros Hl.
  - pose proof (proj2 (copy_str_to_c_ok p name buffer _) (conj Hl eq_refl)) as E. rewrite E in Hb.
    rewrite (run_call_ok _ _ _ _ _ _ Hb) in Hc. injection Hc as _ <- <-. split; reflexivity.
  - destruct (copy_str_to_c_small p name buffer Hlen Hl) as [m E]. rewrite E in Hb.
    destruct (run_call_error p thread s (GetDataOrigin id (Some buffer)) _ _ _ (state_plain p files calls j) I Hb) as [w2 Er].
    rewrite Er in Hc. injection Hc as _ <- <-. split; reflexivity.
Qed.

(** * Everything is well formed (C55) *)

Lemma everything_well_formed p files calls i : never_crashed p (world_start files) calls -> ordinary p (world_start files) calls ->
  let s := state_at p (world_start files) calls i in
  (forall block b, points_to s block b -> wf_block (ob_block b) /\ Forall (fun a => In a (owned_arrays s)) (ob_arrays b)
     /\ length (ob_arrays b) = 1 + length (tb_gradients (ob_block b)))
  /\ (forall h t, tensor_at s h t -> wf_tensor (ot_tensor t)).
Proof.
  intros Hn Ho s. pose proof (owners_state p files calls Hn i) as Hown. pose proof (valid_state p files calls Ho i) as Hval.
  fold s in Hown, Hval. split.
  - intros block b Hb. apply (points_to_read _ _ _ Hown) in Hb. destruct (valid_read _ _ _ Hval Hb) as [Hwf _].
    destruct (read_block_owned _ _ _ Hown Hb) as [Harr Hincl]. split; [exact Hwf|]. split; [|exact Harr].
    apply Forall_forall. exact Hincl.
  - intros h t Ht. destruct Hval as [_ H]. rewrite Forall_forall in H. apply (H _ Ht).
Qed.
