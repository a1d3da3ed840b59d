(* Labels, selections and names of origins from Python *)
From Coq Require Import Permutation Sorting.Sorted.
From Verif Require Import Base BaseFacts Labels Array Block Tensor Npy Io Origin CApi Spec SpecTensor SpecIo SpecApi
  LabelsFacts TensorFacts NpyFacts LabelsApiFacts DefinedFacts ApiFacts ReportFacts OwnerFacts ReachFacts HandleFacts SafeFacts CallFacts
  PyIo PyLabels SpecPyLabels PyLabelsFacts.
Local Open Scope string_scope.
Local Open Scope list_scope.
Local Open Scope nat_scope.

(** * Integers in 32 bits *)

Lemma wrap_32_same z : same_32_bits z (wrap_32 z).
Proof.
  unfold same_32_bits, wrap_32, to_signed_32. pose proof (Z.mod_pos_bound z (2 ^ 32) ltac:(reflexivity)) as Hb.
  pose proof (Z.div_mod z (2 ^ 32) ltac:(discriminate)) as Hd. change (2 ^ 31)%Z with 2147483648%Z. change (2 ^ 32)%Z with 4294967296%Z in *.
  destruct (Z.ltb_spec (z mod 4294967296) 2147483648) as [H|H].
  - split; [apply andb_true_iff; unfold i32_min, i32_max; split; apply Z.leb_le; lia|]. exists (z / 4294967296)%Z. lia.
  - split; [apply andb_true_iff; unfold i32_min, i32_max; split; apply Z.leb_le; lia|]. exists (z / 4294967296 + 1)%Z. lia.
Qed.

Lemma wrap_32_i32 z : is_i32 z = true -> wrap_32 z = z.
Proof.
  intros H. destruct (wrap_32_same z) as [Hw [k Hk]]. unfold is_i32, i32_min, i32_max in *. change (2 ^ 32)%Z with 4294967296%Z in Hk.
  apply andb_true_iff in H as [H1 H2]. apply andb_true_iff in Hw as [H3 H4]. apply Z.leb_le in H1, H2, H3, H4. lia.
Qed.

Lemma map_wrap_i32 row : Forall (fun z => is_i32 z = true) row -> map wrap_32 row = row.
Proof. induction 1 as [|z row Hz _ IH]; cbn [map]; [reflexivity|]. rewrite IH, wrap_32_i32 by exact Hz. reflexivity. Qed.

(** * The constructor *)

Lemma has_duplicates_NoDup {A} (eqb : A -> A -> bool) : (forall a b, eqb a b = true <-> a = b) ->
  forall l, has_duplicates eqb l = false <-> NoDup l.
Proof.
  intros Heq. induction l as [|a l IH]; cbn [has_duplicates]; [split; [constructor|reflexivity]|].
  rewrite orb_false_iff, IH, NoDup_cons_iff. split.
  - intros [H1 H2]. split; [|exact H2]. intros Hin. assert (existsb (eqb a) l = true); [|congruence].
    apply existsb_exists. exists a. split; [exact Hin|]. apply Heq. reflexivity.
  - intros [H1 H2]. split; [|exact H2]. destruct (existsb (eqb a) l) eqn:E; [|reflexivity]. apply existsb_exists in E as (b & Hb & E).
    apply Heq in E. subst b. contradiction.
Qed.

Lemma field_names_same names : forall i, ~ In "" names -> field_names i names = names.
Proof.
  induction names as [|n names IH]; intros i H; cbn [field_names]; [reflexivity|]. rewrite IH by (intros Hin; apply H; right; exact Hin).
  destruct (String.eqb_spec n "") as [->|]; [|reflexivity]. contradiction H. left. reflexivity.
Qed.

Lemma labels_new_rows names columns values l : Forall (fun row => length row = columns) values -> labels_new names columns values = Ok l ->
  py_names l = field_names 0 names /\ py_rows l = map (map wrap_32) values.
Proof.
  intros Hv H. destruct (plain_same l (plain_new _ _ _ _ Hv H)) as [_ Hr]. apply labels_new_ok in H as (E & _ & _ & ->).
  destruct (contiguous_fields (field_names 0 names) columns) as (E1 & _ & E3); [rewrite field_names_length; exact E|].
  split; [exact E3|]. rewrite <- Hr. unfold c_rows, as_eqs_labels. cbn [cl_values cl_count cl_size pl_start pl_memory pl_fields pl_count skipn].
  rewrite E1. rewrite <- (app_nil_r (concat _)). rewrite <- (map_length (map wrap_32) values). apply take_rows_concat.
  rewrite Forall_map. eapply Forall_impl; [|exact Hv]. intros row Hrow. cbn beta in *. rewrite map_length. exact Hrow.
Qed.

Lemma labels_new_exact names columns values : Forall (fun row => length row = columns) values ->
  Forall (Forall (fun z => is_i32 z = true)) values -> ~ In "" names ->
  ((exists l, labels_new names columns values = Ok l) <-> length names = columns /\ NoDup names /\ (columns <> 0 -> NoDup values))
  /\ (forall l, labels_new names columns values = Ok l -> py_names l = names /\ py_rows l = values).
Proof.
  intros Hv Hi Hne.
  assert (Hw : map (map wrap_32) values = values).
  { clear -Hi. induction Hi as [|row values Hr _ IH]; cbn [map]; [reflexivity|]. rewrite IH, map_wrap_i32 by exact Hr. reflexivity. }
  split.
  - split.
    + intros [l H]. apply labels_new_ok in H as (H1 & H2 & H3 & _). rewrite field_names_same in H2 by exact Hne. rewrite Hw in H3.
      split; [exact H1|]. split; [apply (has_duplicates_NoDup _ String.eqb_eq); exact H2|].
      intros Hc. apply (has_duplicates_NoDup _ row_eqb_eq). exact (H3 Hc).
    + intros (H1 & H2 & H3). unfold labels_new. rewrite H1, Nat.eqb_refl, field_names_same, Hw by exact Hne. cbn [negb].
      rewrite (proj2 (has_duplicates_NoDup _ String.eqb_eq _) H2). destruct (Nat.eqb_spec columns 0) as [E|E]; cbn [negb andb].
      * eexists. reflexivity.
      * rewrite (proj2 (has_duplicates_NoDup _ row_eqb_eq _) (H3 E)). eexists. reflexivity.
  - intros l H. destruct (labels_new_rows _ _ _ _ Hv H) as [H1 H2]. rewrite field_names_same in H1 by exact Hne. rewrite Hw in H2. auto.
Qed.

Lemma labels_new_wraps names columns values l : Forall (fun row => length row = columns) values -> labels_new names columns values = Ok l ->
  Forall2 (Forall2 same_32_bits) values (py_rows l).
Proof.
  intros Hv H. destruct (labels_new_rows _ _ _ _ Hv H) as [_ ->]. clear. induction values as [|row values IH]; cbn [map]; constructor; [|exact IH].
  induction row as [|z row IH']; cbn [map]; constructor; [apply wrap_32_same|exact IH'].
Qed.

(** * Labels of the library *)

Lemma good_names_not_empty names : good_names names -> ~ In "" names.
Proof. intros [H _] Hin. rewrite Forall_forall in H. specialize (H _ Hin). destruct H as (c & rest & H & _). discriminate H. Qed.

Lemma from_library_rows labels c : axis_labels labels -> labels_to_c labels = Ok c ->
  exists l, from_eqs_labels c = Ok l /\ py_names l = labels_names labels /\ py_rows l = rows labels
    /\ (pl_library l = if length (rows labels) =? 0 then None else Some c).
Proof.
  intros Hax Hc. pose proof Hax as [(names & rs & Hl) Hne]. pose proof (is_labels_rows _ _ _ Hl) as Hr.
  assert (Hn : labels_names labels = names) by (unfold labels_names; apply Hl). destruct Hl as (Hg & Hgr & _ & _ & Hv & _).
  pose proof (good_names_not_empty _ Hg) as Hempty.
  destruct (labels_round_trip labels Hax) as (c' & _ & Hc' & _ & _ & _ & Hcn & _). rewrite Hc' in Hc. injection Hc as ->.
  rewrite (labels_to_c_ok labels Hax) in Hc'. injection Hc' as Hc'.
  assert (Hs : cl_size c = length (labels_names labels)) by (rewrite <- Hc'; reflexivity).
  assert (Hcount : cl_count c = length (rows labels)) by (rewrite <- Hc'; reflexivity).
  assert (Hvalues : cl_values c = if length (rows labels) =? 0 then None else Some (l_values labels)) by (rewrite <- Hc'; reflexivity).
  clear Hc'. unfold from_eqs_labels. fold (c_names c). rewrite Hcn, Hs, Hcount, Hvalues, Hn, Hr.
  destruct (Nat.eqb_spec (length rs) 0) as [E|E].
  - destruct (labels_new_exact names (length names) [] (Forall_nil _) (Forall_nil _) Hempty) as [H1 H2].
    destruct (proj2 H1) as [l Hnew]; [split; [reflexivity|]; split; [apply Hg|constructor]|]. exists l. split; [exact Hnew|].
    destruct (H2 l Hnew) as [E1 E2]. rewrite E1, E2. split; [reflexivity|].
    apply labels_new_ok in Hnew as (_ & _ & _ & ->). cbn [pl_library].
    split; [destruct rs; [reflexivity|discriminate E]|reflexivity].
  - rewrite field_names_same by exact Hempty. rewrite (proj2 (has_duplicates_NoDup _ String.eqb_eq _) (proj2 Hg)).
    eexists. split; [reflexivity|]. cbn [pl_library]. destruct (contiguous_fields names _ eq_refl) as (E1 & E2 & E3).
    split; [exact E3|]. split; [|reflexivity].
    set (l := mk_py_labels _ _ _ _ _ _ _).
    assert (Hex : exists_in_memory l).
    { subst l. apply contiguous_exists. rewrite Hv, (length_concat_const (length names)) by apply Hgr. lia. }
    assert (Hp : packed l).
    { apply contiguous_packed. unfold contiguous. subst l. cbn [pl_stride pl_item pl_fields]. rewrite E1 in *. auto. }
    destruct (packed_same l Hex Hp) as [_ Hsame]. rewrite <- Hsame. unfold c_rows, as_eqs_labels. subst l.
    cbn [cl_values cl_count cl_size pl_start pl_memory pl_fields pl_count skipn]. rewrite E1, Hv, <- (app_nil_r (concat rs)).
    apply take_rows_concat. apply Hgr.
Qed.

Lemma position_library labels c l label : axis_labels labels -> labels_to_c labels = Ok c -> from_eqs_labels c = Ok l ->
  rows labels <> [] -> Forall (fun z => is_i32 z = true) label ->
  (length label = length (labels_names labels) ->
     (forall i, py_position l label = Ok (Some i) <-> nth_error (rows labels) i = Some label)
     /\ (py_position l label = Ok None <-> ~ In label (rows labels)))
  /\ (length label <> length (labels_names labels) -> raises (py_position l label)).
Proof.
  intros Hax Hc Hl Hrows Hi. destruct (from_library_rows labels c Hax Hc) as (l' & Hl' & _ & _ & Hlib). rewrite Hl' in Hl. injection Hl as ->.
  assert (Hne : length (rows labels) =? 0 = false) by (apply Nat.eqb_neq; destruct (rows labels); [contradiction|discriminate]).
  rewrite Hne in Hlib. unfold py_position. rewrite Hlib, map_wrap_i32 by exact Hi.
  assert (Hnd : NoDup (rows labels)).
  { destruct Hax as [(names & rs & Hlab) _]. rewrite (is_labels_rows _ _ _ Hlab). destruct Hlab as (_ & [_ H] & _). exact H. }
  split.
  - intros Hlen. destruct (c_position labels c label Hax Hc) as (z & Hz & Hcase); [unfold labels_size; unfold labels_names in Hlen; lia|].
    assert (Hsz : labels_size labels = length label) by (unfold labels_size, labels_names in *; lia). rewrite Hsz in Hz, Hcase.
    rewrite firstn_all in Hcase. rewrite Hz. destruct Hcase as [[-> Hno]|(i & -> & Hnth)].
    + cbn [Z.leb Z.compare]. split.
      * intros i. split; [discriminate|]. intros H. apply nth_error_In in H. contradiction.
      * split; [intros _; exact Hno|reflexivity].
    + rewrite (proj2 (Z.leb_le 0 (Z.of_nat i))) by lia. rewrite Nat2Z.id. split.
      * intros j. split; [intros H; injection H as <-; exact Hnth|]. intros H. f_equal. f_equal.
        apply (proj1 (NoDup_nth_error _) Hnd i j); [apply nth_error_Some; congruence|congruence].
      * split; [discriminate|]. intros H. apply nth_error_In in Hnth. contradiction.
  - intros Hlen. unfold c_labels_position. rewrite (labels_to_c_ok labels Hax) in Hc. injection Hc as <-. cbn [cl_labels_ptr].
    unfold from_raw_parts. rewrite Nat.leb_refl, firstn_all. cbn [bind]. unfold labels_position.
    rewrite (proj2 (Nat.eqb_neq (length label) (labels_size labels))) by (unfold labels_size, labels_names in *; congruence).
    cbn [bind]. eexists. reflexivity.
Qed.

(** * Calls from Python *)

Lemma python_call p thread w c w1 v o : plain_world w -> owners w -> reportable c -> respects w c ->
  call_body p thread w c = (w1, v, o) ->
  (o = Ok tt -> called_from_python p thread w c = Ok v) /\ (o <> Ok tt -> raises (called_from_python p thread w c)).
Proof.
  intros Hp Hw Hc Hr Hb. unfold called_from_python. split.
  - intros ->. rewrite (run_call_ok _ _ _ _ _ _ Hb). reflexivity.
  - intros Hne. pose proof (call_body_safe _ _ _ _ _ _ _ Hw Hr Hb) as Hd. destruct o as [[]|e|m|r]; [contradiction| | |destruct (Hd r eq_refl)].
    + pose proof (proj2 (call_body_plain p thread w c Hp)) as Hcoded. rewrite Hb in Hcoded. specialize (Hcoded e eq_refl).
      destruct (run_call_error _ _ _ _ _ _ _ Hp Hc Hb) as [w2 ->]. destruct (error_code e); [contradiction|eexists; reflexivity..].
    + destruct (run_call_panic _ _ _ _ _ _ _ Hp Hc Hb) as [w2 ->]. eexists. reflexivity.
Qed.

(** * Selections *)

Lemma StronglySorted_below n l : StronglySorted lt l -> Forall (fun i => i < n) l -> length l <= n.
Proof.
  intros Hs Hb. assert (Hnd : NoDup l).
  { clear Hb. induction Hs as [|a l _ IH Ha]; constructor; [|exact IH]. intros Hin. rewrite Forall_forall in Ha. specialize (Ha a Hin). lia. }
  rewrite <- (seq_length n 0). apply NoDup_incl_length; [exact Hnd|]. intros i Hi. rewrite Forall_forall in Hb. apply in_seq. specialize (Hb i Hi). lia.
Qed.

Lemma len_keys p files calls i thread handle t :
  never_crashed p (world_start files) calls -> ordinary p (world_start files) calls ->
  let s := state_at p (world_start files) calls i in
  tensor_at s handle t -> py_len_keys p thread s handle = Ok (length (rows (tm_keys (ot_tensor t)))).
Proof.
  intros Hn Ho s Ht. pose proof (owners_state p files calls Hn i) as Hown. pose proof (valid_state p files calls Ho i) as Hval.
  fold s in Hown, Hval. pose proof (tensor_get _ _ _ Hown Ht) as Hget. pose proof (proj1 (get_tensor_ok _ _ _) Hget) as Hg.
  destruct (valid_tensor _ _ _ Hval Hg) as [[Hk _] _]. destruct (labels_round_trip _ Hk) as (c & l' & Hc & _).
  assert (Hbody : call_body p thread s (TensorKeys (Some handle) out) = (s, VLabels c, Ok tt)).
  { cbn [call_body]. unfold eqs_tensormap_keys. apply reading_ok. cbn [bind check_pointer out]. rewrite Hget. cbn [bind]. rewrite Hc. reflexivity. }
  unfold py_len_keys, called_from_python. rewrite (run_call_ok _ _ _ _ _ _ Hbody). cbn [bind].
  destruct (from_library_rows _ _ Hk Hc) as (l & Hl & _ & Hr & _). rewrite Hl. cbn [bind]. f_equal. rewrite <- Hr.
  unfold py_rows. rewrite map_length, seq_length. reflexivity.
Qed.

Lemma labels_matching p files calls i thread handle t selection l labels :
  never_crashed p (world_start files) calls -> ordinary p (world_start files) calls ->
  let s := state_at p (world_start files) calls i in
  tensor_at s handle t -> selection_labels selection = Ok l -> labels_from_c (as_eqs_labels l) = Ok labels ->
  (valid_selection (ot_tensor t) labels ->
     exists found, StronglySorted lt found /\ (forall i, In i found <-> selected (ot_tensor t) labels i)
       /\ py_blocks_matching p thread s handle selection = Ok found)
  /\ (~ valid_selection (ot_tensor t) labels -> raises (py_blocks_matching p thread s handle selection)).
Proof.
  intros Hn Ho s Ht Hs Hl. unfold py_blocks_matching. rewrite Hs. cbn [bind]. subst s. rewrite (len_keys p files calls i thread handle t Hn Ho Ht). cbn [bind].
  set (s := state_at p (world_start files) calls i) in *. set (n := length (rows (tm_keys (ot_tensor t)))).
  unfold called_from_python.
  destruct (run_call p thread s (TensorBlocksMatching (Some handle) (Some (repeat 0 n)) out (as_eqs_labels l))) as [[s' v] r] eqn:Er.
  destruct (blocks_matching_call p files calls i thread handle t (repeat 0 n) _ labels s' v r Hn Ho Ht Hl Er) as [H1 H2]. split.
  - intros Hv. destruct (H1 Hv) as (found & Hsort & Hin & Hfit & _). exists found. split; [exact Hsort|]. split; [exact Hin|].
    assert (Hlen : length found <= length (repeat 0 n)).
    { rewrite repeat_length. apply StronglySorted_below; [exact Hsort|]. apply Forall_forall. intros j Hj. apply Hin in Hj as (key & Hk & _).
      subst n. apply nth_error_Some. congruence. }
    destruct (Hfit Hlen) as [-> ->]. cbn [bind]. rewrite firstn_app, firstn_all, Nat.sub_diag. cbn [firstn]. rewrite app_nil_r. reflexivity.
  - intros Hv. destruct (H2 Hv) as [-> ->]. eexists. reflexivity.
Qed.

(* labels which the library does not accept *)
Lemma labels_not_accepted p files calls i thread handle t selection l :
  never_crashed p (world_start files) calls -> ordinary p (world_start files) calls ->
  let s := state_at p (world_start files) calls i in
  tensor_at s handle t -> selection_labels selection = Ok l -> readable (as_eqs_labels l) ->
  (forall labels, labels_from_c (as_eqs_labels l) <> Ok labels) -> raises (py_blocks_matching p thread s handle selection).
Proof.
  intros Hn Ho s Ht Hs Hr Hl. unfold py_blocks_matching. rewrite Hs. cbn [bind]. subst s. rewrite (len_keys p files calls i thread handle t Hn Ho Ht). cbn [bind].
  set (s := state_at p (world_start files) calls i) in *. set (n := length (rows (tm_keys (ot_tensor t)))).
  set (call := TensorBlocksMatching (Some handle) (Some (repeat 0 n)) out (as_eqs_labels l)).
  destruct (call_body p thread s call) as [[w1 v] o] eqn:Eb.
  assert (Hne : o <> Ok tt).
  { subst call. cbn [call_body] in Eb. unfold eqs_tensormap_blocks_matching in Eb. cbn [check_pointer bind out] in Eb.
    destruct (labels_from_c (as_eqs_labels l)) as [labels|e|m|x] eqn:El; [destruct (Hl labels eq_refl)|..]; cbn [bind] in Eb; injection Eb as _ _ <-; discriminate. }
  assert (Hlive : respects s call).
  { subst call. cbn [respects]. split; [|exact Hr]. intros h E. injection E as <-. exists t. exact Ht. }
  destruct (python_call p thread s call w1 v o (state_plain p files calls i) (owners_state p files calls Hn i) I Hlive Eb) as [_ H].
  destruct (H Hne) as [e ->]. eexists. reflexivity.
Qed.

Lemma block_of_index p files calls i thread handle t index :
  never_crashed p (world_start files) calls ->
  let s := state_at p (world_start files) calls i in
  tensor_at s handle t ->
  (index < length (tm_blocks (ot_tensor t)) ->
     exists pointer, py_block_by_id p thread s handle index = Ok pointer /\ points_to_block s (ot_tensor t) index pointer)
  /\ (length (tm_blocks (ot_tensor t)) <= index -> raises (py_block_by_id p thread s handle index)).
Proof.
  intros Hn s Ht. unfold py_block_by_id, called_from_python.
  destruct (run_call p thread s (TensorBlockById (Some handle) out index)) as [[s' v] r] eqn:Er.
  destruct (block_by_id_call p files calls i thread handle t index s' v r Hn Ht Er) as [H1 H2]. split.
  - intros Hi. destruct (nth_error (tm_blocks (ot_tensor t)) index) as [block|] eqn:Eb; [|apply nth_error_None in Eb; lia].
    destruct (H1 block eq_refl) as [-> (pointer & b & -> & Hp & Hb)]. cbn [bind]. exists pointer. split; [reflexivity|].
    exists b. split; [exact Hp|]. rewrite Hb. exact Eb.
  - intros Hi. destruct (H2 Hi) as [-> ->]. eexists. reflexivity.
Qed.

(* what blocks and block do with the matching blocks *)
Lemma blocks_of_matching p files calls i thread handle t selection found :
  never_crashed p (world_start files) calls -> ordinary p (world_start files) calls ->
  let s := state_at p (world_start files) calls i in
  tensor_at s handle t -> (forall index, selection <> ByIndex index) -> py_blocks_matching p thread s handle selection = Ok found ->
  Forall (fun i => i < length (rows (tm_keys (ot_tensor t)))) found ->
  (found <> [] -> exists pointers, py_blocks p thread s handle selection = Ok pointers
     /\ Forall2 (points_to_block s (ot_tensor t)) found pointers)
  /\ (found = [] -> raises (py_blocks p thread s handle selection))
  /\ (forall index, found = [index] -> exists pointer, py_block p thread s handle selection = Ok pointer
        /\ points_to_block s (ot_tensor t) index pointer)
  /\ (length found <> 1 -> raises (py_block p thread s handle selection)).
Proof.
  intros Hn Ho s Ht Hsel Hm Hb.
  assert (Hlen : length (rows (tm_keys (ot_tensor t))) = length (tm_blocks (ot_tensor t))).
  { destruct (proj2 (everything_well_formed p files calls i Hn Ho) _ _ Ht) as (_ & _ & Hh). symmetry. apply Hh. }
  rewrite Hlen in Hb.
  assert (Hall : exists pointers, mapM (py_block_by_id p thread s handle) found = Ok pointers
    /\ Forall2 (points_to_block s (ot_tensor t)) found pointers).
  { clear Hm. induction Hb as [|index found Hi _ IH]; cbn [mapM]; [exists []; split; [reflexivity|constructor]|].
    destruct (proj1 (block_of_index p files calls i thread handle t index Hn Ht) Hi) as (pointer & E & Hp). fold s in E. rewrite E. cbn [bind].
    destruct IH as (pointers & -> & Hps). cbn [bind]. exists (pointer :: pointers). split; [reflexivity|]. constructor; assumption. }
  split; [|split; [|split]].
  - intros Hne. destruct Hall as (pointers & E & Hp). exists pointers. split; [|exact Hp]. unfold py_blocks.
    destruct selection as [index|l|keywords]; [destruct (Hsel index eq_refl)|..]; rewrite Hm; cbn [bind]; (destruct found; [contradiction|exact E]).
  - intros ->. unfold py_blocks. destruct selection as [index|l|keywords]; [destruct (Hsel index eq_refl)|..]; rewrite Hm; cbn [bind]; eexists; reflexivity.
  - intros index ->. apply Forall_inv in Hb. destruct (proj1 (block_of_index p files calls i thread handle t index Hn Ht) Hb) as (pointer & E & Hp).
    exists pointer. split; [|exact Hp]. unfold py_block.
    destruct selection as [index'|l|keywords]; [destruct (Hsel index' eq_refl)|..]; rewrite Hm; cbn [bind]; exact E.
  - intros Hl. unfold py_block. destruct selection as [index'|l|keywords]; [destruct (Hsel index' eq_refl)|..]; rewrite Hm; cbn [bind];
      (destruct found as [|a [|b found]]; [eexists; reflexivity|contradiction Hl; reflexivity|eexists; reflexivity]).
Qed.

Lemma raises_blocks p thread s handle selection : (forall index, selection <> ByIndex index) ->
  raises (py_blocks_matching p thread s handle selection) ->
  raises (py_blocks p thread s handle selection) /\ raises (py_block p thread s handle selection).
Proof.
  intros Hsel [e He]. unfold py_blocks, py_block.
  destruct selection as [index|l|keywords]; [destruct (Hsel index eq_refl)|..]; rewrite He; cbn [bind]; split; eexists; reflexivity.
Qed.

Lemma combine_split_map {A B} (l : list (A * B)) : combine (map fst l) (map snd l) = l.
Proof. induction l as [|[a b] l IH]; cbn [map combine fst snd]; [reflexivity|]. rewrite IH. reflexivity. Qed.

(* what the library makes of keywords *)
Lemma keywords_labels keywords : NoDup (map fst keywords) -> Forall (fun z => is_i32 z = true) (map snd keywords) -> ~ In "" (map fst keywords) ->
  ~ In "self" (map fst keywords) -> ~ In "__return_selection" (map fst keywords) ->
  exists l, selection_labels (ByKeywords keywords) = Ok l /\ python_labels l /\ packed l
    /\ py_names l = map fst keywords /\ py_rows l = [map snd keywords].
Proof.
  intros Hnd Hi Hne Hself Hret. cbn [selection_labels].
  assert (existsb (fun name => existsb (String.eqb name) other_arguments) (map fst keywords) = false) as ->.
  { apply not_true_iff_false. intros H. apply existsb_exists in H as (name & Hin & H). apply existsb_exists in H as (other & Ho & H).
    apply String.eqb_eq in H. subst other. destruct Ho as [<-|[<-|[]]]; contradiction. }
  assert (forallb is_i32 (map snd keywords) = true) as -> by (apply forallb_forall; rewrite Forall_forall in Hi; exact Hi).
  assert (Hv : Forall (fun row => length row = length keywords) [map snd keywords]) by (constructor; [apply map_length|constructor]).
  destruct (labels_new_exact (map fst keywords) (length keywords) [map snd keywords] Hv) as [H1 H2]; [constructor; [exact Hi|constructor]|exact Hne|].
  destruct (proj2 H1) as [l Hl]; [split; [apply map_length|]; split; [exact Hnd|]; intros _; constructor; [intros []|constructor]|].
  exists l. split; [exact Hl|]. destruct (H2 l Hl) as [E1 E2]. split; [exact (made_new _ _ _ _ Hv Hl)|].
  split; [apply contiguous_packed, (labels_new_contiguous _ _ _ _ Hl)|]. auto.
Qed.

Lemma no_nul_dec names : Forall (fun name => has_nul name = false) names \/ ~ Forall (fun name => has_nul name = false) names.
Proof.
  induction names as [|n names [IH|IH]]; [left; constructor| |].
  - destruct (has_nul n) eqn:E; [right|left; constructor; assumption]. intros H. apply Forall_inv in H. congruence.
  - right. intros H. apply IH. inversion H. assumption.
Qed.

(* selections with one row, for names which exist and for other names *)
Lemma one_row_selection p files calls i thread handle t selection l row :
  never_crashed p (world_start files) calls -> ordinary p (world_start files) calls ->
  let s := state_at p (world_start files) calls i in
  tensor_at s handle t -> selection_labels selection = Ok l -> python_labels l -> packed l -> py_rows l = [row] -> NoDup (py_names l) ->
  Forall (fun name => has_nul name = false) (py_names l) ->
  ((forall name, In name (py_names l) -> In name (labels_names (tm_keys (ot_tensor t)))) ->
     exists found, StronglySorted lt found /\ (forall i, In i found <-> key_agrees (ot_tensor t) (combine (py_names l) row) i)
       /\ py_blocks_matching p thread s handle selection = Ok found)
  /\ (forall name, In name (py_names l) -> ~ In name (labels_names (tm_keys (ot_tensor t))) ->
       raises (py_blocks_matching p thread s handle selection)).
Proof.
  intros Hn Ho s Ht Hs Hl Hp Hrow Hnd Hnul.
  pose proof (proj2 (everything_well_formed p files calls i Hn Ho) _ _ Ht) as (Hkeys & _ & _).
  destruct (list_eq_dec string_dec (py_names l) []) as [E|Hne].
  - assert (Hsize : cl_size (as_eqs_labels l) = 0) by (cbn [as_eqs_labels cl_size]; unfold py_names in E; destruct (pl_fields l); [reflexivity|discriminate E]).
    assert (Hfrom : labels_from_c (as_eqs_labels l) = Ok (mk_labels [] [] [])) by (apply (labels_from_c_nothing _ (py_names l)); [exact Hsize|reflexivity|discriminate]).
    destruct (labels_matching p files calls i thread handle t selection l _ Hn Ho Ht Hs Hfrom) as [H1 _]. rewrite E. split.
    + intros _. destruct (H1 (or_introl eq_refl)) as (found & Hsort & Hin & Hm). exists found. split; [exact Hsort|]. split; [|exact Hm].
      intros j. rewrite Hin. split; intros (key & Hk & _); exists key; (split; [exact Hk|]); [intros name value []|].
      intros row' name value Hr. change (rows (mk_labels [] [] [])) with (@nil (list Z)) in Hr. destruct Hr.
    + intros name [].
  - destruct (packed_accepted l Hl Hp Hne Hnul) as [Hacc His].
    assert (Hnames : good_names (py_names l) -> exists labels, labels_from_c (as_eqs_labels l) = Ok labels).
    { intros Hg. apply Hacc. split; [exact Hg|]. rewrite Hrow. constructor; [intros []|constructor]. }
    split.
    + intros Hall. destruct Hnames as [labels Hlabels].
      { split; [|exact Hnd]. apply Forall_forall. intros name Hin. apply Hall in Hin. destruct Hkeys as [(names & rs & Hk) _].
        destruct Hk as ([Hg _] & _ & _ & Ek & _). unfold labels_names in Hin. rewrite Ek in Hin. rewrite Forall_forall in Hg. apply Hg. exact Hin. }
      pose proof (His _ Hlabels) as Hlab. pose proof (is_labels_rows _ _ _ Hlab) as Er. rewrite Hrow in Er.
      assert (En : labels_names labels = py_names l) by (unfold labels_names; apply Hlab).
      destruct (labels_matching p files calls i thread handle t selection l labels Hn Ho Ht Hs Hlabels) as [H1 _].
      destruct H1 as (found & Hsort & Hin & Hm).
      { right. rewrite Er, En. split; [reflexivity|exact Hall]. }
      exists found. split; [exact Hsort|]. split; [|exact Hm]. intros j. rewrite Hin. unfold selected, key_agrees. rewrite Er, En.
      split; intros (key & Hk & Hag); exists key; (split; [exact Hk|]).
      * intros name value Hnv. apply (Hag row name value); [left; reflexivity|exact Hnv].
      * intros row' name value [<-|[]] Hnv. apply Hag. exact Hnv.
    + intros name Hin Hnot. destruct (labels_from_c (as_eqs_labels l)) as [labels|e|m|r] eqn:El.
      * pose proof (His _ eq_refl) as Hlab. assert (En : labels_names labels = py_names l) by (unfold labels_names; apply Hlab).
        destruct (labels_matching p files calls i thread handle t selection l labels Hn Ho Ht Hs El) as [_ H2]. apply H2.
        intros [E|[_ Hall]]; [rewrite En in E; contradiction|]. apply Hnot, Hall. rewrite En. exact Hin.
      * apply (labels_not_accepted p files calls i thread handle t selection l Hn Ho Ht Hs); [apply packed_same; [apply python_exists, Hl|exact Hp]|congruence].
      * apply (labels_not_accepted p files calls i thread handle t selection l Hn Ho Ht Hs); [apply packed_same; [apply python_exists, Hl|exact Hp]|congruence].
      * apply (labels_not_accepted p files calls i thread handle t selection l Hn Ho Ht Hs); [apply packed_same; [apply python_exists, Hl|exact Hp]|congruence].
Qed.

Lemma key_agrees_below t keywords i : key_agrees t keywords i -> i < length (rows (tm_keys t)).
Proof. intros (key & Hk & _). apply nth_error_Some. congruence. Qed.

Lemma selection_of_row p files calls i thread handle t selection l row :
  never_crashed p (world_start files) calls -> ordinary p (world_start files) calls ->
  let s := state_at p (world_start files) calls i in
  tensor_at s handle t -> (forall index, selection <> ByIndex index) -> selection_labels selection = Ok l ->
  python_labels l -> packed l -> py_rows l = [row] -> NoDup (py_names l) ->
  Forall (fun name => has_nul name = false) (py_names l) ->
  ((forall name, In name (py_names l) -> In name (labels_names (tm_keys (ot_tensor t)))) ->
     exists found, StronglySorted lt found /\ (forall i, In i found <-> key_agrees (ot_tensor t) (combine (py_names l) row) i)
       /\ py_blocks_matching p thread s handle selection = Ok found
       /\ (found <> [] -> exists pointers, py_blocks p thread s handle selection = Ok pointers
             /\ Forall2 (points_to_block s (ot_tensor t)) found pointers)
       /\ (found = [] -> raises (py_blocks p thread s handle selection))
       /\ (forall index, found = [index] -> exists pointer, py_block p thread s handle selection = Ok pointer
             /\ points_to_block s (ot_tensor t) index pointer)
       /\ (length found <> 1 -> raises (py_block p thread s handle selection)))
  /\ (forall name, In name (py_names l) -> ~ In name (labels_names (tm_keys (ot_tensor t))) ->
       raises (py_blocks_matching p thread s handle selection)
       /\ raises (py_blocks p thread s handle selection) /\ raises (py_block p thread s handle selection)).
Proof.
  intros Hn Ho s Ht Hsel Hs Hl Hp Hrow Hnd Hnul.
  destruct (one_row_selection p files calls i thread handle t selection l row Hn Ho Ht Hs Hl Hp Hrow Hnd Hnul) as [H1 H2]. split.
  - intros Hall. destruct (H1 Hall) as (found & Hsort & Hin & Hm). exists found. split; [exact Hsort|]. split; [exact Hin|]. split; [exact Hm|].
    apply (blocks_of_matching p files calls i thread handle t selection found Hn Ho Ht Hsel Hm). apply Forall_forall. intros j Hj.
    apply Hin in Hj. exact (key_agrees_below _ _ _ Hj).
  - intros name Hin Hnot. pose proof (H2 name Hin Hnot) as Hr. split; [exact Hr|]. apply raises_blocks; assumption.
Qed.

Lemma selection_of_keywords p files calls i thread handle t keywords :
  never_crashed p (world_start files) calls -> ordinary p (world_start files) calls ->
  let s := state_at p (world_start files) calls i in
  let selection := ByKeywords keywords in
  tensor_at s handle t -> NoDup (map fst keywords) -> Forall (fun z => is_i32 z = true) (map snd keywords) ->
  Forall (fun name => name <> "" /\ has_nul name = false /\ name <> "self" /\ name <> "__return_selection") (map fst keywords) ->
  ((forall name, In name (map fst keywords) -> In name (labels_names (tm_keys (ot_tensor t)))) ->
     exists found, StronglySorted lt found /\ (forall i, In i found <-> key_agrees (ot_tensor t) keywords i)
       /\ py_blocks_matching p thread s handle selection = Ok found
       /\ (found <> [] -> exists pointers, py_blocks p thread s handle selection = Ok pointers
             /\ Forall2 (points_to_block s (ot_tensor t)) found pointers)
       /\ (found = [] -> raises (py_blocks p thread s handle selection))
       /\ (forall index, found = [index] -> exists pointer, py_block p thread s handle selection = Ok pointer
             /\ points_to_block s (ot_tensor t) index pointer)
       /\ (length found <> 1 -> raises (py_block p thread s handle selection)))
  /\ (forall name, In name (map fst keywords) -> ~ In name (labels_names (tm_keys (ot_tensor t))) ->
       raises (py_blocks_matching p thread s handle selection)
       /\ raises (py_blocks p thread s handle selection) /\ raises (py_block p thread s handle selection)).
Proof.
  intros Hn Ho s selection Ht Hnd Hi Hnames.
  assert (Hne : ~ In "" (map fst keywords)).
  { intros Hin. rewrite Forall_forall in Hnames. destruct (Hnames _ Hin) as [H _]. apply H. reflexivity. }
  assert (Hself : ~ In "self" (map fst keywords)).
  { intros Hin. rewrite Forall_forall in Hnames. destruct (Hnames _ Hin) as (_ & _ & H & _). apply H. reflexivity. }
  assert (Hret : ~ In "__return_selection" (map fst keywords)).
  { intros Hin. rewrite Forall_forall in Hnames. destruct (Hnames _ Hin) as (_ & _ & _ & H). apply H. reflexivity. }
  assert (Hnul : Forall (fun name => has_nul name = false) (map fst keywords)) by (eapply Forall_impl; [|exact Hnames]; cbn beta; tauto).
  destruct (keywords_labels keywords Hnd Hi Hne Hself Hret) as (l & Hs & Hl & Hp & En & Er).
  assert (Hsel : forall index, selection <> ByIndex index) by discriminate.
  pose proof (selection_of_row p files calls i thread handle t selection l _ Hn Ho Ht Hsel Hs Hl Hp Er) as H.
  rewrite En in H. rewrite combine_split_map in H. apply H; assumption.
Qed.

Lemma selection_of_labels p files calls i thread handle t l row :
  never_crashed p (world_start files) calls -> ordinary p (world_start files) calls ->
  let s := state_at p (world_start files) calls i in
  let selection := ByLabels l in
  tensor_at s handle t ->
  python_labels l -> packed l -> py_rows l = [row] -> NoDup (py_names l) ->
  Forall (fun name => has_nul name = false) (py_names l) ->
  ((forall name, In name (py_names l) -> In name (labels_names (tm_keys (ot_tensor t)))) ->
     exists found, StronglySorted lt found /\ (forall i, In i found <-> key_agrees (ot_tensor t) (combine (py_names l) row) i)
       /\ py_blocks_matching p thread s handle selection = Ok found
       /\ (found <> [] -> exists pointers, py_blocks p thread s handle selection = Ok pointers
             /\ Forall2 (points_to_block s (ot_tensor t)) found pointers)
       /\ (found = [] -> raises (py_blocks p thread s handle selection))
       /\ (forall index, found = [index] -> exists pointer, py_block p thread s handle selection = Ok pointer
             /\ points_to_block s (ot_tensor t) index pointer)
       /\ (length found <> 1 -> raises (py_block p thread s handle selection)))
  /\ (forall name, In name (py_names l) -> ~ In name (labels_names (tm_keys (ot_tensor t))) ->
       raises (py_blocks_matching p thread s handle selection)
       /\ raises (py_blocks p thread s handle selection) /\ raises (py_block p thread s handle selection)).
Proof.
  intros Hn Ho s selection Ht. apply (selection_of_row p files calls i thread handle t selection l row Hn Ho Ht); [discriminate|reflexivity].
Qed.

(** * Names of origins *)

Lemma buffer_value_text name rest : has_nul name = false -> buffer_value (list_ascii_of_string name ++ nul :: rest) = name.
Proof.
  induction name as [|c name IH]; cbn [has_nul list_ascii_of_string app buffer_value]; intros H; [reflexivity|].
  apply orb_false_iff in H as [H1 H2]. rewrite H1, IH by exact H2. reflexivity.
Qed.

Lemma c_str_has_no_nul memory : has_nul (c_str memory) = false.
Proof. induction memory as [|c memory IH]; cbn [c_str]; [reflexivity|]. destruct (Ascii.eqb c nul) eqn:E; [reflexivity|]. cbn [has_nul]. rewrite E, IH. reflexivity. Qed.

Lemma origin_name_exact p files calls i j thread tries name id :
  registered p (world_start files) calls i name id -> i < j -> 0 < tries ->
  let s := state_at p (world_start files) calls j in
  (String.length name < 1024 -> data_origin_name tries p thread s id = Some (Ok name))
  /\ (1024 <= String.length name -> exists e, data_origin_name tries p thread s id = Some (Err e)).
Proof.
  intros Hreg Hij Htries s. destruct tries as [|tries]; [lia|]. unfold data_origin_name. cbn [growing_buffer].
  destruct (get_data_origin_named p files calls j id) as (name' & Hn & H1 & _). pose proof (H1 _ _ Hij Hreg) as <-. fold s in Hn.
  destruct Hreg as (th & memory & _ & Hname). pose proof (c_str_has_no_nul memory) as Hnul. rewrite <- Hname in Hnul.
  set (buffer := repeat nul 1024). assert (Hlen : length buffer = 1024) by apply repeat_length. clearbody buffer.
  assert (Hb : call_body p thread s (GetDataOrigin id (Some buffer)) =
    let '(b, o) := copy_str_to_c p name buffer in (s, VText b, o)).
  { cbn [call_body]. unfold eqs_get_data_origin. rewrite Hn. reflexivity. }
  split; intros Hl.
  - rewrite <- Hlen in Hl. pose proof (proj2 (copy_str_to_c_ok p name buffer _) (conj Hl eq_refl)) as E. rewrite E in Hb.
    rewrite (run_call_ok _ _ _ _ _ _ Hb). cbn [Z.eqb]. rewrite buffer_value_text by exact Hnul. reflexivity.
  - rewrite <- Hlen in Hl. assert (Hpos : 0 < length buffer) by (rewrite Hlen; lia).
    destruct (copy_str_to_c_small p name buffer Hpos Hl) as [m E]. rewrite E in Hb.
    destruct (run_call_error p thread s (GetDataOrigin id (Some buffer)) _ _ _ (state_plain p files calls j) I Hb) as [w2 Er].
    rewrite Er. cbn [error_code Z.eqb]. eexists. reflexivity.
Qed.

Lemma growing_buffer_text callback text tries bufflen : writes_text callback text -> has_nul text = false ->
  String.length text < bufflen * 2 ^ tries -> growing_buffer callback (S tries) bufflen = Some (Ok text).
Proof.
  intros Hw Hnul. revert bufflen. induction tries as [|tries IH]; intros bufflen Hl; cbn [growing_buffer];
    destruct (Hw (repeat nul bufflen)) as [H1 H2]; rewrite repeat_length in H1, H2.
  - cbn [Nat.pow] in Hl. destruct H1 as (w & rest & E); [lia|]. rewrite E. cbn [Z.eqb]. rewrite buffer_value_text by exact Hnul. reflexivity.
  - destruct (Nat.lt_ge_cases (String.length text) bufflen) as [Hs|Hs].
    + destruct (H1 Hs) as (w & rest & E). rewrite E. cbn [Z.eqb]. rewrite buffer_value_text by exact Hnul. reflexivity.
    + destruct (H2 Hs) as (w & b & E). rewrite E. cbn [Z.eqb Pos.eqb]. apply IH.
      rewrite Nat.pow_succ_r' in Hl. lia.
Qed.

(* only the labels of the library have positions *)
Lemma python_standalone l : python_labels l ->
  pl_library l = None \/ exists labels c, axis_labels labels /\ labels_to_c labels = Ok c /\ from_eqs_labels c = Ok l.
Proof.
  intros H. destruct H as [names columns values l _ H|labels c l H1 H2 H3|l first step number _ _ _|l names l' _ H|l indexes _ _].
  - left. unfold labels_new in H. destruct (negb _); [discriminate|]. destruct (has_duplicates _ _); [discriminate|].
    destruct (_ && _); [discriminate|]. injection H as <-. reflexivity.
  - right. exists labels, c. auto.
  - left. reflexivity.
  - left. unfold py_select in H. destruct (has_duplicates _ _); [discriminate|]. apply bind_ok in H as (fields & _ & H).
    injection H as <-. reflexivity.
  - left. reflexivity.
Qed.

Lemma position_right l label : python_labels l -> Forall (fun z => is_i32 z = true) label ->
  (forall i, py_position l label = Ok (Some i) -> nth_error (py_rows l) i = Some label)
  /\ (py_position l label = Ok None -> ~ In label (py_rows l)).
Proof.
  intros H Hl. destruct (python_standalone l H) as [E|(labels & c & Ha & Hc & Hf)].
  - unfold py_position. rewrite E. split; [intros i|]; discriminate.
  - destruct (from_library_rows labels c Ha Hc) as (l' & Hf' & _ & Hrows & Hlib). rewrite Hf in Hf'. injection Hf' as <-.
    destruct (rows labels) as [|r rs] eqn:Er.
    + cbn in Hlib. unfold py_position. rewrite Hlib. split; [intros i|]; discriminate.
    + rewrite <- Er in *. assert (Hne : rows labels <> []) by (rewrite Er; discriminate).
      destruct (position_library labels c l label Ha Hc Hf Hne Hl) as [Hsame Hother].
      destruct (Nat.eq_dec (length label) (length (labels_names labels))) as [Hn|Hn].
      * destruct (Hsame Hn) as [H1 H2]. rewrite Hrows. split; [intros i Hi; apply H1; exact Hi|apply H2].
      * destruct (Hother Hn) as [m Hm]. rewrite Hm. split; [intros i|]; discriminate.
Qed.
