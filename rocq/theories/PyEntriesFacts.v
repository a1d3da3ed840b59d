(* Entries of labels, from Python *)
From Coq Require Import Permutation Sorting.Sorted.
From Verif Require Import Base BaseFacts Labels Array Block Tensor Npy Io Origin CApi Spec SpecTensor SpecIo SpecApi
  LabelsFacts TensorFacts NpyFacts LabelsApiFacts DefinedFacts ApiFacts ReportFacts OwnerFacts ReachFacts HandleFacts SafeFacts CallFacts
  PyIo PyLabels SpecPyLabels PyLabelsFacts PySelectFacts PyEntries SpecPyEntries.
Local Open Scope string_scope.
Local Open Scope list_scope.
Local Open Scope nat_scope.

(** * Named tuples *)

Lemma between_spec first last c : between first last c = true <-> first <= nat_of_ascii c <= last.
Proof. unfold between. rewrite andb_true_iff, !Nat.leb_le. tauto. Qed.

Lemma identifier_ascii unicode name : identifier name -> is_identifier unicode name = true.
Proof.
  intros (n & rest & E & Hfirst & Hrest). unfold is_identifier, codes in *.
  destruct (list_ascii_of_string name) as [|c cs]; [discriminate E|]. cbn [map] in E. injection E as En Er.
  assert (Hstart : starts_identifier c = true).
  { unfold starts_identifier. rewrite !orb_true_iff, !between_spec, Ascii.eqb_eq. rewrite En.
    destruct Hfirst as [H|H]; [unfold is_letter_code in H; left; lia|]. right. unfold is_underscore_code in H.
    apply (f_equal ascii_of_nat) in En. rewrite ascii_nat_embedding in En. rewrite En, H. reflexivity. }
  assert (Hcont : Forall (fun c => continues_identifier c = true) cs).
  { apply Forall_forall. intros d Hd. rewrite Forall_forall in Hrest. specialize (Hrest (nat_of_ascii d)).
    rewrite <- Er in Hrest. specialize (Hrest (in_map _ _ _ Hd)). unfold continues_identifier, starts_identifier.
    rewrite !orb_true_iff, !between_spec, Ascii.eqb_eq. unfold is_letter_code, is_digit_code, is_underscore_code in Hrest.
    destruct Hrest as [H|[H|H]]; [left; left; lia|right; lia|]. left. right.
    apply (f_equal ascii_of_nat) in H. rewrite ascii_nat_embedding in H. rewrite H. reflexivity. }
  assert (Hall : forallb (between 0 127) (c :: cs) = true).
  { apply forallb_forall. intros d Hd. apply between_spec. assert (Hc : continues_identifier d = true).
    { destruct Hd as [<-|Hd]; [unfold continues_identifier; rewrite Hstart; reflexivity|]. rewrite Forall_forall in Hcont. exact (Hcont _ Hd). }
    unfold continues_identifier, starts_identifier in Hc. rewrite !orb_true_iff, !between_spec, Ascii.eqb_eq in Hc.
    destruct Hc as [[[H|H]| ->]|H]; [lia|lia|cbn; lia|lia]. }
  rewrite Hall, Hstart. cbn [andb]. apply forallb_forall. rewrite Forall_forall in Hcont. exact Hcont.
Qed.

Lemma underscore_spec name : starts_with_underscore name = true <-> exists rest, name = String "_" rest.
Proof.
  destruct name as [|c rest]; cbn [starts_with_underscore]; [split; [discriminate|intros [? E]; discriminate]|].
  rewrite Ascii.eqb_eq. split; [intros ->; eexists; reflexivity|]. intros [r E]. injection E as E _. exact E.
Qed.

Lemma existsb_false_iff {A} (f : A -> bool) l : existsb f l = false <-> Forall (fun a => f a = false) l.
Proof.
  rewrite Forall_forall. split.
  - intros H a Ha. destruct (f a) eqn:E; [|reflexivity]. assert (existsb f l = true); [apply existsb_exists; exists a; auto|congruence].
  - intros H. apply not_true_iff_false. intros E. apply existsb_exists in E as (a & Ha & E). rewrite (H a Ha) in E. discriminate.
Qed.

Lemma class_names unicode names ns : named_tuple_class unicode names = Ok ns -> ns = names /\ NoDup names.
Proof.
  unfold named_tuple_class. repeat (destruct (existsb _ names); [discriminate|]).
  destruct (has_duplicates String.eqb names) eqn:E; [discriminate|]. intros H. injection H as <-. split; [reflexivity|].
  apply (has_duplicates_NoDup _ String.eqb_eq). exact E.
Qed.

Lemma class_exists unicode names : NoDup names -> Forall field_name names -> named_tuple_class unicode names = Ok names.
Proof.
  intros Hnd Hall. unfold named_tuple_class.
  assert (existsb (fun name => negb (is_identifier unicode name)) names = false) as ->.
  { apply existsb_false_iff. eapply Forall_impl; [|exact Hall]. intros name (H & _). cbn beta. rewrite (identifier_ascii _ _ H). reflexivity. }
  assert (existsb (fun name => existsb (String.eqb name) python_keywords) names = false) as ->.
  { apply existsb_false_iff. eapply Forall_impl; [|exact Hall]. intros name (_ & H & _). cbn beta. apply not_true_iff_false. intros E.
    apply existsb_exists in E as (k & Hk & E). apply String.eqb_eq in E. subst k. contradiction. }
  assert (existsb starts_with_underscore names = false) as ->.
  { apply existsb_false_iff. eapply Forall_impl; [|exact Hall]. intros name (_ & _ & H). apply not_true_iff_false. intros E.
    apply underscore_spec in E as [rest E]. exact (H rest E). }
  rewrite (proj2 (has_duplicates_NoDup _ String.eqb_eq _) Hnd). reflexivity.
Qed.

Lemma class_refused unicode names name : In name names -> identifier name -> ~ field_name name ->
  raises (named_tuple_class unicode names).
Proof.
  intros Hin Hid Hbad. unfold named_tuple_class.
  destruct (existsb (fun n => negb _) names); [eexists; reflexivity|].
  destruct (existsb (fun n => existsb (String.eqb n) python_keywords) names) eqn:E2; [eexists; reflexivity|].
  destruct (existsb starts_with_underscore names) eqn:E3; [eexists; reflexivity|]. exfalso. apply Hbad. split; [exact Hid|].
  rewrite existsb_false_iff, Forall_forall in E2, E3. specialize (E2 _ Hin). specialize (E3 _ Hin). split.
  - intros Hk. apply not_true_iff_false in E2. apply E2. apply existsb_exists. exists name. split; [exact Hk|apply String.eqb_refl].
  - intros rest E. apply not_true_iff_false in E3. apply E3, underscore_spec. exists rest. exact E.
Qed.

Lemma find_field (tuple : list (string * Z)) name value : NoDup (map fst tuple) -> In (name, value) tuple ->
  find (fun field => String.eqb (fst field) name) tuple = Some (name, value).
Proof.
  induction tuple as [|[n v] tuple IH]; intros Hnd Hin; [destruct Hin|]. cbn [map fst] in Hnd. apply NoDup_cons_iff in Hnd as [Hn Hnd].
  cbn [find fst]. destruct (String.eqb_spec n name) as [->|Hne].
  - destruct Hin as [E|Hin]; [congruence|]. contradiction Hn. apply in_map_iff. exists (name, value). auto.
  - destruct Hin as [E|Hin]; [congruence|]. apply IH; assumption.
Qed.

Lemma map_fst_combine_prefix {A B} (a : list A) : forall (b : list B), exists rest, a = map fst (combine a b) ++ rest.
Proof.
  induction a as [|x a IH]; intros [|y b]; cbn [combine map app fst]; [exists []; reflexivity..|exists (x :: a); reflexivity|].
  destruct (IH b) as [rest E]. exists rest. rewrite <- E. reflexivity.
Qed.

Lemma NoDup_combine_fst {A B} (a : list A) (b : list B) : NoDup a -> NoDup (map fst (combine a b)).
Proof.
  intros H. destruct (map_fst_combine_prefix a b) as [rest E]. rewrite E in H. clear E. revert H. generalize (map fst (combine a b)). intros l.
  induction l as [|x l IH]; cbn [app]; intros H; [constructor|]. apply NoDup_cons_iff in H as [H1 H2]. constructor; [|apply IH; exact H2].
  intros Hin. apply H1, in_or_app. left. exact Hin.
Qed.

Lemma tuples_right unicode l tuples : as_namedtuples unicode l = Ok tuples ->
  length tuples = length (py_rows l)
  /\ forall i row, nth_error (py_rows l) i = Some row ->
       exists tuple, nth_error tuples i = Some tuple /\ tuple = combine (py_names l) row
         /\ forall name value, In (name, value) (combine (py_names l) row) -> name <> "as_dict" ->
              py_getattr tuple name = Some (AttributeValue value).
Proof.
  unfold as_namedtuples. destruct (named_tuple_class unicode (py_names l)) as [ns|e|m|x] eqn:E; cbn [bind]; [|discriminate..].
  intros H. injection H as <-. apply class_names in E as [-> Hnd]. split; [apply map_length|]. intros i row Hrow.
  exists (combine (py_names l) row). split; [rewrite nth_error_map, Hrow; reflexivity|]. split; [reflexivity|].
  intros name value Hin Hne. unfold py_getattr. destruct (String.eqb_spec name "as_dict") as [E|_]; [contradiction|].
  rewrite (find_field _ name value); [reflexivity| |exact Hin]. apply NoDup_combine_fst. exact Hnd.
Qed.

Lemma axis_good labels : axis_labels labels -> good_names (labels_names labels).
Proof. intros [(names & rs & Hl) _]. assert (labels_names labels = names) as -> by (unfold labels_names; apply Hl). apply Hl. Qed.

Lemma tuples_of_library unicode labels c l : axis_labels labels -> labels_to_c labels = Ok c -> from_eqs_labels c = Ok l ->
  (Forall field_name (labels_names labels) -> as_namedtuples unicode l = Ok (map (combine (labels_names labels)) (rows labels)))
  /\ (forall name, In name (labels_names labels) -> ~ field_name name -> raises (as_namedtuples unicode l)).
Proof.
  intros Hax Hc Hl. destruct (from_library_rows labels c Hax Hc) as (l' & Hl' & En & Er & _). rewrite Hl' in Hl. injection Hl as ->.
  pose proof (axis_good _ Hax) as [Hid Hnd]. unfold as_namedtuples. rewrite En, Er. split.
  - intros Hall. rewrite (class_exists unicode _ Hnd Hall). reflexivity.
  - intros name Hin Hbad. rewrite Forall_forall in Hid. destruct (class_refused unicode _ name Hin (Hid _ Hin) Hbad) as [e ->]. eexists. reflexivity.
Qed.

(** * Arrays of integers *)

Lemma split_rows_same count width : forall values, split_rows count width values = take_rows count width values.
Proof. induction count as [|count IH]; intros values; cbn; [reflexivity|]. rewrite IH. reflexivity. Qed.

Definition all_integers (l : py_labels) : list (list Z) := map (fun i => map (pl_get l i) (seq 0 (pl_item l))) (seq 0 (pl_count l)).

Lemma asarray_exact l :
  (pl_count l = 0 -> raises (py_asarray l))
  /\ (pl_count l <> 0 -> pl_item l <= 1 \/ pl_count l = 1 \/ pl_stride l = Z.of_nat (pl_item l) -> py_asarray l = Ok (all_integers l))
  /\ (2 <= pl_item l -> 2 <= pl_count l -> pl_stride l <> Z.of_nat (pl_item l) -> raises (py_asarray l)).
Proof.
  unfold py_asarray, view_int32. split; [|split].
  - intros E. rewrite E. cbn [Nat.mul Nat.eqb orb]. destruct (pl_item l =? 1); cbn [bind]; eexists; reflexivity.
  - intros Hc Hok. destruct (Nat.eqb_spec (pl_item l) 1) as [E|E].
    + cbn [bind]. unfold reshape_rows. rewrite (proj2 (Nat.eqb_neq _ _) Hc). f_equal.
      rewrite map_length, seq_length, Nat.div_same by exact Hc. rewrite split_rows_same, take_rows_map by (rewrite map_length, seq_length; lia).
      unfold all_integers. rewrite E. apply map_ext_in. intros i Hi. apply in_seq in Hi. cbn [seq map]. f_equal.
      rewrite (nth_indep _ 0%Z (pl_get l 0 0)) by (rewrite map_length, seq_length; lia).
      rewrite (map_nth (fun i => pl_get l i 0)), seq_nth by lia. f_equal. lia.
    + assert (Hcond : ((pl_count l * pl_item l =? 0) || (pl_count l =? 1) || (pl_stride l =? Z.of_nat (pl_item l))%Z) = true).
      { rewrite !orb_true_iff, !Nat.eqb_eq, Z.eqb_eq. destruct Hok as [H|[H|H]]; [left; left; assert (pl_item l = 0) as -> by lia; lia|tauto|tauto]. }
      rewrite Hcond. cbn [bind]. unfold reshape_rows. rewrite (proj2 (Nat.eqb_neq _ _) Hc). f_equal.
      rewrite map_length, seq_length, (Nat.mul_comm (pl_count l)), Nat.div_mul by exact Hc. rewrite split_rows_same, take_rows_map
        by (rewrite map_length, seq_length; lia).
      unfold all_integers. apply map_ext_in. intros i Hi. apply in_seq in Hi. apply map_ext_in. intros j Hj. apply in_seq in Hj.
      assert (Hlt : i * pl_item l + j < pl_item l * pl_count l) by nia.
      rewrite (nth_indep _ 0%Z (nth (pl_start l + 0) (pl_memory l) 0%Z)) by (rewrite map_length, seq_length; exact Hlt).
      rewrite (map_nth (fun k => nth (pl_start l + k) (pl_memory l) 0%Z)), seq_nth by exact Hlt.
      unfold pl_get, pl_position. f_equal.
      assert (Hpos : (Z.of_nat i * pl_stride l = Z.of_nat (i * pl_item l))%Z).
      { destruct Hok as [H|[H|H]]; [lia|assert (i = 0) as -> by lia; lia|rewrite H; lia]. }
      rewrite Hpos. lia.
  - intros H1 H2 H3. assert (pl_item l =? 1 = false) as -> by (apply Nat.eqb_neq; lia).
    assert (pl_count l * pl_item l =? 0 = false) as -> by (apply Nat.eqb_neq; nia). rewrite (proj2 (Nat.eqb_neq (pl_count l) 1)) by lia.
    rewrite (proj2 (Z.eqb_neq _ _) H3). cbn [orb bind]. eexists. reflexivity.
Qed.

Lemma all_integers_rows l : all_fields l -> all_integers l = py_rows l.
Proof.
  intros H. unfold all_integers, py_rows. apply map_ext. intros i. rewrite <- H, map_map. reflexivity.
Qed.

Lemma plain_all_fields l : plain_labels l -> all_fields l.
Proof. intros H. apply plain_contiguous in H as (_ & E & H). unfold all_fields. rewrite H, E. reflexivity. Qed.

Lemma rows_count l : length (py_rows l) = pl_count l.
Proof. unfold py_rows. rewrite map_length, seq_length. reflexivity. Qed.

Lemma asarray_plain l : plain_labels l -> py_rows l <> [] -> py_asarray l = Ok (py_rows l).
Proof.
  intros Hp Hne. rewrite <- (all_integers_rows l (plain_all_fields l Hp)). apply asarray_exact.
  - rewrite <- rows_count. destruct (py_rows l); [contradiction|discriminate].
  - right. right. apply plain_contiguous in Hp as (E & _). exact E.
Qed.

Lemma asarray_never_wrong l : all_fields l ->
  (py_rows l = [] -> raises (py_asarray l))
  /\ (py_asarray l = Ok (py_rows l) \/ raises (py_asarray l))
  /\ (py_rows l <> [] -> length (py_names l) <= 1 \/ length (py_rows l) = 1 \/ pl_stride l = Z.of_nat (length (py_names l)) ->
      py_asarray l = Ok (py_rows l))
  /\ (2 <= length (py_names l) -> 2 <= length (py_rows l) -> pl_stride l <> Z.of_nat (length (py_names l)) -> raises (py_asarray l)).
Proof.
  intros Hf. assert (Hn : length (py_names l) = pl_item l).
  { unfold py_names. rewrite map_length, <- (map_length snd), Hf, seq_length. reflexivity. }
  rewrite Hn, rows_count. destruct (asarray_exact l) as (H0 & H1 & H2). rewrite (all_integers_rows l Hf) in H1.
  assert (Hempty : py_rows l = [] <-> pl_count l = 0).
  { rewrite <- rows_count. destruct (py_rows l); cbn; [tauto|]. split; discriminate. }
  split; [intros E; apply H0, Hempty, E|]. split; [|split].
  - destruct (Nat.eq_dec (pl_count l) 0) as [E|E]; [right; exact (H0 E)|].
    destruct (Z.eq_dec (pl_stride l) (Z.of_nat (pl_item l))) as [Es|Es]; [left; apply H1; tauto|].
    destruct (le_lt_dec (pl_item l) 1) as [Hi|Hi]; [left; apply H1; tauto|].
    destruct (Nat.eq_dec (pl_count l) 1) as [Ec|Ec]; [left; apply H1; tauto|]. right. apply H2; lia.
  - intros Hne Hc. apply H1; [|exact Hc]. intros E. apply Hne, Hempty, E.
  - exact H2.
Qed.

(** * Keys and blocks *)

Lemma keys_of_tensor p files calls i thread handle t :
  never_crashed p (world_start files) calls -> ordinary p (world_start files) calls ->
  let s := state_at p (world_start files) calls i in
  tensor_at s handle t ->
  exists keys, py_tensor_keys p thread s handle = Ok keys /\ same_entries keys (tm_keys (ot_tensor t)).
Proof.
  intros Hn Ho s Ht. pose proof (owners_state p files calls Hn i) as Hown. pose proof (valid_state p files calls Ho i) as Hval.
  fold s in Hown, Hval. pose proof (tensor_get _ _ _ Hown Ht) as Hget. pose proof (proj1 (get_tensor_ok _ _ _) Hget) as Hg.
  destruct (valid_tensor _ _ _ Hval Hg) as [[Hk _] _]. destruct (labels_round_trip _ Hk) as (c & l' & Hc & _).
  assert (Hbody : call_body p thread s (TensorKeys (Some handle) out) = (s, VLabels c, Ok tt)).
  { cbn [call_body]. unfold eqs_tensormap_keys. apply reading_ok. cbn [bind check_pointer out]. rewrite Hget. cbn [bind]. rewrite Hc. reflexivity. }
  unfold py_tensor_keys, called_from_python. rewrite (run_call_ok _ _ _ _ _ _ Hbody). cbn [bind].
  destruct (from_library_rows _ _ Hk Hc) as (l & Hl & H1 & H2 & _). exists l. split; [exact Hl|]. split; assumption.
Qed.

Lemma mapM_numbered {A B} (f : nat * A -> outcome B) (R : nat -> A -> B -> Prop) : forall (l : list A) start,
  (forall k a, nth_error l k = Some a -> exists b, f (start + k, a) = Ok b /\ R (start + k) a b) ->
  exists bs, mapM f (combine (seq start (length l)) l) = Ok bs /\ length bs = length l
    /\ forall k b, nth_error bs k = Some b -> exists a, nth_error l k = Some a /\ R (start + k) a b.
Proof.
  induction l as [|a l IH]; intros start H; cbn [length seq combine mapM].
  - exists []. split; [reflexivity|]. split; [reflexivity|]. intros [|k] b E; discriminate E.
  - destruct (H 0 a eq_refl) as (b & Eb & Hb). rewrite Nat.add_0_r in Eb, Hb. rewrite Eb. cbn [bind].
    destruct (IH (S start)) as (bs & E & El & Hbs).
    { intros k a' Hk. replace (S start + k) with (start + S k) by lia. apply H. exact Hk. }
    rewrite E. cbn [bind]. exists (b :: bs). split; [reflexivity|]. split; [cbn; congruence|].
    intros [|k] b' Hk; cbn [nth_error] in *.
    + injection Hk as <-. exists a. rewrite Nat.add_0_r. auto.
    + replace (start + S k) with (S start + k) by lia. apply Hbs. exact Hk.
Qed.

Lemma items_of_tensor p files calls i thread handle t :
  never_crashed p (world_start files) calls -> ordinary p (world_start files) calls ->
  let s := state_at p (world_start files) calls i in
  tensor_at s handle t ->
  exists items, py_items p thread s handle = Ok items /\ length items = length (tm_blocks (ot_tensor t))
    /\ forall j entry pointer, nth_error items j = Some (entry, pointer) ->
         points_to_block s (ot_tensor t) j pointer
         /\ exists key, nth_error (rows (tm_keys (ot_tensor t))) j = Some key /\ entry = combine (labels_names (tm_keys (ot_tensor t))) key.
Proof.
  intros Hn Ho s Ht. destruct (keys_of_tensor p files calls i thread handle t Hn Ho Ht) as (keys & Ek & En & Er). fold s in Ek.
  unfold py_items. rewrite Ek. cbn [bind].
  pose proof (proj2 (everything_well_formed p files calls i Hn Ho) _ _ Ht) as (_ & _ & Hlen & _).
  assert (Hcount : pl_count keys = length (py_entries keys)) by (unfold py_entries; rewrite map_length, rows_count; reflexivity).
  rewrite Hcount.
  destruct (mapM_numbered (fun item => let? block := py_block_by_id p thread s handle (fst item) in Ok (snd item, block))
    (fun j entry item => fst item = entry /\ points_to_block s (ot_tensor t) j (snd item)) (py_entries keys) 0) as (items & E & El & Hit).
  - intros k entry Hk. cbn [Nat.add fst snd]. 
    assert (Hb : k < length (tm_blocks (ot_tensor t))).
    { rewrite Hlen, <- Er, rows_count, Hcount. apply nth_error_Some. congruence. }
    destruct (proj1 (block_of_index p files calls i thread handle t k Hn Ht) Hb) as (pointer & Ep & Hp). fold s in Ep. rewrite Ep. cbn [bind].
    exists (entry, pointer). auto.
  - exists items. split; [exact E|]. split; [rewrite El, <- Hcount, <- rows_count, Er; symmetry; exact Hlen|].
    intros j entry pointer Hj. destruct (Hit _ _ Hj) as (a & Ha & <- & Hp). cbn [fst snd Nat.add] in *. split; [exact Hp|].
    unfold py_entries in Ha. rewrite nth_error_map, Er, En in Ha. destruct (nth_error (rows (tm_keys (ot_tensor t))) j) as [key|]; [|discriminate Ha].
    exists key. split; [reflexivity|]. injection Ha as <-. reflexivity.
Qed.

(** * Blocks from keys *)

Lemma combine_included_eq {A} (names : list string) (a b : list A) : NoDup names -> length a = length names -> length b = length names ->
  (forall name value, In (name, value) (combine names a) -> In (name, value) (combine names b)) -> a = b.
Proof.
  intros Hnd Ha Hb H. revert a b Ha Hb H. induction names as [|n names IH]; intros [|x a] [|y b] Ha Hb H; try discriminate; [reflexivity|].
  apply NoDup_cons_iff in Hnd as [Hn Hnd]. cbn [combine] in H. f_equal.
  - destruct (H n x (or_introl eq_refl)) as [E|Hin]; [congruence|]. apply in_combine_l in Hin. contradiction.
  - apply (IH Hnd); [cbn in Ha; congruence|cbn in Hb; congruence|]. intros name value Hin.
    destruct (H name value (or_intror Hin)) as [E|Hin']; [|exact Hin']. injection E as <- <-. apply in_combine_l in Hin. contradiction.
Qed.

Lemma sorted_singleton found (j : nat) : StronglySorted lt found -> (forall i, In i found <-> i = j) -> found = [j].
Proof.
  intros Hs H. destruct found as [|a found]; [destruct (proj2 (H j) eq_refl)|]. assert (a = j) as -> by (apply H; left; reflexivity).
  destruct found as [|b found]; [reflexivity|]. assert (b = j) as -> by (apply H; right; left; reflexivity).
  apply StronglySorted_inv in Hs as [_ Hs]. apply Forall_inv in Hs. lia.
Qed.

Lemma block_of_entry p files calls i thread handle t j key :
  never_crashed p (world_start files) calls -> ordinary p (world_start files) calls ->
  let s := state_at p (world_start files) calls i in
  let names := labels_names (tm_keys (ot_tensor t)) in
  let selection := ByKeywords (combine names key) in
  tensor_at s handle t -> nth_error (rows (tm_keys (ot_tensor t))) j = Some key -> Forall (fun z => is_i32 z = true) key ->
  ~ In "self" names -> ~ In "__return_selection" names ->
  py_blocks_matching p thread s handle selection = Ok [j]
  /\ exists pointer, py_block p thread s handle selection = Ok pointer /\ py_blocks p thread s handle selection = Ok [pointer]
       /\ points_to_block s (ot_tensor t) j pointer.
Proof.
  intros Hn Ho s names selection Ht Hj Hi Hself Hret.
  pose proof (proj2 (everything_well_formed p files calls i Hn Ho) _ _ Ht) as (Hax & _ & _).
  pose proof (axis_good _ Hax) as [Hid Hnd]. fold names in Hid, Hnd.
  assert (Hrows : good_rows (length names) (rows (tm_keys (ot_tensor t)))).
  { destruct Hax as [(ns & rs & Hl) _]. rewrite (is_labels_rows _ _ _ Hl). subst names. assert (labels_names (tm_keys (ot_tensor t)) = ns) as -> by (unfold labels_names; apply Hl).
    apply Hl. }
  destruct Hrows as [Hlen Hrows]. rewrite Forall_forall in Hlen.
  assert (Hkey : length key = length names) by (apply Hlen, (nth_error_In _ j), Hj).
  assert (Efst : map fst (combine names key) = names).
  { clear -Hkey. revert key Hkey. induction names as [|n names IH]; intros [|k key] H; try discriminate; [reflexivity|]. cbn. f_equal. apply IH. cbn in H. congruence. }
  assert (Esnd : map snd (combine names key) = key).
  { clear -Hkey. revert key Hkey. induction names as [|n names IH]; intros [|k key] H; try discriminate; [reflexivity|]. cbn. f_equal. apply IH. cbn in H. congruence. }
  destruct (selection_of_keywords p files calls i thread handle t (combine names key) Hn Ho Ht) as [H _].
  - rewrite Efst. exact Hnd.
  - rewrite Esnd. exact Hi.
  - rewrite Efst. apply Forall_forall. intros name Hin. rewrite Forall_forall in Hid. specialize (Hid _ Hin). split.
    + intros ->. destruct Hid as (c & rest & E & _). discriminate E.
    + split; [apply identifier_no_nul; exact Hid|]. split; intros ->; contradiction.
  - destruct H as (found & Hsort & Hin & Hm & Hbs & _ & Hb & _); [rewrite Efst; auto|].
    assert (Hiff : forall k, In k found <-> k = j).
    { intros k. rewrite Hin. split.
      - intros (key' & Hk & Hag). assert (key = key') as <-.
        { apply (combine_included_eq names); [exact Hnd|exact Hkey|apply Hlen, (nth_error_In _ k), Hk|exact Hag]. }
        apply (proj1 (NoDup_nth_error _) Hrows k j); [apply nth_error_Some; congruence|congruence].
      - intros ->. exists key. split; [exact Hj|]. auto. }
    pose proof (sorted_singleton _ _ Hsort Hiff) as ->. split; [exact Hm|]. destruct (Hb j eq_refl) as (pointer & E & Hp).
    exists pointer. split; [exact E|]. split; [|exact Hp].
    unfold py_block, py_blocks in *. fold s selection in Hm, E |- *. unfold selection in *. rewrite Hm in *. cbn [bind mapM] in *. rewrite E. reflexivity.
Qed.

(** * Labels of blocks *)

Lemma labels_of_part p files calls i thread block b name part :
  never_crashed p (world_start files) calls -> ordinary p (world_start files) calls ->
  let s := state_at p (world_start files) calls i in
  points_to s block b -> utf8_text name -> named_part (ob_block b) (c_str name) part ->
  py_dimensions p thread s block name = Ok (length (axes part))
  /\ forall axis labels, nth_error (axes part) axis = Some labels ->
       exists l, py_axis_labels p thread s block name axis = Ok l /\ same_entries l labels.
Proof.
  intros Hn Ho s Hb Hu Hp. pose proof (owners_state p files calls Hn i) as Hown. pose proof (valid_state p files calls Ho i) as Hval.
  fold s in Hown, Hval.
  apply (points_to_read _ _ _ Hown) in Hb. destruct (valid_read _ _ _ Hval Hb) as [Hwf _]. destruct (read_block_owned _ _ _ Hown Hb) as [Harr _].
  assert (Hnd : NoDup (map fst (tb_gradients (ob_block b)))) by apply Hwf.
  pose proof (read_block_pointer _ _ _ Hb) as Hptr.
  pose proof (proj2 (select_basic_ok _ _ _ Hnd) Hp) as Es. destruct (select_array_ok b _ _ Harr Hp) as (id & Hid & _).
  assert (Hwp : wf_basic part).
  { destruct Hwf as (H1 & H2 & _). destruct Hp as [[_ ->]|[_ Hp]]; [exact H1|]. rewrite Forall_forall in H2. apply (H2 _ Hp). }
  split.
  - assert (Hdata : call_body p thread s (BlockData block (Some name) out) = (s, VArray (mk_given (bb_data part) id false), Ok tt)).
    { cbn [call_body]. unfold eqs_block_data. apply reading_ok. rewrite Hptr. cbn [bind check_pointer]. rewrite (utf8_str _ _ Hu). cbn [bind].
      rewrite Hb. cbn [bind]. rewrite Es. cbn [bind]. rewrite Hid. reflexivity. }
    unfold py_dimensions, called_from_python. rewrite (run_call_ok _ _ _ _ _ _ Hdata). cbn [bind ga_array].
    destruct Hwp as (_ & _ & E & _). unfold shape_of in E. rewrite E, map_length. reflexivity.
  - intros axis labels Hax. assert (Hal : axis_labels labels).
    { destruct Hwp as (_ & H & _). rewrite Forall_forall in H. apply H. eapply nth_error_In. exact Hax. }
    destruct (labels_round_trip labels Hal) as (c & l' & Hc & _).
    assert (Hlab : call_body p thread s (BlockLabels block (Some name) axis out) = (s, VLabels c, Ok tt)).
    { cbn [call_body]. unfold eqs_block_labels. apply reading_ok. rewrite Hptr. cbn [bind check_pointer]. rewrite (utf8_str _ _ Hu). cbn [bind].
      rewrite Hb. cbn [bind]. rewrite Es. cbn [bind]. rewrite (axis_of_block_ok _ _ _ Hax). cbn [bind]. rewrite Hc. reflexivity. }
    unfold py_axis_labels, called_from_python. rewrite (run_call_ok _ _ _ _ _ _ Hlab). cbn [bind].
    destruct (from_library_rows _ _ Hal Hc) as (l & Hl & H1 & H2 & _). exists l. split; [exact Hl|]. split; assumption.
Qed.

Lemma mapM_seq {B C} (f : nat -> outcome B) (R : B -> C -> Prop) : forall (l : list C) start,
  (forall k c, nth_error l k = Some c -> exists b, f (start + k) = Ok b /\ R b c) ->
  exists bs, mapM f (seq start (length l)) = Ok bs /\ Forall2 R bs l.
Proof.
  induction l as [|c l IH]; intros start H; cbn [length seq mapM]; [exists []; split; [reflexivity|constructor]|].
  destruct (H 0 c eq_refl) as (b & Eb & Hb). rewrite Nat.add_0_r in Eb. rewrite Eb. cbn [bind].
  destruct (IH (S start)) as (bs & E & Hbs).
  { intros k c' Hk. replace (S start + k) with (start + S k) by lia. apply H. exact Hk. }
  rewrite E. exists (b :: bs). split; [reflexivity|]. constructor; assumption.
Qed.

Lemma part_labels p files calls i thread block b name part :
  never_crashed p (world_start files) calls -> ordinary p (world_start files) calls ->
  let s := state_at p (world_start files) calls i in
  points_to s block b -> utf8_text name -> named_part (ob_block b) (c_str name) part ->
  (exists l, py_samples p thread s block name = Ok l /\ same_entries l (bb_samples part))
  /\ (exists ls, py_components p thread s block name = Ok ls /\ Forall2 same_entries ls (bb_components part))
  /\ (exists l, py_properties p thread s block name = Ok l /\ same_entries l (bb_properties part)).
Proof.
  intros Hn Ho s Hb Hu Hp. destruct (labels_of_part p files calls i thread block b name part Hn Ho Hb Hu Hp) as [Hd Hl]. fold s in Hd, Hl.
  assert (Hlen : length (axes part) = S (length (bb_components part) + 1)) by (unfold axes; cbn; rewrite app_length; reflexivity).
  split; [|split].
  - unfold py_samples. apply Hl. reflexivity.
  - unfold py_components. rewrite Hd, Hlen. cbn [bind]. replace (S (length (bb_components part) + 1) - 2) with (length (bb_components part)) by lia.
    apply mapM_seq. intros k c Hk. apply Hl. replace (0 + k + 1) with (S k) by lia. unfold axes. cbn [nth_error].
    rewrite nth_error_app1; [exact Hk|]. apply nth_error_Some. congruence.
  - unfold py_properties. rewrite Hd, Hlen. cbn [bind]. apply Hl. replace (S (length (bb_components part) + 1) - 1) with (S (length (bb_components part))) by lia.
    unfold axes. cbn [nth_error]. rewrite nth_error_app2, Nat.sub_diag by lia. reflexivity.
Qed.

Lemma names_of_tensor p files calls i thread handle t :
  never_crashed p (world_start files) calls -> ordinary p (world_start files) calls ->
  let s := state_at p (world_start files) calls i in
  tensor_at s handle t -> tm_blocks (ot_tensor t) <> [] ->
  exists samples components properties,
    py_sample_names p thread s handle = Ok samples /\ py_components_names p thread s handle = Ok components
    /\ py_property_names p thread s handle = Ok properties
    /\ forall block, In block (tm_blocks (ot_tensor t)) ->
         labels_names (bb_samples (tb_values block)) = samples
         /\ map labels_names (bb_components (tb_values block)) = components
         /\ labels_names (bb_properties (tb_values block)) = properties.
Proof.
  intros Hn Ho s Ht Hne.
  destruct (proj1 (block_of_index p files calls i thread handle t 0 Hn Ht)) as (pointer & E & b & Hb & Hnth); [destruct (tm_blocks (ot_tensor t)); [contradiction|cbn; lia]|].
  fold s in E, Hb.
  destruct (part_labels p files calls i thread pointer b "values" (tb_values (ob_block b)) Hn Ho Hb) as (Hs & Hc & Hp);
    [reflexivity|left; split; reflexivity|]. fold s in Hs, Hc, Hp.
  destruct Hs as (ls & Es & Ens & _). destruct Hc as (lc & Ec & Hlc). destruct Hp as (lp & Ep & Enp & _).
  exists (py_names ls), (map py_names lc), (py_names lp). unfold py_sample_names, py_components_names, py_property_names, py_block.
  rewrite E. cbn [bind]. rewrite Es, Ec, Ep. cbn [bind]. split; [reflexivity|]. split; [reflexivity|]. split; [reflexivity|].
  intros block Hin. pose proof (proj2 (everything_well_formed p files calls i Hn Ho) _ _ Ht) as (_ & _ & _ & Hh).
  destruct (Hh block (ob_block b) Hin (nth_error_In _ _ Hnth)) as (H1 & H2 & H3 & _). rewrite H1, H2, H3, Ens, Enp.
  split; [reflexivity|]. split; [|reflexivity]. clear -Hlc. induction Hlc as [|l c ls cs [En _] _ IH]; cbn [map]; [reflexivity|]. rewrite En, IH. reflexivity.
Qed.

Lemma names_of_nothing p files calls i thread handle t :
  never_crashed p (world_start files) calls ->
  let s := state_at p (world_start files) calls i in
  tensor_at s handle t -> tm_blocks (ot_tensor t) = [] ->
  raises (py_sample_names p thread s handle) /\ raises (py_components_names p thread s handle) /\ raises (py_property_names p thread s handle).
Proof.
  intros Hn s Ht E0. destruct (proj2 (block_of_index p files calls i thread handle t 0 Hn Ht)) as [e E]; [rewrite E0; cbn; lia|]. fold s in E.
  unfold py_sample_names, py_components_names, py_property_names, py_block. rewrite E. cbn [bind]. repeat split; eexists; reflexivity.
Qed.

(** * Names to move *)

Lemma changed_ok p thread w c s' o w1 v r : run_call p thread w c = (w1, v, r) -> changed_from_python p thread w c = (s', o) ->
  s' = w1 /\ (o = Ok tt <-> r = Returned 0).
Proof.
  intros Er H. unfold changed_from_python in H. rewrite Er in H. destruct r as [z|m|x].
  - destruct z; injection H as <- <-; (split; [reflexivity|]); split; try discriminate; reflexivity.
  - injection H as <- <-. split; [reflexivity|]. split; discriminate.
  - injection H as <- <-. split; [reflexivity|]. split; discriminate.
Qed.

Lemma changed_raises p files calls i thread c s' o w1 v outcome :
  let s := state_at p (world_start files) calls i in
  reportable c -> call_body p thread s c = (w1, v, outcome) -> defined outcome -> outcome <> Ok tt ->
  changed_from_python p thread s c = (s', o) -> raises o.
Proof.
  intros s Hc Hb Hd Hne H. pose proof (state_plain p files calls i) as Hpl. fold s in Hpl. unfold changed_from_python in H.
  destruct outcome as [[]|e|m|r]; [contradiction| | |destruct (Hd r eq_refl)].
  - pose proof (proj2 (call_body_plain p thread s c Hpl)) as Hcoded. rewrite Hb in Hcoded. specialize (Hcoded e eq_refl).
    destruct (run_call_error _ _ _ _ _ _ _ Hpl Hc Hb) as [w2 E]. rewrite E in H. destruct (error_code e); [contradiction|injection H as _ <-; eexists; reflexivity..].
  - destruct (run_call_panic _ _ _ _ _ _ _ Hpl Hc Hb) as [w2 E]. rewrite E in H. injection H as _ <-. eexists. reflexivity.
Qed.

Lemma normalized argument names values : asks_for argument names values -> ~ In "" names ->
  (forall l, normalize_keys_to_move argument = Ok l -> plain_labels l /\ py_names l = names /\ py_rows l = values)
  /\ ((exists l, normalize_keys_to_move argument = Ok l) \/ (raises (normalize_keys_to_move argument) /\ ~ NoDup names)).
Proof.
  intros Ha Hne.
  assert (Hlist : forall list, ~ In "" list ->
    (forall l, labels_new list (length list) [] = Ok l -> plain_labels l /\ py_names l = list /\ py_rows l = [])
    /\ ((exists l, labels_new list (length list) [] = Ok l) \/ (raises (labels_new list (length list) []) /\ ~ NoDup list))).
  { intros list Hl. split.
    - intros l E. split; [exact (plain_new _ _ _ _ (Forall_nil _) E)|]. destruct (labels_new_rows _ _ _ _ (Forall_nil _) E) as [E1 E2].
      rewrite field_names_same in E1 by exact Hl. auto.
    - destruct (labels_new_exact list (length list) [] (Forall_nil _) (Forall_nil _) Hl) as [H _].
      destruct (has_duplicates String.eqb list) eqn:Ed.
      + right. split.
        * unfold labels_new. rewrite Nat.eqb_refl. cbn [negb]. rewrite field_names_same by exact Hl. rewrite Ed. eexists. reflexivity.
        * intros Hd. apply (has_duplicates_NoDup _ String.eqb_eq) in Hd. congruence.
      + left. apply H. split; [reflexivity|]. split; [apply (has_duplicates_NoDup _ String.eqb_eq); exact Ed|constructor]. }
  destruct argument as [name|list|labels]; cbn [asks_for normalize_keys_to_move] in *.
  - destruct Ha as [-> ->]. apply (Hlist [name]). exact Hne.
  - destruct Ha as [-> ->]. apply Hlist. exact Hne.
  - destruct Ha as (Hp & -> & ->). split; [|left; eexists; reflexivity]. intros l E. injection E as <-. auto.
Qed.

Lemma names_moved_to_samples p files calls i thread handle t argument names values sort temporary s' o :
  never_crashed p (world_start files) calls ->
  let s := state_at p (world_start files) calls i in
  tensor_at s handle t -> asks_for argument names values -> names <> [] ->
  Forall (fun name => name <> "" /\ has_nul name = false) names ->
  py_keys_to_samples p thread s handle argument sort temporary = (s', o) ->
  (good_names names -> NoDup values ->
     exists keys, is_labels keys names values
       /\ (o = Ok tt <-> snd (keys_to_samples p (ot_tensor t) keys sort) = Ok tt)
       /\ (o = Ok tt -> now_holds s s' handle t (fst (keys_to_samples p (ot_tensor t) keys sort))))
  /\ (~ (good_names names /\ NoDup values) -> raises o /\ w_tensors s' = w_tensors s).
Proof.
  intros Hn s Ht Ha Hnames Hne Hcall. pose proof (owners_state p files calls Hn i) as Hown. fold s in Hown.
  assert (Hempty : ~ In "" names). { intros Hin. rewrite Forall_forall in Hne. destruct (Hne _ Hin) as [H _]. apply H. reflexivity. }
  assert (Hnul : Forall (fun name => has_nul name = false) names) by (eapply Forall_impl; [|exact Hne]; cbn beta; tauto).
  destruct (normalized _ _ _ Ha Hempty) as [Hnorm Hcase]. unfold py_keys_to_samples in Hcall.
  destruct (normalize_keys_to_move argument) as [l|e|m|x] eqn:El.
  - destruct (Hnorm l eq_refl) as (Hp & En & Er). 
    destruct (plain_accepted l Hp) as [Hacc His]; [rewrite En; exact Hnames|rewrite En; exact Hnul|]. rewrite En, Er in Hacc, His.
    set (call := TensorKeysToSamples (Some handle) (as_eqs_labels l) sort temporary) in *.
    destruct (run_call p thread s call) as [[w1 v] r] eqn:Erun. destruct (changed_ok _ _ _ _ _ _ _ _ _ Erun Hcall) as [-> Hok]. split.
    + intros Hg Hd. destruct (proj2 Hacc (conj Hg Hd)) as [keys Hk]. exists keys. split; [exact (His _ Hk)|].
      destruct (keys_to_samples_call p files calls i thread handle t _ keys sort temporary w1 v r Hn Ht Hk Erun) as (H1 & _ & H2).
      rewrite Hok. split; [exact H1|]. exact H2.
    + intros Hbad. destruct (call_body p thread s call) as [[w2 v2] o2] eqn:Eb. pose proof Eb as Eb0. subst call. cbn [call_body] in Eb.
      unfold eqs_tensormap_keys_to_samples, move_keys in Eb. cbn [check_pointer bind] in Eb.
      pose proof (safe_labels_from_c (as_eqs_labels l) (proj1 (plain_same l Hp))) as Hdef.
      assert (w2 = s /\ defined o2 /\ o2 <> Ok tt) as (-> & Hd & Hn2).
      { destruct (labels_from_c (as_eqs_labels l)) as [keys|e|m|x] eqn:E; cbn [bind] in Eb.
        - contradiction Hbad. apply Hacc. exists keys. reflexivity.
        - injection Eb as <- _ <-. split; [reflexivity|]. split; [intros x; discriminate|discriminate].
        - injection Eb as <- _ <-. split; [reflexivity|]. split; [intros x; discriminate|discriminate].
        - destruct (Hdef x eq_refl). }
      split; [eapply (changed_raises p files calls i thread); [|exact Eb0|exact Hd|exact Hn2|exact Hcall]; exact I|].
      destruct (run_call_fields_of _ _ _ _ _ _ _ _ _ _ Erun Eb0) as (_ & _ & Et & _). exact Et.
  - injection Hcall as <- <-. destruct Hcase as [[l E]|[_ Hbad]]; [discriminate E|]. split; [intros [_ Hd]; contradiction|].
    intros _. split; [eexists; reflexivity|reflexivity].
  - destruct Hcase as [[l E]|[[e E] _]]; discriminate E.
  - destruct Hcase as [[l E]|[[e E] _]]; discriminate E.
Qed.

Lemma names_moved_to_properties p files calls i thread handle t argument names values sort temporary s' o :
  never_crashed p (world_start files) calls ->
  let s := state_at p (world_start files) calls i in
  tensor_at s handle t -> asks_for argument names values -> names <> [] ->
  Forall (fun name => name <> "" /\ has_nul name = false) names ->
  py_keys_to_properties p thread s handle argument sort temporary = (s', o) ->
  (good_names names -> NoDup values ->
     exists keys, is_labels keys names values
       /\ (o = Ok tt <-> snd (keys_to_properties p (ot_tensor t) keys sort) = Ok tt)
       /\ (o = Ok tt -> now_holds s s' handle t (fst (keys_to_properties p (ot_tensor t) keys sort))))
  /\ (~ (good_names names /\ NoDup values) -> raises o /\ w_tensors s' = w_tensors s).
Proof.
  intros Hn s Ht Ha Hnames Hne Hcall. pose proof (owners_state p files calls Hn i) as Hown. fold s in Hown.
  assert (Hempty : ~ In "" names). { intros Hin. rewrite Forall_forall in Hne. destruct (Hne _ Hin) as [H _]. apply H. reflexivity. }
  assert (Hnul : Forall (fun name => has_nul name = false) names) by (eapply Forall_impl; [|exact Hne]; cbn beta; tauto).
  destruct (normalized _ _ _ Ha Hempty) as [Hnorm Hcase]. unfold py_keys_to_properties in Hcall.
  destruct (normalize_keys_to_move argument) as [l|e|m|x] eqn:El.
  - destruct (Hnorm l eq_refl) as (Hp & En & Er). 
    destruct (plain_accepted l Hp) as [Hacc His]; [rewrite En; exact Hnames|rewrite En; exact Hnul|]. rewrite En, Er in Hacc, His.
    set (call := TensorKeysToProperties (Some handle) (as_eqs_labels l) sort temporary) in *.
    destruct (run_call p thread s call) as [[w1 v] r] eqn:Erun. destruct (changed_ok _ _ _ _ _ _ _ _ _ Erun Hcall) as [-> Hok]. split.
    + intros Hg Hd. destruct (proj2 Hacc (conj Hg Hd)) as [keys Hk]. exists keys. split; [exact (His _ Hk)|].
      destruct (keys_to_properties_call p files calls i thread handle t _ keys sort temporary w1 v r Hn Ht Hk Erun) as (H1 & _ & H2).
      rewrite Hok. split; [exact H1|]. exact H2.
    + intros Hbad. destruct (call_body p thread s call) as [[w2 v2] o2] eqn:Eb. pose proof Eb as Eb0. subst call. cbn [call_body] in Eb.
      unfold eqs_tensormap_keys_to_properties, move_keys in Eb. cbn [check_pointer bind] in Eb.
      pose proof (safe_labels_from_c (as_eqs_labels l) (proj1 (plain_same l Hp))) as Hdef.
      assert (w2 = s /\ defined o2 /\ o2 <> Ok tt) as (-> & Hd & Hn2).
      { destruct (labels_from_c (as_eqs_labels l)) as [keys|e|m|x] eqn:E; cbn [bind] in Eb.
        - contradiction Hbad. apply Hacc. exists keys. reflexivity.
        - injection Eb as <- _ <-. split; [reflexivity|]. split; [intros x; discriminate|discriminate].
        - injection Eb as <- _ <-. split; [reflexivity|]. split; [intros x; discriminate|discriminate].
        - destruct (Hdef x eq_refl). }
      split; [eapply (changed_raises p files calls i thread); [|exact Eb0|exact Hd|exact Hn2|exact Hcall]; exact I|].
      destruct (run_call_fields_of _ _ _ _ _ _ _ _ _ _ Erun Eb0) as (_ & _ & Et & _). exact Et.
  - injection Hcall as <- <-. destruct Hcase as [[l E]|[_ Hbad]]; [discriminate E|]. split; [intros [_ Hd]; contradiction|].
    intros _. split; [eexists; reflexivity|reflexivity].
  - destruct Hcase as [[l E]|[[e E] _]]; discriminate E.
  - destruct Hcase as [[l E]|[[e E] _]]; discriminate E.
Qed.

Lemma names_of_components_moved p files calls i thread handle t argument names s' o :
  never_crashed p (world_start files) calls ->
  let s := state_at p (world_start files) calls i in
  tensor_at s handle t -> argument = ManyNames names \/ (exists name, argument = OneName name /\ names = [name]) ->
  Forall (fun name => utf8_text name /\ has_nul name = false) names ->
  py_components_to_properties p thread s handle argument = (s', o) ->
  (o = Ok tt <-> snd (components_to_properties (ot_tensor t) names) = Ok tt)
  /\ tensor_at s' handle (mk_owned_tensor (fst (components_to_properties (ot_tensor t) names)) (ot_arrays t)).
Proof.
  intros Hn s Ht Harg Hnames Hcall.
  assert (Hc : changed_from_python p thread s (TensorComponentsToProperties (Some handle) (Some (map Some names))) = (s', o)).
  { destruct Harg as [->|(name & -> & ->)]; exact Hcall. }
  set (call := TensorComponentsToProperties _ _) in Hc. destruct (run_call p thread s call) as [[w1 v] r] eqn:Er.
  destruct (changed_ok _ _ _ _ _ _ _ _ _ Er Hc) as [-> Hok].
  destruct (components_call p files calls i thread handle t names w1 v r Hn Ht) as (H1 & _ & _ & H2);
    [eapply Forall_impl; [|exact Hnames]; cbn beta; tauto|exact Er|].
  rewrite map_c_str in H1, H2 by (eapply Forall_impl; [|exact Hnames]; cbn beta; tauto). rewrite Hok. split; assumption.
Qed.
