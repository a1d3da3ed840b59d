(* Lemmas about loading arbitrary files *)
From Coq Require Import Permutation.
From Verif Require Import Base BaseFacts LayoutFacts Labels Array Block Tensor Npy Io Spec SpecTensor SpecIo
  LabelsFacts ArrayFacts BlockFacts TensorFacts MergeFacts MergePropertiesFacts NpyFacts PathFacts IoFacts.
Local Open Scope string_scope.
Local Open Scope list_scope.
Local Open Scope nat_scope.

(** * Calls which return *)

Lemma no_crash_bind {A B} (o : outcome A) (k : A -> outcome B) :
  no_crash o -> (forall x, o = Ok x -> no_crash (k x)) -> no_crash (bind o k).
Proof. destruct o; cbn; intros H1 H2; auto. Qed.

Lemma no_crash_mapM {A B} (f : A -> outcome B) l : (forall x, In x l -> no_crash (f x)) -> no_crash (mapM f l).
Proof.
  induction l as [|x l IH]; intros H; [exact I|]. cbn [mapM]. apply no_crash_bind; [apply H; left; reflexivity|].
  intros y _. apply no_crash_bind; [apply IH; intros z Hz; apply H; right; assumption|]. intros ys _. exact I.
Qed.

Lemma read_exact_no_crash n r : no_crash (read_exact n r).
Proof. unfold read_exact, end_of_file. destruct (_ <=? _)%Z; exact I. Qed.

(** * Headers *)

Lemma header_fields_no_crash entries : forall d f s, no_crash (header_fields entries d f s).
Proof.
  induction entries as [|[k v] rest IH]; intros d f s; [exact I|]. cbn [header_fields].
  destruct k; try exact I.
  destruct (String.eqb _ "descr"); [apply IH|].
  destruct (String.eqb _ "fortran_order"); [destruct v; try exact I; apply IH|].
  destruct (String.eqb _ "shape"); [|exact I]. destruct (parse_shape v); [apply IH|exact I].
Qed.

Lemma header_of_py_value_no_crash v : no_crash (header_of_py_value v).
Proof.
  unfold header_of_py_value. destruct v; try exact I. apply no_crash_bind; [apply header_fields_no_crash|].
  intros [[[d|] [f|]] [s|]] _; exact I.
Qed.

Lemma parse_header_no_crash v b : no_crash (parse_header v b).
Proof.
  unfold parse_header. destruct (rev b) as [|c r]; [exact I|]. destruct (Ascii.eqb c newline); [|exact I].
  apply no_crash_bind.
  - destruct v; [destruct (forallb _ _)|destruct (forallb _ _)|destruct (is_utf8 _ _)]; exact I.
  - intros _ _. destruct (parse_literal (rev r)); [apply header_of_py_value_no_crash|exact I].
Qed.

Lemma version_of_bytes_no_crash b : no_crash (version_of_bytes b).
Proof.
  unfold version_of_bytes.
  repeat match goal with |- no_crash (match ?x with _ => _ end) => destruct x; try exact I end.
Qed.

Lemma header_from_reader_no_crash r : no_crash (header_from_reader r).
Proof.
  unfold header_from_reader. apply no_crash_bind; [apply read_exact_no_crash|]. intros [m r1] _.
  destruct (negb _); [exact I|].
  apply no_crash_bind; [apply read_exact_no_crash|]. intros [n r2] _.
  apply no_crash_bind; [apply version_of_bytes_no_crash|]. intros v _.
  apply no_crash_bind.
  { unfold read_header_len. apply no_crash_bind; [apply read_exact_no_crash|]. intros [? ?] _. exact I. }
  intros [l r3] _. apply no_crash_bind; [apply read_exact_no_crash|]. intros [b r4] _.
  apply no_crash_bind; [apply parse_header_no_crash|]. intros h _. exact I.
Qed.

Lemma shape_of_values_usize l shape : shape_of_values l = Some shape -> usize_shape shape.
Proof.
  revert shape. induction l as [|v l IH]; intros shape H; cbn [shape_of_values] in H.
  - inversion H. constructor.
  - destruct v; try discriminate H. unfold to_usize in H.
    destruct (Z.leb_spec 0 z); [|discriminate H]. destruct (Z.ltb_spec z (2 ^ 64)); [|discriminate H]. cbn [andb] in H.
    destruct (shape_of_values l) as [s|]; [|discriminate H]. injection H as <-. constructor; [split; assumption|]. apply IH. reflexivity.
Qed.

Lemma header_fields_usize entries : forall d f s d' f' s',
  (forall x, s = Some x -> usize_shape x) ->
  header_fields entries d f s = Ok (d', f', s') -> forall x, s' = Some x -> usize_shape x.
Proof.
  induction entries as [|[k v] rest IH]; intros d f s d' f' s' Hs H; cbn [header_fields] in H.
  - injection H as <- <- <-. assumption.
  - destruct k; try discriminate H.
    destruct (String.eqb _ "descr"); [exact (IH _ _ _ _ _ _ Hs H)|].
    destruct (String.eqb _ "fortran_order"); [destruct v; try discriminate H; exact (IH _ _ _ _ _ _ Hs H)|].
    destruct (String.eqb _ "shape"); [|discriminate H].
    destruct (parse_shape v) as [shape|] eqn:E; [|discriminate H].
    refine (IH _ _ _ _ _ _ _ H). intros x Hx. injection Hx as <-.
    unfold parse_shape in E. destruct v; try discriminate E. apply shape_of_values_usize in E. assumption.
Qed.

Lemma header_from_reader_usize r h rest : header_from_reader r = Ok (h, rest) -> usize_shape (h_shape h).
Proof.
  unfold header_from_reader. intros H. apply bind_ok in H as ([m r1] & _ & H). destruct (negb _); [discriminate H|].
  apply bind_ok in H as ([n r2] & _ & H). apply bind_ok in H as (v & _ & H). apply bind_ok in H as ([l r3] & _ & H).
  apply bind_ok in H as ([b r4] & _ & H). apply bind_ok in H as (h' & Hp & H). injection H as -> ->.
  unfold parse_header in Hp. destruct (rev b) as [|c r5]; [discriminate Hp|]. destruct (Ascii.eqb c newline); [|discriminate Hp].
  apply bind_ok in Hp as (u & _ & Hp). destruct (parse_literal (rev r5)) as [value|]; [|discriminate Hp].
  unfold header_of_py_value in Hp. destruct value as [| | | |entries| |]; try discriminate Hp.
  apply bind_ok in Hp as ([[d f] s] & Hf & Hp).
  assert (Hnone : forall x : list Z, None = Some x -> usize_shape x) by (intros x Hx; discriminate Hx).
  pose proof (header_fields_usize _ _ _ _ _ _ _ Hnone Hf) as Hu.
  destruct d as [d|]; [|discriminate Hp]. destruct f as [f|]; [|discriminate Hp]. destruct s as [s|]; [|discriminate Hp].
  injection Hp as <-. cbn [h_shape]. apply Hu. reflexivity.
Qed.

Lemma usize_of_nat shape : usize_shape shape -> map Z.of_nat (map Z.to_nat shape) = shape.
Proof.
  induction 1 as [|z l [Hz _] _ IH]; [reflexivity|]. cbn [map]. rewrite Z2Nat.id by assumption. rewrite IH. reflexivity.
Qed.

(** * Data *)

Lemma read_elements_no_crash {A} (d : bytes -> A) w n r : no_crash (read_elements d w n r).
Proof. unfold read_elements. apply no_crash_bind; [apply read_exact_no_crash|]. intros [? ?] _. exact I. Qed.

Lemma check_for_extra_bytes_no_crash r : no_crash (check_for_extra_bytes r).
Proof. destruct r; exact I. Qed.

Lemma check_for_extra_bytes_ok r : check_for_extra_bytes r = Ok tt -> r = [].
Proof. destruct r; [reflexivity|discriminate]. Qed.

Lemma read_elements_ok {A} (d : bytes -> A) w n r l rest : (0 <= n)%Z ->
  read_elements d w n r = Ok (l, rest) ->
  exists b, r = b ++ rest /\ length b = Z.to_nat n * w /\ l = map d (chunks_exact w b).
Proof.
  unfold read_elements. intros Hn H. apply bind_ok in H as ([b r'] & Hr & H). injection H as <- <-.
  exists b. unfold read_exact in Hr. destruct (Z.leb_spec (n * Z.of_nat w) (Z.of_nat (length r))) as [Hl|]; [|discriminate Hr].
  injection Hr as <- <-. split; [symmetry; apply firstn_skipn|]. split; [|reflexivity].
  rewrite firstn_length. rewrite Z2Nat.inj_mul, Nat2Z.id by lia. apply Nat.min_l.
  apply Nat2Z.inj_le. rewrite Nat2Z.inj_mul, Z2Nat.id by assumption. assumption.
Qed.

Lemma read_data_no_crash p f : sane_file f -> no_crash (read_data p f).
Proof.
  intros Hf. unfold read_data. apply no_crash_bind; [apply header_from_reader_no_crash|]. intros [h rest] Hh.
  destruct (Hf h rest Hh) as (Hst & _ & _). destruct (h_fortran_order h); [exact I|].
  pose proof (usize_of_nat _ (header_from_reader_usize _ _ _ Hh)) as Eu.
  rewrite <- Eu. unfold shape_size.
  rewrite shape_size_storable; [|destruct Hst as [H _]; fold (nonzero_volume (map Z.to_nat (h_shape h))) in H; revert H|lia].
  2:{ change (2 ^ 63)%Z with 9223372036854775808%Z. change (2 ^ 64)%Z with 18446744073709551616%Z. lia. }
  cbn [bind]. rewrite Z.mul_1_l. unfold vec_zeros. destruct (Hst) as [_ Hs8].
  destruct (Z.ltb_spec (Z.of_nat (elements (map Z.to_nat (h_shape h))) * 8) (2 ^ 63)); [|lia]. cbn [bind].
  apply no_crash_bind.
  { destruct (h_descriptor h); try exact I. destruct (String.eqb _ _); [exact I|]. destruct (String.eqb _ _); exact I. }
  intros e _. apply no_crash_bind; [apply read_elements_no_crash|]. intros [data r] Hd.
  apply no_crash_bind; [apply check_for_extra_bytes_no_crash|]. intros _ _.
  apply read_elements_ok in Hd as (b & _ & Hl & ->); [|lia].
  rewrite (from_shape_vec_ok (map Z.to_nat (h_shape h))); [exact I|assumption|].
  rewrite map_length; unfold bytes; rewrite chunks_exact_length, Hl, Nat2Z.id. apply Nat.div_mul. discriminate.
Qed.

Lemma read_data_ok p f nd : read_data p f = Ok nd ->
  (exists h rest s, header_from_reader f = Ok (h, rest) /\ h_descriptor h = PyString s /\ length (h_shape h) = length (nd_shape nd))
  /\ wf_array (rust_ndarray nd).
Proof.
  unfold read_data. intros H. apply bind_ok in H as ([h rest] & Hh & H). destruct (h_fortran_order h); [discriminate H|].
  apply bind_ok in H as (size & _ & H). apply bind_ok in H as (u & _ & H). apply bind_ok in H as (e & He & H).
  apply bind_ok in H as ([data r] & Hd & H). apply bind_ok in H as (u' & _ & H).
  unfold from_shape_vec in H. destruct (Z.ltb_spec (z_prod (filter (fun n => negb (n =? 0)%Z) (h_shape h))) (2 ^ 63)); [|discriminate H].
  destruct (Z.eqb_spec (z_prod (h_shape h)) (Z.of_nat (length data))) as [E|]; [|discriminate H]. cbn [andb] in H. injection H as <-.
  split.
  - destruct (h_descriptor h) as [s| | | | | |] eqn:Ed; try discriminate He. exists h, rest, s. split; [exact Hh|]. split; [assumption|]. cbn [nd_shape]. rewrite map_length. reflexivity.
  - split; intros _; [|apply default_strides_length]. cbn [a_nd rust_ndarray nd_data]. unfold shape_of. cbn [a_nd rust_ndarray nd_shape]. apply Nat2Z.inj. rewrite <- E.
    rewrite <- (usize_of_nat _ (header_from_reader_usize _ _ _ Hh)) at 1. rewrite z_prod_of_nat. reflexivity.
Qed.

(** * Labels *)

Lemma check_fields_no_crash fields : forall names e, no_crash (check_fields fields names e).
Proof.
  induction fields as [|f fields IH]; intros names e; [exact I|]. cbn [check_fields].
  destruct f as [| |l| | | |]; try exact I. destruct l as [|[] l]; try exact I. destruct l as [|[] l]; try exact I. destruct l; try exact I.
  destruct (if String.eqb s0 "<i4" then _ else _) as [e1|]; [|exact I].
  destruct (match e with None => _ | _ => _ end) as [e2|]; [|exact I]. destruct (endianness_eqb e1 e2); [apply IH|exact I].
Qed.

Lemma check_fields_ok fields : forall names e names' e',
  check_fields fields names e = Ok (names', e') ->
  names' = names ++ field_names fields /\ length (field_names fields) = length fields
  /\ (e' = None -> e = None /\ fields = []).
Proof.
  induction fields as [|f fields IH]; intros names e names' e' H; cbn [check_fields] in H.
  - injection H as <- <-. rewrite app_nil_r. auto.
  - destruct f as [| |l| | | |]; try discriminate H. destruct l as [|[] l]; try discriminate H.
    destruct l as [|[] l]; try discriminate H. destruct l; try discriminate H.
    destruct (if String.eqb s0 "<i4" then _ else _) as [e1|]; [|discriminate H].
    destruct (match e with None => _ | _ => _ end) as [e2|]; [|discriminate H]. destruct (endianness_eqb e1 e2); [|discriminate H].
    destruct (IH _ _ _ _ H) as (-> & Hl & Hn). change (field_names (PyTuple [PyString s; PyString s0] :: fields)) with (s :: field_names fields).
    rewrite <- app_assoc. split; [reflexivity|]. split; [cbn [length]; rewrite Hl; reflexivity|].
    intros E. destruct (Hn E) as [E' _]. discriminate E'.
Qed.

Lemma labels_build_ok_or_panic names rows : good_names names -> good_rows (length names) rows ->
  exists l, labels_build names rows = Ok l.
Proof. intros H1 H2. eexists. apply labels_build_ok. split; [exact H1|]. split; [exact H2|reflexivity]. Qed.

Lemma low_bytes_value b : low_bytes (length b) (low_value b) = b.
Proof.
  induction b as [|c b IH]; [reflexivity|]. cbn [length low_bytes low_value].
  replace ((byte_value c + 256 * low_value b) / 256)%Z with (low_value b).
  2:{ pose proof (byte_value_range c). rewrite Z.mul_comm, Z.div_add by lia. rewrite Z.div_small by lia. lia. }
  rewrite IH. f_equal. unfold byte_of.
  replace ((byte_value c + 256 * low_value b) mod 256)%Z with (byte_value c).
  2:{ pose proof (byte_value_range c). rewrite Z.mul_comm, Z_mod_plus_full, Z.mod_small by lia. lia. }
  unfold byte_value. rewrite N2Z.id. apply ascii_N_embedding.
Qed.

Lemma decode_inj e b1 b2 : length b1 = length b2 -> decode e b1 = decode e b2 -> b1 = b2.
Proof.
  intros Hl H. destruct e; cbn [decode] in H.
  - rewrite <- (low_bytes_value b1), <- (low_bytes_value b2), Hl, H. reflexivity.
  - assert (E : rev b1 = rev b2).
    { rewrite <- (low_bytes_value (rev b1)), <- (low_bytes_value (rev b2)), !rev_length, Hl, H. reflexivity. }
    rewrite <- (rev_involutive b1), E. apply rev_involutive.
Qed.

Lemma decode_i32_inj e b1 b2 : length b1 = 4 -> length b2 = 4 -> decode_i32 e b1 = decode_i32 e b2 -> b1 = b2.
Proof.
  intros H1 H2 H. apply (decode_inj e); [congruence|].
  assert (R : forall b, length b = 4 -> (0 <= decode e b < 2 ^ 32)%Z).
  { intros b Hb. change (2 ^ 32)%Z with (256 ^ Z.of_nat 4)%Z. destruct e; cbn [decode].
    - rewrite <- Hb. apply low_value_range.
    - rewrite <- Hb, <- rev_length. apply low_value_range. }
  pose proof (R b1 H1) as R1. pose proof (R b2 H2) as R2. unfold decode_i32, to_signed_32 in H.
  change (2 ^ 32)%Z with 4294967296%Z in *. change (2 ^ 31)%Z with 2147483648%Z in *.
  destruct (Z.ltb_spec (decode e b1) 2147483648), (Z.ltb_spec (decode e b2) 2147483648); lia.
Qed.

(* cutting a list in pieces of the same length *)
Lemma split_pieces {A} n m (l : list A) : length l = m * n ->
  exists pieces, l = concat pieces /\ length pieces = m /\ Forall (fun r => length r = n) pieces.
Proof.
  revert l. induction m as [|m IH]; intros l Hl.
  - exists []. destruct l; [repeat constructor|discriminate Hl].
  - destruct (IH (skipn n l)) as (pieces & E & Hm & Hp); [rewrite skipn_length; cbn [Nat.mul] in Hl; lia|].
    exists (firstn n l :: pieces). cbn [concat length]. split; [rewrite <- E; symmetry; apply firstn_skipn|].
    split; [congruence|]. constructor; [|assumption]. rewrite firstn_length. cbn [Nat.mul] in Hl. lia.
Qed.

Lemma chunks_of_rows {A} (d : bytes -> A) w (rows : list bytes) : w <> 0 ->
  Forall (fun r => length r = w * 4) rows ->
  chunks_exact w (map d (chunks_exact 4 (concat rows))) = map (fun r => map d (chunks_exact 4 r)) rows.
Proof.
  intros Hw Hr.
  assert (E : chunks_exact 4 (concat rows) = concat (map (chunks_exact 4) rows)).
  { rewrite <- (chunks_exact_concat 4 (concat (map (chunks_exact 4) rows))); [|discriminate|].
    - f_equal. induction Hr as [|r rows Hl _ IH]; [reflexivity|]. cbn [map concat]. rewrite concat_app, <- IH. f_equal.
      destruct (split_pieces 4 w r Hl) as (pieces & -> & _ & Hp). rewrite chunks_exact_concat; [reflexivity|discriminate|assumption].
    - apply Forall_concat. apply Forall_forall. intros cs Hc. apply in_map_iff in Hc as (r & <- & _).
      apply chunks_exact_rows. discriminate. }
  rewrite E, concat_map, map_map. apply chunks_exact_concat; [assumption|].
  apply Forall_forall. intros x Hx. apply in_map_iff in Hx as (r & <- & Hin). rewrite Forall_forall in Hr.
  rewrite map_length; unfold bytes; rewrite chunks_exact_length, (Hr r Hin). apply Nat.div_mul. discriminate.
Qed.

Lemma map_decode_inj e w r1 r2 : length r1 = w * 4 -> length r2 = w * 4 ->
  map (decode_i32 e) (chunks_exact 4 r1) = map (decode_i32 e) (chunks_exact 4 r2) -> r1 = r2.
Proof.
  intros H1 H2 H. destruct (split_pieces 4 w r1 H1) as (p1 & -> & _ & Hp1). destruct (split_pieces 4 w r2 H2) as (p2 & -> & _ & Hp2).
  rewrite !chunks_exact_concat in H by (discriminate || assumption). f_equal. clear H1 H2.
  revert p2 Hp2 H. induction Hp1 as [|x p1 Hx _ IH]; intros [|y p2] Hp2 H; try discriminate H; [reflexivity|].
  cbn [map] in H. inversion Hp2 as [|? ? Hy Hp2']; subst. injection H as Hd H. rewrite (decode_i32_inj e x y Hx Hy Hd). f_equal. apply IH; assumption.
Qed.

Lemma NoDup_map_in {A B} (f : A -> B) l : (forall x y, In x l -> In y l -> f x = f y -> x = y) -> NoDup l -> NoDup (map f l).
Proof.
  intros Hf Hnd. induction Hnd as [|x l Hx _ IH]; [constructor|]. cbn [map]. constructor.
  - intros Hin. apply in_map_iff in Hin as (y & E & Hy). apply Hx. rewrite (Hf x y); [assumption|left; reflexivity|right; assumption|auto].
  - apply IH. intros a b Ha Hb. apply Hf; right; assumption.
Qed.

Lemma mul_usize_small p a b : (a * b < 2 ^ 64)%Z -> mul_usize p a b = Ok (a * b)%Z.
Proof. unfold mul_usize. intros H. destruct (Z.ltb_spec (a * b) (2 ^ 64)); [reflexivity|lia]. Qed.

Lemma read_labels_no_crash p f : sane_file f -> no_crash (read_labels p f).
Proof.
  intros Hf. unfold read_labels. apply no_crash_bind; [apply header_from_reader_no_crash|]. intros [h rest] Hh.
  destruct (Hf h rest Hh) as (_ & _ & Hlab). destruct (h_fortran_order h); [exact I|].
  destruct (h_shape h) as [|count [|? ?]] eqn:Es; try exact I.
  pose proof (header_from_reader_usize _ _ _ Hh) as Hu. rewrite Es in Hu. inversion Hu as [|? ? [Hc0 _] _]; subst.
  destruct (h_descriptor h) as [| | |fields| | |] eqn:Ed; try exact I.
  destruct (Hlab fields eq_refl) as (Hne & Hnames & Hsize & Hrows). specialize (Hsize count eq_refl).
  unfold check_type_descriptor. rewrite bind_assoc.
  apply no_crash_bind; [apply check_fields_no_crash|]. intros [names eo] Hcf.
  destruct (check_fields_ok _ _ _ _ _ Hcf) as (-> & Hlen & Heo). cbn [app].
  destruct eo as [e|]; [|exfalso; destruct (Heo eq_refl) as [_ H]; apply Hne; exact H].
  cbn [expect_some bind]. rewrite Hlen. set (w := length fields) in *.
  assert (Hw : w <> 0) by (unfold w; destruct fields; [contradiction|discriminate]).
  rewrite mul_usize_small by (revert Hsize; change (2 ^ 63)%Z with 9223372036854775808%Z; change (2 ^ 64)%Z with 18446744073709551616%Z; lia).
  cbn [bind]. unfold vec_zeros. destruct (Z.ltb_spec (count * Z.of_nat w * 4) (2 ^ 63)); [|lia]. cbn [bind].
  apply no_crash_bind; [apply read_elements_no_crash|]. intros [data r] Hd.
  apply no_crash_bind; [apply check_for_extra_bytes_no_crash|]. intros [] Hx. apply check_for_extra_bytes_ok in Hx. subst r.
  apply read_elements_ok in Hd as (b & Eb & Hl & ->); [|apply Z.mul_nonneg_nonneg; lia]. rewrite app_nil_r in Eb. subst b.
  assert (Hl' : length rest = Z.to_nat count * (w * 4)).
  { rewrite Hl, Z2Nat.inj_mul, Nat2Z.id by lia. lia. }
  destruct (split_pieces (w * 4) (Z.to_nat count) rest Hl') as (brows & -> & _ & Hbr).
  rewrite chunks_of_rows by assumption.
  destruct (labels_build_ok_or_panic (field_names fields) (map (fun r => map (decode_i32 e) (chunks_exact 4 r)) brows)) as [l ->].
  - assumption.
  - rewrite Hlen. fold w. split.
    + apply Forall_forall. intros x Hin. apply in_map_iff in Hin as (r & <- & Hr). rewrite Forall_forall in Hbr.
      rewrite map_length; unfold bytes; rewrite chunks_exact_length, (Hbr r Hr). apply Nat.div_mul. discriminate.
    + apply NoDup_map_in; [|apply Hrows; [reflexivity|assumption]]. rewrite Forall_forall in Hbr.
      intros r1 r2 H1 H2. apply (map_decode_inj e w); auto.
  - exact I.
Qed.

Lemma read_labels_wf p f l : read_labels p f = Ok l -> axis_labels l.
Proof.
  unfold read_labels. intros H. apply bind_ok in H as ([h rest] & _ & H). destruct (h_fortran_order h); [discriminate H|].
  destruct (h_shape h) as [|count [|? ?]]; try discriminate H.
  apply bind_ok in H as ([names e] & Hc & H). apply bind_ok in H as (n & _ & H). apply bind_ok in H as (u & _ & H).
  apply bind_ok in H as ([data r] & _ & H). apply bind_ok in H as (u' & _ & H).
  assert (Hne : names <> []).
  { unfold check_type_descriptor in Hc. destruct (h_descriptor h) as [| | |fields| | |]; try discriminate Hc.
    apply bind_ok in Hc as ([names' eo] & Hf & Hc). destruct (check_fields_ok _ _ _ _ _ Hf) as (-> & Hlen & Heo).
    destruct eo as [e'|]; [|discriminate Hc]. cbn [expect_some bind app] in Hc. injection Hc as <- <-.
    destruct fields as [|x fields]; [cbn in Hf; discriminate Hf|]. intros E. rewrite E in Hlen. discriminate Hlen. }
  apply labels_build_ok in H as (Hn & Hr & ->). pose proof (built_is_labels _ _ Hn Hr Hne) as Hb. split.
  - eexists. eexists. exact Hb.
  - rewrite (is_labels_names _ _ _ Hb). assumption.
Qed.

(** * The names of the files *)

Lemma overlap r : String.length r < 9 -> has_suffix "/data.npy" ("blocks/0/gradients/" +++ r) = true -> r = "data.npy".
Proof.
  intros Hl H.
  do 9 (destruct r as [|? r]; [try discriminate H|cbn [String.length] in Hl]); [|lia].
  unfold has_suffix in H. apply andb_true_iff in H as [_ H]. apply String.eqb_eq in H. cbn in H. inversion H. reflexivity.
Qed.

Lemma not_in_substring c s a b : ~ In c (bytes_of (a +++ s +++ b)) -> ~ In c (bytes_of s).
Proof. rewrite !bytes_of_app, !in_app_iff. tauto. Qed.

Lemma gradient_parameters_sane names : Forall sane_name names ->
  exists parameters, gradient_parameters names = Ok parameters /\ Forall (fun q => has_nul q = false) parameters.
Proof.
  induction 1 as [|name names [Hn Hz] _ (others & IH & Ho)]; [exists []; split; [reflexivity|constructor]|].
  cbn [gradient_parameters]. destruct (has_prefix "blocks/0/gradients/" name && has_suffix "/data.npy" name) eqn:E.
  - apply andb_true_iff in E as [Ep Es]. pose proof Es as Es'. apply has_prefix_spec in Ep as [r ->].
    replace (String.length ("blocks/0/gradients/" +++ r) - 19) with (String.length r)
      by (rewrite append_length; change (String.length "blocks/0/gradients/") with 19; lia).
    change 19 with (String.length "blocks/0/gradients/"). rewrite substring_app.
    destruct (Nat.ltb_spec (String.length r) 9) as [Hl|Hl].
    + exfalso. apply Hn. rewrite (overlap r Hl Es'). reflexivity.
    + cbn [bind]. rewrite IH. cbn [bind]. eexists. split; [reflexivity|]. constructor; [|assumption].
      apply has_nul_not_in. intros Hin. apply Hz.
      assert (Hs : forall n s, In Ascii.zero (bytes_of (substring 0 n s)) -> In Ascii.zero (bytes_of s)).
      { clear. induction n as [|n IH]; intros [|c s]; cbn; try tauto. intros [H|H]; [left; assumption|right; apply IH; assumption]. }
      apply Hs in Hin. fold (bytes_of ("blocks/0/gradients/" +++ r)). rewrite bytes_of_app. apply in_or_app. right. assumption.
  - cbn [bind]. rewrite IH. cbn [bind]. exists others. split; [reflexivity|assumption].
Qed.

(** * Loading *)

Lemma by_name_no_crash a path : no_crash (by_name a path).
Proof. unfold by_name. destruct (hm_get _ _ _); exact I. Qed.

Lemma by_name_in a path f : by_name a path = Ok f -> In (path, f) a.
Proof.
  unfold by_name. destruct (hm_get String.eqb (rev a) path) as [c|] eqn:E; [|discriminate]. intros H. injection H as ->.
  apply (hm_get_In _ String.eqb_eq) in E. apply in_rev. assumption.
Qed.

Definition sane_archive (a : archive) : Prop := forall path f, In (path, f) a -> sane_file f.

Lemma open_labels_no_crash p a path : sane_archive a -> no_crash (let? f := by_name a path in read_labels p f).
Proof.
  intros Ha. apply no_crash_bind; [apply by_name_no_crash|]. intros f Hf. apply read_labels_no_crash.
  apply (Ha path). apply by_name_in. assumption.
Qed.

Lemma read_components_no_crash p a directory shape : sane_archive a -> 2 <= length shape ->
  no_crash (read_components p a directory shape).
Proof.
  intros Ha Hs. unfold read_components. destruct (Nat.ltb_spec (length shape) 2); [lia|]. cbn [bind].
  apply no_crash_mapM. intros i _. apply open_labels_no_crash. assumption.
Qed.

Lemma read_components_wf p a directory shape cs : read_components p a directory shape = Ok cs -> Forall axis_labels cs.
Proof.
  unfold read_components. intros H. apply bind_ok in H as (n & _ & H). apply mapM_ok in H.
  apply Forall_forall. intros c Hc. destruct (Forall2_In_r _ _ _ _ H Hc) as (i & _ & Hi).
  apply bind_ok in Hi as (f & _ & Hi). apply read_labels_wf in Hi. assumption.
Qed.

Lemma read_data_rank p f nd : sane_file f -> read_data p f = Ok nd -> 2 <= length (nd_shape nd).
Proof.
  intros Hf H. apply read_data_ok in H as [(h & rest & s & Hh & Hd & Hl) _]. destruct (Hf h rest Hh) as (_ & Hr & _).
  rewrite <- Hl. apply (Hr s). assumption.
Qed.

Lemma axis_wf cs : Forall axis_labels cs -> Forall wf_labels cs.
Proof. apply Forall_impl. intros c [H _]. assumption. Qed.

Lemma axis_names cs : Forall axis_labels cs -> Forall (fun c => labels_names c <> []) cs.
Proof. apply Forall_impl. intros c [_ H]. assumption. Qed.

Lemma check_data_and_labels_no_crash context data samples components properties :
  axis_labels samples -> Forall axis_labels components -> axis_labels properties -> answers data OpShape ->
  no_crash (check_data_and_labels context data samples components properties).
Proof.
  intros [Hs Hns] Hc [Hp Hnp] Ha. pose proof (axis_wf _ Hc) as Hcw. pose proof (axis_names _ Hc) as Hnc.
  unfold check_data_and_labels.
  rewrite (proj2 (array_shape_ok data (shape_of data))) by auto. simpl.
  destruct (Nat.eqb_spec (length (shape_of data)) (length components + 2)) as [Hl|]; simpl; [|exact I].
  unfold index_slice. destruct (nth_error (shape_of data) 0) as [s0|] eqn:E0; [|apply nth_error_None in E0; lia].
  simpl. rewrite (proj2 (labels_count_ok samples _ Hs)) by auto. simpl.
  destruct (s0 =? length (rows samples)); simpl; [|exact I].
  destruct (count_distinct names_eqb (map labels_names components) =? length components); simpl; [|exact I].
  pose proof (check_component_shapes_no_panic context (shape_of data) components 1 Hcw Hnc) as Hcs.
  destruct (check_component_shapes _ _ _ _) as [d|[]| |]; try (exfalso; apply Hcs; lia); try exact I.
  cbn [bind]. rewrite Hcs by lia. destruct (nth_error (shape_of data) (1 + length components)) as [sp|] eqn:Ep;
    [|apply nth_error_None in Ep; lia].
  cbn [bind].
  rewrite (proj2 (labels_count_ok properties _ Hp)) by auto. simpl.
  destruct (sp =? length (rows properties)); exact I.
Qed.

Lemma check_component_labels_no_crash components : no_crash (check_component_labels components).
Proof.
  unfold check_component_labels. generalize 0. induction components as [|c cs IH]; intros i; [exact I|].
  cbn [check_component_labels_from]. destruct (negb _); [exact I|apply IH].
Qed.

Lemma check_gradient_components_no_crash gradient values : forall i, no_crash (check_gradient_components i gradient values).
Proof.
  revert values. induction gradient as [|c cs IH]; intros [|v values] i; try exact I. cbn [check_gradient_components].
  destruct (negb _); [exact I|apply IH].
Qed.

Lemma add_gradient_no_crash b q data samples components b' result :
  axis_labels samples -> Forall axis_labels components -> axis_labels (bb_properties (tb_values b)) ->
  answers data OpShape -> answers data OpOrigin -> answers (bb_data (tb_values b)) OpOrigin -> has_nul q = false ->
  tensor_block_add_gradient b q data samples components = (b', result) -> no_crash result.
Proof.
  intros Hs Hc Hp Ha Hao Hav Hn. unfold tensor_block_add_gradient, cstring_new. rewrite Hn.
  assert (Hk : no_crash (check_gradient b q data samples components)).
  { unfold check_gradient. destruct (hm_contains _ _ _); [exact I|].
    rewrite (proj2 (array_origin_ok data _)) by auto. cbn [bind].
    rewrite (proj2 (array_origin_ok (bb_data (tb_values b)) _)) by auto. cbn [bind].
    destruct (negb _); [exact I|]. destruct (String.eqb _ _); [exact I|]. destruct (_ || _)%bool; [exact I|].
    apply no_crash_bind; [apply check_component_labels_no_crash|]. intros _ _.
    destruct (_ <? _); [exact I|]. apply no_crash_bind; [apply check_gradient_components_no_crash|]. intros _ _.
    apply check_data_and_labels_no_crash; assumption. }
  destruct (check_gradient b q data samples components) as [[]|e|m|r]; intros H; injection H as <- <-; exact Hk.
Qed.

(* the blocks built by load *)
Definition rust_block (b : TensorBlock) : Prop :=
  reachable_block b /\ exists nd, bb_data (tb_values b) = rust_ndarray nd.

Lemma rust_block_properties b : rust_block b -> axis_labels (bb_properties (tb_values b)).
Proof.
  intros [Hr _]. apply reachable_wf in Hr. destruct Hr as ((_ & Hax & _) & _). rewrite Forall_forall in Hax.
  apply Hax. right. apply in_or_app. right. left. reflexivity.
Qed.

Lemma load_gradient_reachable p a i b q b' : rust_block b -> load_gradient p a i b q = Ok b' -> rust_block b'.
Proof.
  intros [Hr [nd0 Hnd]] H. unfold load_gradient in H. apply bind_ok in H as (f & _ & H). apply bind_ok in H as (nd & Hd & H).
  apply bind_ok in H as (f2 & _ & H). apply bind_ok in H as (s & Hs & H). apply bind_ok in H as (cs & Hcs & H).
  destruct (tensor_block_add_gradient b q (rust_ndarray nd) s cs) as [b1 result] eqn:Ea.
  destruct result as [[]|?|?|?]; try discriminate H. cbn [bind] in H. injection H as <-.
  apply read_data_ok in Hd as [_ Hwa]. apply read_labels_wf in Hs. apply read_components_wf in Hcs.
  split.
  - apply (reachable_add b q (rust_ndarray nd) s cs b1 (Ok tt)); auto; [apply Hs|apply axis_wf; assumption|discriminate].
  - exists nd0. rewrite <- Hnd. unfold tensor_block_add_gradient in Ea.
    destruct (check_gradient _ _ _ _ _) as [[]|?|?|?]; try discriminate Ea.
    destruct (cstring_new q); [|discriminate Ea]. injection Ea as <-. reflexivity.
Qed.

Lemma load_block_reachable p a qs i b : load_block p a qs i = Ok b -> rust_block b.
Proof.
  intros H. unfold load_block in H. apply bind_ok in H as (f & _ & H). apply bind_ok in H as (nd & Hd & H).
  apply bind_ok in H as (f2 & _ & H). apply bind_ok in H as (s & Hs & H). apply bind_ok in H as (cs & Hcs & H).
  apply bind_ok in H as (f3 & _ & H). apply bind_ok in H as (pr & Hp & H). apply bind_ok in H as (b0 & Hb0 & H).
  apply read_data_ok in Hd as [_ Hwa]. apply read_labels_wf in Hs, Hp. apply read_components_wf in Hcs.
  assert (H0 : rust_block b0).
  { pose proof (tensor_block_new_ok (rust_ndarray nd) s cs pr b0 (proj1 Hs) (axis_wf _ Hcs) (proj1 Hp) (array_shape_rust nd)) as Hok.
    split.
    - apply (reachable_new (rust_ndarray nd) s cs pr b0); auto; [apply Hs|apply axis_wf; assumption|apply Hp].
    - apply Hok in Hb0 as [_ ->]. exists nd. reflexivity. }
  eapply foldM_inv with (P := rust_block); [|exact H0|exact H].
  intros x y z Hx Hz. eapply load_gradient_reachable; eassumption.
Qed.

Lemma load_wf p names a t : load p names a = Ok t -> wf_tensor t.
Proof.
  unfold load. intros H. apply bind_ok in H as (f & _ & H). apply bind_ok in H as (keys & Hk & H).
  apply bind_ok in H as (qs & _ & H). apply bind_ok in H as (n & _ & H). apply bind_ok in H as (blocks & Hb & H).
  apply read_labels_wf in Hk. apply mapM_ok in Hb.
  assert (Hw : Forall wf_block blocks).
  { apply Forall_forall. intros b Hin. destruct (Forall2_In_r _ _ _ _ Hb Hin) as (i & _ & Hi).
    apply load_block_reachable in Hi as [Hi _]. apply reachable_wf. assumption. }
  apply tensor_map_new_ok in H as [Hh ->]; [|assumption|assumption]. split; [assumption|]. split; assumption.
Qed.

Lemma load_gradient_no_crash p a i b q : sane_archive a -> rust_block b -> has_nul q = false -> no_crash (load_gradient p a i b q).
Proof.
  intros Ha Hb Hq. unfold load_gradient.
  apply no_crash_bind; [apply by_name_no_crash|]. intros f Hf. apply by_name_in in Hf. apply Ha in Hf.
  apply no_crash_bind; [apply read_data_no_crash; assumption|]. intros nd Hd. pose proof (read_data_rank p f nd Hf Hd) as Hrank.
  apply no_crash_bind; [apply by_name_no_crash|]. intros f2 Hf2. apply by_name_in in Hf2. apply Ha in Hf2.
  apply no_crash_bind; [apply read_labels_no_crash; assumption|]. intros s Hs. apply read_labels_wf in Hs.
  apply no_crash_bind; [apply read_components_no_crash; assumption|]. intros cs Hcs. apply read_components_wf in Hcs.
  destruct (tensor_block_add_gradient b q (rust_ndarray nd) s cs) as [b1 result] eqn:Ea.
  apply no_crash_bind; [|intros _ _; exact I].
  eapply (add_gradient_no_crash b); [exact Hs|exact Hcs|apply rust_block_properties; assumption|apply array_shape_rust|apply array_origin_rust| |exact Hq|exact Ea].
  destruct Hb as [_ [nd0 ->]]. apply array_origin_rust.
Qed.

Lemma load_block_no_crash p a qs i : sane_archive a -> Forall (fun q => has_nul q = false) qs -> no_crash (load_block p a qs i).
Proof.
  intros Ha Hq. unfold load_block.
  apply no_crash_bind; [apply by_name_no_crash|]. intros f Hf. apply by_name_in in Hf. apply Ha in Hf.
  apply no_crash_bind; [apply read_data_no_crash; assumption|]. intros nd Hd. pose proof (read_data_rank p f nd Hf Hd) as Hrank.
  apply no_crash_bind; [apply by_name_no_crash|]. intros f2 Hf2. apply by_name_in in Hf2. apply Ha in Hf2.
  apply no_crash_bind; [apply read_labels_no_crash; assumption|]. intros s Hs. apply read_labels_wf in Hs.
  apply no_crash_bind; [apply read_components_no_crash; assumption|]. intros cs Hcs. apply read_components_wf in Hcs.
  apply no_crash_bind; [apply by_name_no_crash|]. intros f3 Hf3. apply by_name_in in Hf3. apply Ha in Hf3.
  apply no_crash_bind; [apply read_labels_no_crash; assumption|]. intros pr Hp. apply read_labels_wf in Hp.
  apply no_crash_bind.
  { destruct (tensor_block_new_error (rust_ndarray nd) s cs pr (proj1 Hs) (axis_wf _ Hcs) (proj1 Hp) (array_shape_rust nd)
                (proj2 Hs) (proj2 Hp) (axis_names _ Hcs)) as [[b ->]|[m ->]]; exact I. }
  intros b0 Hb0.
  assert (H0 : rust_block b0).
  { apply read_data_ok in Hd as [_ Hwa].
    pose proof (tensor_block_new_ok (rust_ndarray nd) s cs pr b0 (proj1 Hs) (axis_wf _ Hcs) (proj1 Hp) (array_shape_rust nd)) as Hok.
    split.
    - apply (reachable_new (rust_ndarray nd) s cs pr b0); auto; [apply Hs|apply axis_wf; assumption|apply Hp].
    - apply Hok in Hb0 as [_ ->]. exists nd. reflexivity. }
  clear Hb0. revert b0 H0. induction Hq as [|q qs Hq _ IH]; intros b0 H0; [exact I|]. cbn [foldM].
  apply no_crash_bind; [apply load_gradient_no_crash; assumption|]. intros b1 Hb1. apply IH.
  eapply load_gradient_reachable; eassumption.
Qed.

Lemma load_no_crash p names a : sane_archive a -> Forall sane_name names -> no_crash (load p names a).
Proof.
  intros Ha Hn. unfold load. destruct (gradient_parameters_sane names Hn) as (qs & Hqs & Hnul).
  apply no_crash_bind; [apply by_name_no_crash|]. intros f Hf. apply by_name_in in Hf. apply Ha in Hf.
  apply no_crash_bind; [apply read_labels_no_crash; assumption|]. intros keys Hk. apply read_labels_wf in Hk.
  rewrite Hqs. cbn [bind]. rewrite (proj2 (labels_count_ok keys _ (proj1 Hk)) (conj (proj2 Hk) eq_refl)). cbn [bind].
  apply no_crash_bind; [apply no_crash_mapM; intros i _; apply load_block_no_crash; assumption|]. intros blocks _.
  destruct (tensor_map_new_error keys blocks Hk) as [[t ->]|[m ->]]; exact I.
Qed.
