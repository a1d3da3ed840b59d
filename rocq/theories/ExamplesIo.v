(* Concrete files, used to show that the hypotheses of the property theorems can
   be met *)
From Coq Require Import Permutation.
From Verif Require Import Base BaseFacts Labels Array Block Tensor Npy Io Spec SpecTensor SpecIo
  LabelsFacts TensorFacts NpyFacts PathFacts IoFacts LoadFacts Examples.
Local Open Scope string_scope.
Local Open Scope list_scope.
Local Open Scope nat_scope.

(** * Deciding that something fits in memory *)

Definition check_labels (l : Labels) : bool :=
  forallb (fun z => (- 2 ^ 31 <=? z) && (z <? 2 ^ 31))%Z (l_values l)
  && (4 * Z.of_nat (length (l_values l)) <? 2 ^ 63)%Z
  && (Z.of_nat (14 * length (l_names l) + text_size (l_names l)) <? 2 ^ 31)%Z.

Lemma check_labels_sound l : check_labels l = true -> labels_in_memory l /\ describable_labels l.
Proof.
  unfold check_labels. rewrite !andb_true_iff. intros [[H1 H2] H3]. split; [split|].
  - apply Forall_forall. intros z Hz. rewrite forallb_forall in H1. specialize (H1 z Hz).
    apply andb_true_iff in H1 as [A B]. apply Z.leb_le in A. apply Z.ltb_lt in B. split; assumption.
  - apply Z.ltb_lt in H2. assumption.
  - apply Z.ltb_lt in H3. assumption.
Qed.

Definition check_nd (nd : ndarray) : bool :=
  forallb (fun z => (0 <=? z) && (z <? 2 ^ 64))%Z (nd_data nd)
  && (length (nd_data nd) =? elements (nd_shape nd))
  && (Z.of_nat (elements (filter (fun n => negb (n =? 0)%nat) (nd_shape nd))) <? 2 ^ 63)%Z
  && (8 * Z.of_nat (elements (nd_shape nd)) <? 2 ^ 63)%Z
  && (Z.of_nat (length (nd_shape nd)) <? 2 ^ 20)%Z.

Lemma check_nd_sound a : check_nd (a_nd a) = true ->
  float_array a /\ (Z.of_nat (length (nd_shape (a_nd a))) < 2 ^ 20)%Z.
Proof.
  unfold check_nd. rewrite !andb_true_iff. intros [[[[H1 H2] H3] H4] H5]. split; [split; [|split; [|split]]|].
  - apply Forall_forall. intros z Hz. rewrite forallb_forall in H1. specialize (H1 z Hz).
    apply andb_true_iff in H1 as [A B]. apply Z.leb_le in A. apply Z.ltb_lt in B. split; assumption.
  - apply Nat.eqb_eq in H2. assumption.
  - apply Z.ltb_lt in H3. assumption.
  - apply Z.ltb_lt in H4. assumption.
  - apply Z.ltb_lt in H5. assumption.
Qed.

Definition check_basic (b : BasicBlock) : bool := forallb check_labels (basic_labels b) && check_nd (a_nd (bb_data b)).

Definition check_tensor (t : TensorMap) : bool :=
  check_labels (tm_keys t) && forallb (fun b => forallb check_basic (parts_of_block b)) (tm_blocks t).

Lemma check_tensor_sound t : check_tensor t = true -> tensor_in_memory t /\ describable t.
Proof.
  unfold check_tensor. rewrite andb_true_iff. intros [Hk Hb]. apply check_labels_sound in Hk as [Hk1 Hk2].
  assert (H : forall b part, In b (tm_blocks t) -> In part (parts_of_block b) -> basic_in_memory part /\ describable_basic part).
  { intros b part H1 H2. rewrite forallb_forall in Hb. specialize (Hb b H1). rewrite forallb_forall in Hb. specialize (Hb part H2).
    unfold check_basic in Hb. apply andb_true_iff in Hb as [Hl Hd]. apply check_nd_sound in Hd as [(A & _ & B) C].
    rewrite forallb_forall in Hl.
    split; split; try assumption; try (split; assumption); apply Forall_forall; intros l Hin; apply check_labels_sound; auto. }
  split; (split; [assumption|]); intros b part H1 H2; apply (H b part H1 H2).
Qed.

Lemma ex_tensor_in_memory : tensor_in_memory ex_tensor.
Proof. apply (check_tensor_sound ex_tensor). vm_compute. reflexivity. Qed.

Lemma ex_tensor_describable : describable ex_tensor.
Proof. apply (check_tensor_sound ex_tensor). vm_compute. reflexivity. Qed.

Lemma data_flat t b part : In b (tm_blocks t) -> In part (parts_of_block b) ->
  In (bb_data part) (map bb_data (flat_map parts_of_block (tm_blocks t))).
Proof. intros Hb Hp. apply in_map. apply in_flat_map. exists b. split; assumption. Qed.

Lemma ex_in_rust_arrays b part : In b (tm_blocks ex_tensor) -> In part (parts_of_block b) ->
  exists nd, bb_data part = rust_ndarray nd.
Proof.
  intros Hb Hp.
  pose proof (data_flat ex_tensor b part Hb Hp) as H.
  assert (E : map bb_data (flat_map parts_of_block (tm_blocks ex_tensor))
              = [ex_array [2; 2; 3] 100; ex_gradient_array_1; ex_array [3; 2; 3] 300; ex_gradient_array_2;
                 ex_array [1; 2; 3] 500; ex_gradient_array_3]) by (vm_compute; reflexivity).
  rewrite E in H. unfold ex_gradient_array_1, ex_gradient_array_2, ex_gradient_array_3, ex_array in H. cbn [In] in H.
  repeat destruct H as [H|H]; try (rewrite <- H; eexists; reflexivity). destruct H.
Qed.

Lemma ex_readable : readable_tensor ex_tensor.
Proof. intros b part Hb Hp. destruct (ex_in_rust_arrays b part Hb Hp) as [nd ->]. apply rust_readable. Qed.

Lemma ex_stored : has_elements ex_tensor.
Proof. intros b part Hb Hp. destruct (ex_in_rust_arrays b part Hb Hp) as [nd ->]. discriminate. Qed.

Lemma ex_in_ndarrays : in_ndarrays ex_tensor.
Proof. intros b part Hb Hp. destruct (ex_in_rust_arrays b part Hb Hp) as [nd ->]. reflexivity. Qed.

Lemma parameters_flat t b q g : In b (tm_blocks t) -> In (q, g) (tb_gradients b) ->
  In q (map fst (flat_map tb_gradients (tm_blocks t))).
Proof.
  intros Hb Hg. apply in_map_iff. exists (q, g). split; [reflexivity|]. apply in_flat_map. exists b. split; assumption.
Qed.

Lemma ex_c_parameters : c_parameters ex_tensor.
Proof.
  intros b q g Hb Hg.
  pose proof (parameters_flat ex_tensor b q g Hb Hg) as H.
  assert (E : map fst (flat_map tb_gradients (tm_blocks ex_tensor)) = ["positions"; "positions"; "positions"]) by (vm_compute; reflexivity).
  rewrite E in H. clear E Hb Hg.
  assert (Eq : q = "positions") by (destruct H as [<-|[<-|[<-|[]]]]; reflexivity).
  rewrite Eq. cbn. intros Hz. repeat destruct Hz as [Hz|Hz]; try discriminate Hz. destruct Hz.
Qed.

(* the files of the tensor map, and the order a hash map could list them in *)
Definition ex_archive : archive := match save LittleEndian ex_tensor with Ok a => a | _ => [] end.

Lemma ex_archive_ok : save LittleEndian ex_tensor = Ok ex_archive.
Proof. vm_compute. reflexivity. Qed.

Lemma ex_archive_names :
  map fst ex_archive =
  ["keys.npy";
   "blocks/0/values/data.npy"; "blocks/0/values/samples.npy"; "blocks/0/values/components/0.npy"; "blocks/0/values/properties.npy";
   "blocks/0/gradients/positions/data.npy"; "blocks/0/gradients/positions/samples.npy";
   "blocks/0/gradients/positions/components/0.npy"; "blocks/0/gradients/positions/components/1.npy";
   "blocks/1/values/data.npy"; "blocks/1/values/samples.npy"; "blocks/1/values/components/0.npy"; "blocks/1/values/properties.npy";
   "blocks/1/gradients/positions/data.npy"; "blocks/1/gradients/positions/samples.npy";
   "blocks/1/gradients/positions/components/0.npy"; "blocks/1/gradients/positions/components/1.npy";
   "blocks/2/values/data.npy"; "blocks/2/values/samples.npy"; "blocks/2/values/components/0.npy"; "blocks/2/values/properties.npy";
   "blocks/2/gradients/positions/data.npy"; "blocks/2/gradients/positions/samples.npy";
   "blocks/2/gradients/positions/components/0.npy"; "blocks/2/gradients/positions/components/1.npy"].
Proof. vm_compute. reflexivity. Qed.

(** * Headers, labels and data *)

Definition ex_header : header :=
  mk_header (PyList [PyTuple [PyString "center"; PyString "<i4"]; PyTuple [PyString "n_2"; PyString "<i4"]]) false [3; 1234567890123; 0]%Z.

(* a NaN with a payload, minus zero, one *)
Definition ex_floats : ndarray := mk_nd [3; 1] [9221120237041091071; 9223372036854775808; 4607182418800017408]%Z.

Definition ex_big_labels := ex_labels ["first"; "second"] [[-2147483648; 2147483647]; [-1; 0]; [0; -1]]%Z.

Definition ex_data_file : bytes := match write_data BigEndian (rust_ndarray ex_floats) with Ok f => f | _ => [] end.
Definition ex_labels_file : bytes := match write_labels LittleEndian ex_big_labels with Ok f => f | _ => [] end.

Lemma ex_data_file_ok : write_data BigEndian (rust_ndarray ex_floats) = Ok ex_data_file.
Proof. vm_compute. reflexivity. Qed.
Lemma ex_labels_file_ok : write_labels LittleEndian ex_big_labels = Ok ex_labels_file.
Proof. vm_compute. reflexivity. Qed.

Lemma ex_floats_float : float_array (rust_ndarray ex_floats).
Proof. apply check_nd_sound. vm_compute. reflexivity. Qed.

Lemma ex_big_labels_memory : labels_in_memory ex_big_labels.
Proof. apply check_labels_sound. vm_compute. reflexivity. Qed.

(** * Malformed files *)

Definition ex_file (descriptor : py_value) (shape : list Z) (data : bytes) : bytes :=
  match header_to_bytes (mk_header descriptor false shape) with Ok head => head ++ data | _ => [] end.

Definition ex_i4 (name : string) : py_value := PyTuple [PyString name; PyString "<i4"].
Definition ex_numbers (l : list Z) : bytes := flat_map (encode LittleEndian 4) l.

Definition ex_good_keys : bytes := ex_file (PyList [ex_i4 "a"]) [1%Z] (ex_numbers [7%Z]).

(* the same row twice *)
Definition ex_same_rows : archive := [("keys.npy", ex_file (PyList [ex_i4 "a"]) [2%Z] (ex_numbers [1; 1]%Z))].
(* the same variable twice *)
Definition ex_same_names : archive := [("keys.npy", ex_file (PyList [ex_i4 "a"; ex_i4 "a"]) [1%Z] (ex_numbers [1; 2]%Z))].
(* not an identifier *)
Definition ex_bad_name : archive := [("keys.npy", ex_file (PyList [ex_i4 "a b"]) [1%Z] (ex_numbers [1%Z]))].
(* no variable *)
Definition ex_no_names : archive := [("keys.npy", ex_file (PyList []) [1%Z] [])].
(* too large for the memory *)
Definition ex_huge : archive := [("keys.npy", ex_file (PyList [ex_i4 "a"]) [2 ^ 62]%Z [])].
(* a path where the parameter is missing *)
Definition ex_no_parameter : archive := [("keys.npy", ex_good_keys); ("blocks/0/gradients/data.npy", [])].
(* values with a single axis *)
Definition ex_one_axis : archive :=
  [("keys.npy", ex_good_keys);
   ("blocks/0/values/data.npy", ex_file (PyString "<f8") [1%Z] (encode LittleEndian 8 0));
   ("blocks/0/values/samples.npy", ex_good_keys)].

(* all of them crash; the last one only in debug builds *)
Definition crashes {A} (o : outcome A) : bool := match o with Panic _ => true | _ => false end.

Lemma ex_crashes :
  forallb (fun a => crashes (load Release (map fst a) a))
    [ex_same_rows; ex_same_names; ex_bad_name; ex_no_names; ex_huge; ex_no_parameter] = true
  /\ crashes (load Debug (map fst ex_one_axis) ex_one_axis) = true
  /\ crashes (load Release (map fst ex_one_axis) ex_one_axis) = false.
Proof. vm_compute. repeat split. Qed.

(** * Saved files are not malformed *)

Lemma concat_unique {A} n (r1 r2 : list (list A)) : n <> 0 ->
  Forall (fun r => length r = n) r1 -> Forall (fun r => length r = n) r2 -> concat r1 = concat r2 -> r1 = r2.
Proof.
  intros Hn H1 H2 E. rewrite <- (chunks_exact_concat n r1 Hn H1), E. apply chunks_exact_concat; assumption.
Qed.

Lemma encode_row_inj e r1 r2 : length r1 = length r2 -> Forall int32 r1 -> Forall int32 r2 ->
  flat_map (encode e 4) r1 = flat_map (encode e 4) r2 -> r1 = r2.
Proof.
  revert r2. induction r1 as [|x r1 IH]; intros [|y r2] Hl H1 H2 E; try discriminate Hl; [reflexivity|].
  inversion H1 as [|? ? Hx H1']; subst. inversion H2 as [|? ? Hy H2']; subst. cbn [flat_map] in E.
  assert (E1 : encode e 4 x = encode e 4 y).
  { rewrite <- (firstn_app_exact 4 (encode e 4 x) (flat_map (encode e 4) r1)) by apply encode_length.
    rewrite E. apply firstn_app_exact. apply encode_length. }
  rewrite E1 in E. apply app_inv_head in E.
  rewrite (IH r2); [|injection Hl; auto|assumption|assumption|assumption]. f_equal.
  rewrite <- (decode_encode_i32 e x Hx), E1. apply decode_encode_i32. exact Hy.
Qed.

Lemma labels_file_sane e l f :
  wf_labels l -> labels_in_memory l -> (8 * Z.of_nat (length (rows l)) < 2 ^ 63)%Z ->
  write_labels e l = Ok f -> sane_file f.
Proof.
  intros Hw Hm H8 Hf. destruct (write_labels_ok e l f Hw Hf) as (Hne & head & Hh & ->).
  pose proof (proj1 (wf_labels_is_labels l) Hw) as Hl. destruct (Hl) as (Hn & Hr & _ & _ & Ev & _).
  assert (Hu : usize_shape (h_shape (labels_header e l))).
  { constructor; [|constructor]. revert H8. change (2 ^ 63)%Z with 9223372036854775808%Z. change (2 ^ 64)%Z with 18446744073709551616%Z. lia. }
  intros h rest Hhr.
  rewrite (header_round_trip (labels_header e l) head) in Hhr; [|apply ascii_fields; apply Hn|exact Hu|exact Hh].
  injection Hhr as <- <-. cbn [labels_header h_shape h_descriptor map].
  split; [|split].
  - rewrite Nat2Z.id. unfold storable, elements. cbn [filter].
    destruct (Nat.eqb_spec (length (rows l)) 0) as [E|E]; cbn [negb fold_right].
    + rewrite E. split; reflexivity.
    + rewrite Nat.mul_1_r. revert H8. change (2 ^ 63)%Z with 9223372036854775808%Z. lia.
  - intros s Hs. discriminate Hs.
  - intros fields Hfields. injection Hfields as <-.
    assert (En : field_names (map (field e) (labels_names l)) = labels_names l).
    { clear. induction (labels_names l) as [|n ns IH]; [reflexivity|]. cbn [map]. unfold field_names in *. cbn [flat_map field]. rewrite IH. reflexivity. }
    rewrite En, map_length. split; [|split; [exact Hn|split]].
    + intros E. apply map_eq_nil in E. contradiction.
    + intros count Hc. injection Hc as <-. destruct Hm as [_ Hm]. rewrite (labels_values_length l Hw) in Hm. rewrite Nat2Z.inj_mul in Hm. lia.
    + intros brows E Hb. rewrite Ev in E.
      assert (Ec : flat_map (encode e 4) (concat (rows l)) = concat (map (flat_map (encode e 4)) (rows l))).
      { clear. induction (rows l) as [|r rs IH]; [reflexivity|]. cbn [concat map]. rewrite flat_map_app, IH. reflexivity. }
      rewrite Ec in E. destruct Hr as [Hlen Hnd].
      assert (Hint : forall r, In r (rows l) -> Forall int32 r).
      { intros r Hr. destruct Hm as [Hm _]. rewrite Ev in Hm. rewrite Forall_forall in *. intros z Hz. apply Hm.
        apply in_concat. exists r. split; assumption. }
      rewrite Forall_forall in Hlen.
      rewrite <- (concat_unique (length (labels_names l) * 4) (map (flat_map (encode e 4)) (rows l)) brows); [| |  |exact Hb|exact E].
      * apply NoDup_map_in; [|exact Hnd]. intros r1 r2 H1 H2. apply encode_row_inj; auto. rewrite (Hlen r1 H1), (Hlen r2 H2). reflexivity.
      * pose proof (nonempty_length _ Hne). lia.
      * apply Forall_forall. intros b Hin. apply in_map_iff in Hin as (r & <- & Hin).
        rewrite (flat_map_length_const (encode e 4) 4 r) by (intros; apply encode_length). rewrite (Hlen r Hin). unfold labels_names. lia.
Qed.

Lemma data_file_sane e a f : float_array a -> 2 <= length (nd_shape (a_nd a)) -> write_data e a = Ok f -> sane_file f.
Proof.
  intros (_ & _ & Hs) Hr Hf. destruct (write_data_ok e a f Hf) as (head & Hh & ->). intros h rest Hhr.
  rewrite (header_round_trip (data_header e (nd_shape (a_nd a))) head) in Hhr;
    [|apply ascii_string_literal; destruct e; reflexivity|apply storable_usize; exact Hs|exact Hh].
  injection Hhr as <- <-. cbn [data_header h_shape h_descriptor]. split; [|split].
  - rewrite map_map. rewrite (map_ext _ (fun n => n)) by (intros; apply Nat2Z.id). rewrite map_id. assumption.
  - intros s _. rewrite map_length. assumption.
  - intros fields H. destruct e; discriminate H.
Qed.

Definition check_content (c : content) : bool :=
  match c with
  | FileLabels l => check_labels l && (8 * Z.of_nat (length (rows l)) <? 2 ^ 63)%Z
  | FileData a => check_nd (a_nd a) && (2 <=? length (nd_shape (a_nd a)))
  end.

Lemma ex_archive_sane : sane_archive ex_archive.
Proof.
  assert (Hc : forallb (fun pc => check_content (snd pc)) (parts_of ex_tensor) = true) by (vm_compute; reflexivity).
  assert (Hw : forall l, In (FileLabels l) (map snd (parts_of ex_tensor)) -> wf_labels l).
  { pose proof ex_tensor_wf as ((Hk & _) & Hb & _). revert Hk Hb. generalize ex_tensor. clear.
    intros t Hk Hb l. unfold parts_of. cbn [map snd]. intros [E|H]; [injection E as <-; exact Hk|]. revert H. generalize 0.
    induction Hb as [|b blocks Hb _ IH]; intros i H; [destruct H|]. cbn [blocks_parts] in H. rewrite map_app, in_app_iff in H.
    destruct H as [H|H]; [|exact (IH _ H)].
    assert (Hcp : forall name cs i, In (FileLabels l) (map snd (components_parts name i cs)) -> In l cs).
    { clear. intros name cs. induction cs as [|c cs IH]; intros i H; [destruct H|]. cbn [components_parts map snd] in H.
      destruct H as [H|H]; [injection H as <-; left; reflexivity|right; eapply IH; eassumption]. }
    unfold block_parts in H. rewrite map_app, in_app_iff in H. destruct Hb as (Hv & Hg & _). destruct H as [H|H].
    - destruct (wf_basic_labels _ Hv) as (Hs & Hc & Hp). unfold values_parts in H. cbn [map snd] in H.
      destruct H as [H|[H|H]]; [discriminate H|injection H as <-; exact Hs|]. rewrite map_app, in_app_iff in H.
      destruct H as [H|[H|[]]]; [|injection H as <-; exact Hp]. rewrite Forall_forall in Hc. apply Hc. eapply Hcp; eassumption.
    - induction Hg as [|[q g] gs [Hg _] _ IHg]; [destruct H|]. cbn [gradients_parts] in H. rewrite map_app, in_app_iff in H.
      destruct H as [H|H]; [|exact (IHg H)]. destruct (wf_basic_labels _ Hg) as (Hs & Hc & Hp). unfold gradient_parts in H. cbn [map snd] in H.
      destruct H as [H|[H|H]]; [discriminate H|injection H as <-; exact Hs|].
      rewrite Forall_forall in Hc. apply Hc. eapply Hcp; eassumption. }
  pose proof (save_ok _ _ _ ex_archive_ok) as Hs. revert Hc Hw Hs. generalize (parts_of ex_tensor) ex_archive.
  intros parts a Hc Hw Hs path f Hin. destruct (Forall2_In_r _ _ _ _ Hs Hin) as ([q c] & Hp & _ & Hwr). cbn [fst snd] in *.
  rewrite forallb_forall in Hc. specialize (Hc _ Hp). cbn [snd] in Hc.
  destruct c as [l|d]; cbn [check_content write_content] in *; apply andb_true_iff in Hc as [H1 H2].
  - apply (labels_file_sane LittleEndian l f); [|apply check_labels_sound; assumption|apply Z.ltb_lt; assumption|assumption].
    apply Hw. apply in_map_iff. exists (q, FileLabels l). auto.
  - apply (data_file_sane LittleEndian d f); [apply check_nd_sound; assumption|apply Nat.leb_le; assumption|assumption].
Qed.

Lemma ex_names_sane : Forall sane_name (map fst ex_archive).
Proof.
  rewrite ex_archive_names. repeat constructor; try discriminate; cbn; intuition discriminate.
Qed.
