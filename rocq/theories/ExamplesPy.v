(* A version of numpy which follows the NPY format, and tensor maps with arrays of
   numpy, used to show that the hypotheses of the property theorems can be met *)
From Coq Require Import Permutation.
From Verif Require Import Base BaseFacts Labels Layout Array Block Tensor Npy Io Spec SpecTensor SpecIo SpecFormat PyIo SpecPy
  LabelsFacts ArrayFacts BlockFacts TensorFacts NpyFacts PathFacts IoFacts LoadFacts FormatFacts PyWriteFacts PyReadFacts PyFacts
  Examples ExamplesMoved ExamplesComponents ExamplesIo ExamplesFormat.
Local Open Scope string_scope.
Local Open Scope list_scope.
Local Open Scope nat_scope.

(** * numpy *)

(* numpy/lib/format.py, _write_array_header: the text ends with a comma, and the
   elements start at a multiple of 64 bytes *)
Definition numpy_text (h : header) : bytes :=
  bytes_of "{'descr': " ++ write_ascii (h_descriptor h)
  ++ bytes_of ", 'fortran_order': " ++ write_ascii (PyBoolean (h_fortran_order h))
  ++ bytes_of ", 'shape': " ++ write_ascii (PyTuple (map PyInteger (h_shape h))) ++ bytes_of ", }".

Definition numpy_version (major width : nat) (text content : bytes) : option bytes :=
  let padding := 64 - (8 + width + length text + 1) mod 64 in
  let size := Z.of_nat (length text + padding + 1) in
  if (size <? 256 ^ Z.of_nat width)%Z
  then Some (ascii_of_nat 147 :: bytes_of "NUMPY" ++ [ascii_of_nat major; ascii_of_nat 0]
             ++ encode LittleEndian width size ++ (text ++ repeat space padding ++ [ascii_of_nat 10]) ++ content)
  else None.

Definition numpy_write (h : header) (content : bytes) : option bytes :=
  match numpy_version 1 2 (numpy_text h) content with
  | Some f => Some f
  | None => numpy_version 2 4 (numpy_text h) content
  end.

(* the reader of the library is used for numpy too: both should read the same
   format *)
Definition numpy_read (f : bytes) : option (header * bytes) :=
  match header_from_reader f with Ok hc => Some hc | _ => None end.

Definition ex_numpy (e : endianness) : numpy := mk_numpy e 5 6 numpy_write numpy_read.

Lemma common_simple v : common_type v -> simple v.
Proof.
  intros [e|e names Hn].
  - destruct e; apply simple_plain_ascii; reflexivity.
  - apply simple_list, Forall_map. eapply Forall_impl; [|exact Hn]. intros name Hi. apply simple_tuple.
    constructor; [apply simple_identifier; exact Hi|]. constructor; [|constructor]. destruct e; apply simple_plain_ascii; reflexivity.
Qed.

Lemma plain_string s :
  forallb (fun c => (nat_of_ascii c <? 128) && negb (Ascii.eqb c "'"%char)
                    && negb (existsb (Nat.eqb (nat_of_ascii c)) [10; 13; 92]))%bool (list_ascii_of_string s) = true ->
  spelling (PyString s) ("'"%char :: bytes_of s ++ ["'"%char]).
Proof. intros H. apply single_quotes, plain_check. exact H. Qed.

Lemma numpy_text_spelling h : common_type (h_descriptor h) -> usize_shape (h_shape h) ->
  spelling (PyDict [(PyString "descr", h_descriptor h); (PyString "fortran_order", PyBoolean (h_fortran_order h));
                    (PyString "shape", PyTuple (map PyInteger (h_shape h)))]) (numpy_text h).
Proof.
  intros Hd Hs.
  pose proof (spelling_write _ (common_simple _ Hd)) as S1.
  pose proof (spelling_write _ (simple_boolean (h_fortran_order h))) as S2.
  assert (S3 : spelling (PyTuple (map PyInteger (h_shape h))) (write_ascii (PyTuple (map PyInteger (h_shape h))))).
  { apply spelling_write, simple_tuple, Forall_map. eapply Forall_impl; [|exact Hs]. intros z Hz. apply simple_integer. apply Hz. }
  unfold numpy_text. set (d := write_ascii (h_descriptor h)) in *. set (o := write_ascii (PyBoolean _)) in *.
  set (s := write_ascii (PyTuple _)) in *.
  assert (E : bytes_of "{'descr': " ++ d ++ bytes_of ", 'fortran_order': " ++ o ++ bytes_of ", 'shape': " ++ s ++ bytes_of ", }"
    = "{"%char :: ([] ++ bytes_of "'descr'" ++ [] ++ ":"%char :: [space] ++ d ++ [] ++ ","%char ::
        ([space] ++ bytes_of "'fortran_order'" ++ [] ++ ":"%char :: [space] ++ o ++ [] ++ ","%char ::
          ([space] ++ bytes_of "'shape'" ++ [] ++ ":"%char :: [space] ++ s ++ [] ++ ","%char :: [space]))) ++ ["}"%char]).
  { cbn [bytes_of list_ascii_of_string app]. repeat (rewrite <- ?app_assoc; cbn [app]). reflexivity. }
  rewrite E. apply sp_dict.
  apply entries_more; try apply blank_nil; try apply blank_space; [exact (plain_string "descr" eq_refl)|exact S1|].
  apply entries_more; try apply blank_nil; try apply blank_space; [exact (plain_string "fortran_order" eq_refl)|exact S2|].
  apply entries_more; try apply blank_nil; try apply blank_space; [exact (plain_string "shape" eq_refl)|exact S3|].
  apply entries_none, blank_space.
Qed.

Lemma numpy_version_written h content f major width :
  common_type (h_descriptor h) -> usize_shape (h_shape h) -> (major = 1 /\ width = 2) \/ (major = 2 /\ width = 4) ->
  numpy_version major width (numpy_text h) content = Some f -> npy_format h content f.
Proof.
  intros Hd Hs Hv. unfold numpy_version. set (padding := 64 - _). set (size := Z.of_nat _).
  destruct (Z.ltb_spec size (256 ^ Z.of_nat width)) as [Hlt|]; [|discriminate]. intros E.
  apply (f_equal (fun o => match o with Some x => x | None => f end)) in E. cbn beta iota in E. subst f.
  exists major, (encode LittleEndian width size),
    [(PyString "descr", h_descriptor h); (PyString "fortran_order", PyBoolean (h_fortran_order h));
     (PyString "shape", PyTuple (map PyInteger (h_shape h)))], (numpy_text h), (repeat space padding).
  split; [reflexivity|]. split; [rewrite encode_length; destruct Hv as [[-> ->]|[-> ->]]; auto|].
  split; [|split; [apply Permutation_refl|split; [apply numpy_text_spelling; assumption|apply spaces_blank]]].
  rewrite !app_length, repeat_length. cbn [length].
  replace (length (numpy_text h) + (padding + 1)) with (length (numpy_text h) + padding + 1) by lia.
  apply (stored_encode LittleEndian width). split; [apply Nat2Z.is_nonneg|exact Hlt].
Qed.

Lemma numpy_written h content f : common_type (h_descriptor h) -> usize_shape (h_shape h) ->
  numpy_write h content = Some f -> npy_format h content f.
Proof.
  intros Hd Hs. unfold numpy_write. destruct (numpy_version 1 2 _ _) as [g|] eqn:E.
  - intros E'. rewrite E' in E. apply (numpy_version_written h content f 1 2 Hd Hs (or_introl (conj eq_refl eq_refl)) E).
  - intros E'. apply (numpy_version_written h content f 2 4 Hd Hs (or_intror (conj eq_refl eq_refl)) E').
Qed.

Lemma common_length h : common_type (h_descriptor h) -> usize_shape (h_shape h) -> reasonable_header h ->
  (Z.of_nat (length (numpy_text h)) < 2 ^ 32 - 128)%Z.
Proof.
  intros Hd Hs [Hr Hf]. unfold numpy_text. rewrite !app_length. pose proof (write_shape_length _ Hs) as Hw.
  set (w := length (write_ascii (PyTuple (map PyInteger _)))) in *.
  assert (Hd' : (Z.of_nat (length (write_ascii (h_descriptor h))) < 2 ^ 31 + 16)%Z).
  { inversion Hd as [e E|e names Hn E].
    - destruct e; reflexivity.
    - specialize (Hf _ (eq_sym E)). rewrite map_length in Hf.
      assert (En : field_names (map (fun name => PyTuple [PyString name; PyString match e with LittleEndian => "<i4" | BigEndian => ">i4" end]) names) = names)
        by (clear; induction names as [|n r IH]; [reflexivity|]; cbn [map]; unfold field_names in *; cbn [flat_map app]; f_equal; exact IH).
      rewrite En in Hf.
      change (map (fun name => PyTuple [PyString name; PyString match e with LittleEndian => "<i4" | BigEndian => ">i4" end]) names) with (map (field e) names).
      replace (write_ascii (PyList (map (field e) names)))
        with (bytes_of "[" ++ separated (map write_ascii (map (field e) names)) ++ bytes_of "]") by reflexivity.
      rewrite !app_length. change (length (bytes_of "[")) with 1. change (length (bytes_of "]")) with 1.
      pose proof (separated_length (map write_ascii (map (field e) names))) as Hsep.
      assert (Hfold : fold_right (fun b n => length b + 2 + n) 0 (map write_ascii (map (field e) names))
              <= 14 * length names + text_size names).
      { clear - Hn. induction Hn as [|name names Hi _ IH]; [simpl; lia|].
        cbn [map fold_right length text_size]. rewrite write_field by assumption. rewrite !app_length, (bytes_of_length name).
        change (length (bytes_of "('")) with 2. change (length (bytes_of "', '")) with 4. change (length (bytes_of "')")) with 2.
        replace (length (bytes_of match e with LittleEndian => "<i4" | BigEndian => ">i4" end)) with 3 by (destruct e; reflexivity).
        fold (text_size names). lia. }
      change (2 ^ 31)%Z with 2147483648%Z in *. lia. }
  assert (Hb : length (write_ascii (PyBoolean (h_fortran_order h))) <= 5) by (destruct (h_fortran_order h); cbn; lia).
  set (o := length (write_ascii (PyBoolean _))) in *. set (d := length (write_ascii (h_descriptor h))) in *.
  change (length (bytes_of "{'descr': ")) with 10. change (length (bytes_of ", 'fortran_order': ")) with 19.
  change (length (bytes_of ", 'shape': ")) with 11. change (length (bytes_of ", }")) with 3.
  change (2 ^ 31)%Z with 2147483648%Z in *. change (2 ^ 32)%Z with 4294967296%Z in *. change (2 ^ 20)%Z with 1048576%Z in *. lia.
Qed.

Lemma numpy_writes h content : common_type (h_descriptor h) -> usize_shape (h_shape h) -> reasonable_header h ->
  exists f, numpy_write h content = Some f.
Proof.
  intros Hd Hs Hr. pose proof (common_length h Hd Hs Hr) as Hl. unfold numpy_write.
  destruct (numpy_version 1 2 _ _) as [f|]; [eauto|]. unfold numpy_version. set (m := _ mod 64).
  assert (Hlt : (Z.of_nat (length (numpy_text h) + (64 - m) + 1) < 256 ^ Z.of_nat 4)%Z).
  { change (256 ^ Z.of_nat 4)%Z with 4294967296%Z. change (2 ^ 32)%Z with 4294967296%Z in Hl. lia. }
  apply Z.ltb_lt in Hlt. rewrite Hlt. eauto.
Qed.

Lemma ex_numpy_follows e limit : follows_format (ex_numpy e) limit.
Proof.
  split; cbn [np_write np_read ex_numpy].
  - exact numpy_writes.
  - exact numpy_written.
  - intros h content f _ Hs Hf _. unfold numpy_read. rewrite (npy_format_header h content f Hs Hf). reflexivity.
Qed.

(** * The size of headers *)

Definition header_size (f : bytes) : nat :=
  match skipn 6 f with
  | major :: _ :: r =>
      if nat_of_ascii major =? 1 then 10 + Z.to_nat (low_value (firstn 2 r)) else 12 + Z.to_nat (low_value (firstn 4 r))
  | _ => 0
  end.

Lemma firstn_field n (field r : bytes) : length field = n -> firstn n (field ++ r) = field.
Proof. intros <-. rewrite firstn_app, Nat.sub_diag, firstn_O, app_nil_r. apply firstn_all. Qed.

Lemma npy_format_size h content f : npy_format h content f -> length f = length content + header_size f.
Proof.
  intros (major & field & l & text & padding & -> & Hv & Hl & _).
  apply little_endian_value in Hl. unfold header_size. cbn [list_ascii_of_string app skipn].
  set (block := text ++ padding ++ [ascii_of_nat 10]) in *.
  assert (Hz : Z.to_nat (low_value field) = length block) by (rewrite Hl; apply Nat2Z.id).
  cbn [length]. rewrite !app_length.
  destruct Hv as [[-> Ef]|[[-> | ->] Ef]].
  - change (nat_of_ascii (ascii_of_nat 1) =? 1) with true. cbn iota. rewrite (firstn_field 2), Hz, Ef by exact Ef. lia.
  - change (nat_of_ascii (ascii_of_nat 2) =? 1) with false. cbn iota. rewrite (firstn_field 4), Hz, Ef by exact Ef. lia.
  - change (nat_of_ascii (ascii_of_nat 3) =? 1) with false. cbn iota. rewrite (firstn_field 4), Hz, Ef by exact Ef. lia.
Qed.

Lemma short_headers_check limit a :
  forallb (fun pf => header_size (snd pf) <=? limit) a = true -> short_headers limit a.
Proof.
  intros H path f h content Hin Hf. rewrite forallb_forall in H. specialize (H _ Hin). cbn [snd] in H.
  apply Nat.leb_le in H. rewrite (npy_format_size h content f Hf). lia.
Qed.

(** * Arrays of numpy *)

(* the elements 100, 101, ... in logical order *)
Definition ex_numpy_array (shape strides : list nat) : eqs_array :=
  mk_array (ForeignArray 5) (mk_nd shape (map (fun i => (100 + Z.of_nat i)%Z) (seq 0 (prod shape)))) strides
    (py_callbacks (is_standard_layout shape strides)).

Definition ex_numpy_values (strides : list nat) : TensorBlock :=
  ex_block (ex_numpy_array [2; 2; 3] strides) ex_samples_1 [ex_xyz] ex_properties.

(* the gradient is a view of every second row of another array *)
Definition ex_numpy_gradient : eqs_array := ex_numpy_array [3; 2; 2; 3] [24; 6; 3; 1].
Definition ex_numpy_block (strides : list nat) : TensorBlock :=
  fst (tensor_block_add_gradient (ex_numpy_values strides) "positions" ex_numpy_gradient ex_gradient_samples_1 [ex_cell; ex_xyz]).
Definition ex_numpy_tensor (strides : list nat) : TensorMap := ex_single (ex_numpy_block strides).

(* the last index varies fastest, or the first one *)
Definition ex_c_tensor : TensorMap := ex_numpy_tensor [6; 3; 1].
Definition ex_f_tensor : TensorMap := ex_numpy_tensor [1; 2; 4].

Lemma ex_numpy_array_wf shape strides : wf_array (ex_numpy_array shape strides).
Proof.
  split; [|discriminate]. intros _. cbn [ex_numpy_array a_nd nd_data shape_of nd_shape]. rewrite map_length, seq_length.
  reflexivity.
Qed.

Lemma ex_numpy_values_reachable strides : reachable_block (ex_numpy_values strides).
Proof.
  apply reachable_new with (data := ex_numpy_array [2; 2; 3] strides) (samples := ex_samples_1)
    (components := [ex_xyz]) (properties := ex_properties);
    [apply ex_numpy_array_wf|apply ex_labels_wf|repeat constructor; apply ex_labels_wf|apply ex_labels_wf|].
  vm_compute. reflexivity.
Qed.

Lemma ex_numpy_block_reachable strides : reachable_block (ex_numpy_block strides).
Proof.
  apply reachable_add with (b := ex_numpy_values strides) (parameter := "positions") (data := ex_numpy_gradient)
    (samples := ex_gradient_samples_1) (components := [ex_cell; ex_xyz]) (result := Ok tt);
    [apply ex_numpy_values_reachable|apply ex_numpy_array_wf|apply ex_labels_wf|repeat constructor; apply ex_labels_wf| |discriminate].
  vm_compute. reflexivity.
Qed.

Lemma ex_numpy_wf strides : wf_tensor (ex_numpy_tensor strides).
Proof. apply ex_single_wf, ex_numpy_block_reachable. Qed.

Lemma ex_numpy_blocks strides : tm_blocks (ex_numpy_tensor strides) = [ex_numpy_block strides].
Proof. vm_compute. reflexivity. Qed.

Lemma ex_numpy_parts strides :
  map bb_data (flat_map parts_of_block (tm_blocks (ex_numpy_tensor strides)))
  = [ex_numpy_array [2; 2; 3] strides; ex_numpy_gradient].
Proof. vm_compute. reflexivity. Qed.

Lemma ex_numpy_data strides b part : In b (tm_blocks (ex_numpy_tensor strides)) -> In part (parts_of_block b) ->
  bb_data part = ex_numpy_array [2; 2; 3] strides \/ bb_data part = ex_numpy_gradient.
Proof.
  intros Hb Hp. pose proof (data_flat _ b part Hb Hp) as H. rewrite ex_numpy_parts in H.
  destruct H as [H|[H|[]]]; [left|right]; symmetry; exact H.
Qed.

Lemma ex_numpy_in_memory strides : tensor_in_memory (ex_numpy_tensor strides) /\ describable (ex_numpy_tensor strides).
Proof. apply check_tensor_sound. vm_compute. reflexivity. Qed.

Lemma ex_numpy_parameters strides : c_parameters (ex_numpy_tensor strides).
Proof.
  intros b q g Hb Hg. pose proof (parameters_flat (ex_numpy_tensor strides) b q g Hb Hg) as H.
  assert (E : map fst (flat_map tb_gradients (tm_blocks (ex_numpy_tensor strides))) = ["positions"])
    by (vm_compute; reflexivity).
  rewrite E in H. clear E Hb Hg. destruct H as [<-|[]].
  cbn. intros Hz. repeat destruct Hz as [Hz|Hz]; try discriminate Hz. destruct Hz.
Qed.

Lemma ex_numpy_strided strides : length strides = 3 -> strided_tensor (ex_numpy_tensor strides).
Proof.
  intros Hl b part Hb Hp. destruct (ex_numpy_data strides b part Hb Hp) as [-> | ->]; [exact Hl|reflexivity].
Qed.

Lemma ex_numpy_python e strides : python_tensor (ex_numpy e) (ex_numpy_tensor strides).
Proof.
  intros b part Hb Hp. destruct (ex_numpy_data strides b part Hb Hp) as [-> | ->]; left; reflexivity.
Qed.

Lemma fortran_check shape strides : length strides = length shape ->
  fortran_array (ex_numpy_array shape strides)
  <-> is_standard_layout (rev shape) (rev strides) = true /\ is_standard_layout shape strides = false.
Proof.
  intros Hl. unfold fortran_array. cbn [a_kind a_strides ex_numpy_array].
  change (shape_of (ex_numpy_array shape strides)) with shape.
  rewrite <- fortran_column_major, <- standard_row_major by exact Hl. rewrite not_true_iff_false.
  split; [intros [_ H]; exact H|intros H; split; [eauto|exact H]].
Qed.

Lemma ex_c_not_fortran : ~ has_fortran_array ex_c_tensor.
Proof.
  intros (b & part & Hb & Hp & Hf). destruct (ex_numpy_data _ b part Hb Hp) as [E|E]; rewrite E in Hf.
  - apply fortran_check in Hf as [_ H]; [discriminate H|reflexivity].
  - apply fortran_check in Hf as [H _]; [discriminate H|reflexivity].
Qed.

Lemma ex_f_fortran : has_fortran_array ex_f_tensor.
Proof.
  exists (ex_numpy_block [1; 2; 4]), (tb_values (ex_numpy_block [1; 2; 4])).
  split; [unfold ex_f_tensor; rewrite ex_numpy_blocks; apply in_eq|]. split; [apply in_eq|].
  assert (E : bb_data (tb_values (ex_numpy_block [1; 2; 4])) = ex_numpy_array [2; 2; 3] [1; 2; 4]) by (vm_compute; reflexivity).
  rewrite E.
  apply fortran_check; [reflexivity|]. split; reflexivity.
Qed.

(** * Archives *)

Definition ex_py_archive (t : TensorMap) : archive := match py_save (ex_numpy LittleEndian) t with Ok a => a | _ => [] end.

Lemma ex_py_archive_ok t : python_tensor (ex_numpy LittleEndian) t -> wf_tensor t -> tensor_in_memory t -> strided_tensor t ->
  describable t -> py_save (ex_numpy LittleEndian) t = Ok (ex_py_archive t).
Proof.
  intros Hp Ht Hm Hs Hd.
  destruct (proj2 (py_save_total (ex_numpy LittleEndian) 0 t (ex_numpy_follows _ _) Ht Hm Hs Hd) Hp) as (a & E).
  unfold ex_py_archive. rewrite E. reflexivity.
Qed.

Lemma ex_py_saved strides : length strides = 3 ->
  py_save (ex_numpy LittleEndian) (ex_numpy_tensor strides) = Ok (ex_py_archive (ex_numpy_tensor strides)).
Proof.
  intros Hl. apply ex_py_archive_ok; [apply ex_numpy_python|apply ex_numpy_wf|apply ex_numpy_in_memory|
    apply ex_numpy_strided; exact Hl|apply ex_numpy_in_memory].
Qed.

(* refused by the library *)
Lemma ex_fortran_refused :
  exists np limit t a e,
    follows_format np limit /\ wf_tensor t /\ tensor_in_memory t /\ c_parameters t /\ strided_tensor t
    /\ python_tensor np t /\ py_save np t = Ok a /\ short_headers limit a
    /\ load Release (map fst a) a = Err e.
Proof.
  exists (ex_numpy LittleEndian), 128, ex_f_tensor, (ex_py_archive ex_f_tensor). eexists.
  split; [apply ex_numpy_follows|]. split; [apply ex_numpy_wf|]. split; [apply ex_numpy_in_memory|].
  split; [apply ex_numpy_parameters|]. split; [apply ex_numpy_strided; reflexivity|]. split; [apply ex_numpy_python|].
  split; [apply ex_py_saved; reflexivity|]. split; [apply short_headers_check; vm_compute; reflexivity|].
  vm_compute. reflexivity.
Qed.

(* written by a machine with the other endianness *)
Definition ex_big_archive : archive := match save BigEndian ex_tensor with Ok a => a | _ => [] end.
Definition ex_swapped : TensorMap := match py_load (ex_numpy LittleEndian) ex_big_archive with Ok t => t | _ => ex_tensor end.

Lemma ex_other_endianness :
  exists np limit t a t',
    follows_format np limit /\ wf_tensor t /\ tensor_in_memory t /\ c_parameters t /\ has_elements t
    /\ conforming t a /\ short_headers limit a
    /\ py_load np a = Ok t' /\ rows (tm_keys t) <> rows (tm_keys t').
Proof.
  exists (ex_numpy LittleEndian), 192, ex_tensor, ex_big_archive, ex_swapped.
  split; [apply ex_numpy_follows|]. split; [exact ex_tensor_wf|]. split; [exact ex_tensor_in_memory|].
  split; [exact ex_c_parameters|]. split; [exact ex_stored|].
  split; [apply (save_conforming BigEndian); [exact ex_tensor_wf|exact ex_tensor_in_memory|vm_compute; reflexivity]|].
  split; [apply short_headers_check; vm_compute; reflexivity|].
  split; [vm_compute; reflexivity|]. vm_compute. discriminate.
Qed.
