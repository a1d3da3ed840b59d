(* Facts about files without serialization, and about eqs_get_rust_array *)
From Verif Require Import Base Labels Array Strided Block Tensor Npy Io Origin CApi Spec SpecTensor SpecIo SpecExact SpecApi SpecPy
  Library SpecLibrary BaseFacts ArrayFacts StridedFacts LabelsFacts ApiFacts FileApiFacts PyWriteFacts TensorFacts ComponentsFacts ReadableAnyFacts LibraryFacts.
Local Open Scope string_scope.
Local Open Scope list_scope.
Local Open Scope nat_scope.

(** * Files *)

Lemma not_serialization b : b <> WithSerialization -> has_serialization b = false.
Proof. destruct b; [reflexivity..|intros H; contradiction H; reflexivity]. Qed.

Lemma some_feature b : b <> NoFeature -> has_ndarray b = true.
Proof. destruct b; [intros H; contradiction H; reflexivity|reflexivity..]. Qed.

Lemma load_without_feature b p w calls i thread path names temporary v result :
  b <> WithSerialization ->
  library_called b p w calls i thread (Call (TensorLoad path names temporary)) v result ->
  v = Plain (VTensor None [])
  /\ (exists status, result = Returned status /\ status <> 0%Z
      /\ ((exists name, names_file path name /\ file_at (library_state b p w calls i) name <> None) -> status = 3%Z))
  /\ same_objects (library_state b p w calls i) (library_state b p w calls (S i))
  /\ w_files (library_state b p w calls (S i)) = w_files (library_state b p w calls i)
  /\ w_origins (library_state b p w calls (S i)) = w_origins (library_state b p w calls i).
Proof.
  intros Hb Hc. apply not_serialization in Hb. apply library_called_step in Hc. set (w0 := library_state b p w calls i) in *.
  set (w' := library_state b p w calls (S i)) in *. apply library_run_call_body in Hc as (w1 & o & H & Hr & Hw).
  cbn [library_body] in H. rewrite Hb in H. unfold load_without in H. injection H as <- <- Ho.
  split; [reflexivity|]. split; [|rewrite Hw; repeat split].
  subst result. destruct path as [memory|]; cbn [check_pointer bind] in Ho.
  - unfold c_str_to_str in Ho. destruct (is_utf8 _ _) eqn:Eu; cbn [bind] in Ho.
    + destruct (hm_get String.eqb (w_files w0) (c_str memory)) as [f|] eqn:Ef.
      * subst o. cbn. eexists. split; [reflexivity|]. split; [discriminate|]. intros _. reflexivity.
      * subst o. cbn. eexists. split; [reflexivity|]. split; [discriminate|]. intros (name & (m & Em & En & _) & Hf).
        injection Em as <-. subst name. contradiction Hf.
    + subst o. cbn. eexists. split; [reflexivity|]. split; [discriminate|]. intros (name & (m & Em & En & Hu) & _).
      injection Em as <-. subst name. congruence.
  - subst o. cbn. eexists. split; [reflexivity|]. split; [discriminate|]. intros (name & (m & Em & _) & _). discriminate Em.
Qed.

Lemma hm_get_written w path content : hm_get String.eqb (w_files (write_file w path content)) path = Some content.
Proof. unfold write_file, set_files. cbn [w_files hm_get]. rewrite String.eqb_refl. reflexivity. Qed.

Lemma save_without_feature b p w calls i thread path name handle t system remains v result :
  b <> WithSerialization ->
  library_called b p w calls i thread (Call (TensorSave path (Some handle) system remains)) v result ->
  names_file path name -> hm_get Nat.eqb (w_tensors (library_state b p w calls i)) handle = Some t ->
  (system = None ->
     result = Returned 3
     /\ w_errors (library_state b p w calls (S i)) thread = "serialization format error: serialization was not enabled in equistore"
     /\ file_at (library_state b p w calls (S i)) name = Some None)
  /\ (system <> None -> file_at (library_state b p w calls (S i)) name = file_at (library_state b p w calls i) name)
  /\ (forall other, other <> name -> file_at (library_state b p w calls (S i)) other = file_at (library_state b p w calls i) other)
  /\ result <> Returned 0
  /\ same_objects (library_state b p w calls i) (library_state b p w calls (S i)).
Proof.
  intros Hb Hc (memory & -> & <- & Hu) Ht. apply not_serialization in Hb. apply library_called_step in Hc. set (w0 := library_state b p w calls i) in *.
  set (w' := library_state b p w calls (S i)) in *. apply library_run_call_body in Hc as (w1 & o & H & Hr & Hw).
  cbn [library_body] in H. rewrite Hb in H. unfold save_without, c_str_to_str in H. cbv zeta in H. cbn [check_pointer bind] in H.
  rewrite Hu in H. cbn [bind] in H. destruct system as [message|]; cbn [bind] in H.
  - injection H as <- <- <-. split; [discriminate|]. split; [intros _; rewrite Hw; reflexivity|].
    split; [intros other _; rewrite Hw; reflexivity|]. split; [|rewrite Hw; repeat split].
    subst result. cbn [catch_unwind]. unfold from_error. destruct (cstring_new _); discriminate.
  - unfold get_tensor in H. rewrite Ht in H. cbn [bind] in H. injection H as <- <- <-.
    split; [|split; [intros Hn; contradiction Hn; reflexivity|split; [|split]]].
    + intros _. rewrite Hw. subst result. cbn [catch_unwind]. unfold not_enabled. split; [reflexivity|]. split.
      * cbn. rewrite Nat.eqb_refl. reflexivity.
      * unfold file_at. cbn [set_errors w_files]. apply hm_get_written.
    + intros other Hne. rewrite Hw. unfold file_at. cbn [set_errors w_files]. apply hm_get_write. auto.
    + subst result. cbn. discriminate.
    + rewrite Hw. repeat split.
Qed.

(* a file changes only when something is saved there, and then it is empty *)
Lemma files_without_feature b p w calls : b <> WithSerialization -> forall i name,
  file_at (library_state b p w calls i) name = file_at w name
  \/ (file_at (library_state b p w calls i) name = Some None
      /\ exists k thread path tensor system remains v result, k < i /\ names_file path name
           /\ library_called b p w calls k thread (Call (TensorSave path tensor system remains)) v result).
Proof.
  intros Hb i name. apply not_serialization in Hb. induction i as [|i IH]; [left; reflexivity|].
  assert (Hkeep : file_at (library_state b p w calls (S i)) name = file_at (library_state b p w calls i) name ->
    file_at (library_state b p w calls (S i)) name = file_at w name
    \/ (file_at (library_state b p w calls (S i)) name = Some None
      /\ exists k thread path tensor system remains v result, k < S i /\ names_file path name
           /\ library_called b p w calls k thread (Call (TensorSave path tensor system remains)) v result)).
  { intros ->. destruct IH as [IH|[IH H]]; [auto|right]. split; [exact IH|].
    destruct H as (k & t & pa & te & s & re & v & r & Hk & H). exists k, t, pa, te, s, re, v, r. split; [lia|exact H]. }
  destruct (library_state_next b p calls w i) as [(t & c & v & r & Hc)|Hs]; [|apply Hkeep; rewrite Hs; reflexivity].
  pose proof (library_called_step _ _ _ _ _ _ _ _ _ Hc) as Hstep. apply library_run_call_body in Hstep as (w1 & o & H & Hr & Hw).
  set (w0 := library_state b p w calls i) in *.
  assert (Hw1 : file_at (library_state b p w calls (S i)) name = file_at w1 name) by (rewrite Hw; reflexivity).
  destruct c as [c|array memory data shape shape_count|array]; cbn [library_body] in H.
  - destruct c; rewrite ?Hb in H; try (apply Hkeep; rewrite Hw1; unfold file_at; match type of H with context [call_body ?p ?t ?w ?c] =>
      pose proof (call_body_files p t w c name (fun H => H)) as Hf; destruct (call_body p t w c) as [[? ?] ?]; injection H as <- <- <-; exact Hf end).
    + apply Hkeep. rewrite Hw1. injection H as <- <- <-. reflexivity.
    + unfold save_without in H. cbv zeta in H.
      match type of H with context [match ?x with Ok _ => _ | Err _ => _ | Panic _ => _ | Undefined _ => _ end] => destruct x as [path'|e|m|u] eqn:E end;
        [|apply Hkeep; rewrite Hw1; injection H as <- <- <-; reflexivity..].
      injection H as <- _ _. destruct path as [path|]; [|discriminate E]. cbn [check_pointer bind] in E.
      apply bind_ok in E as (h & _ & E). apply bind_ok in E as (path1 & Hp & E).
      apply bind_ok in E as (u & _ & E). apply bind_ok in E as (t1 & _ & E). injection E as ->.
      unfold c_str_to_str in Hp. destruct (is_utf8 _ _) eqn:Eu; [|discriminate Hp]. injection Hp as <-.
      destruct (string_dec name (c_str path)) as [->|Hne].
      * right. rewrite Hw1. unfold file_at. split; [apply hm_get_written|].
        exists i, t, (Some path), tensor, system, remains, v, r. split; [lia|]. split; [|exact Hc]. exists path. auto.
      * apply Hkeep. rewrite Hw1. unfold file_at. apply hm_get_write. auto.
  - apply Hkeep. rewrite Hw1. unfold eqs_get_rust_array in H. cbv zeta in H.
    match type of H with context [match ?x with Ok _ => _ | Err _ => _ | Panic _ => _ | Undefined _ => _ end] => destruct x as [a|e|m|u] end;
      [|injection H as <- <- <-; reflexivity..].
    destruct (has_ndarray b); [|injection H as <- <- <-; reflexivity].
    destruct (as_ndarray (w_origins w0) a) as [origins res]. destruct res; [destruct (is_standard_layout _ _)|..]; injection H as <- <- <-; reflexivity.
  - apply Hkeep. rewrite Hw1. destruct (origin_of (w_origins w0) array) as [origins id]. injection H as <- <- <-. reflexivity.
Qed.

(** * eqs_get_rust_array *)

Lemma position_distance strides : forall idx, position strides idx = distance strides idx.
Proof.
  induction strides as [|s strides IH]; intros [|i idx]; try reflexivity.
  cbn [position]. rewrite IH. unfold distance. cbn [combine map fold_right fst snd]. lia.
Qed.

Lemma row_major_buffer a : no_gap a -> row_major (st_shape a) (st_strides a) -> row_major_numbers a (st_buffer a).
Proof.
  intros Hn Hr idx Hb. rewrite <- (Hr idx Hb), <- position_distance. unfold st_get.
  apply nth_error_nth'. apply no_gap_position; assumption.
Qed.

Lemma as_ndarray_rust r a : NoDup r -> a_kind a = RustNdarray -> snd (as_ndarray r a) = Ok tt.
Proof.
  intros Hnd Hk. unfold as_ndarray, origin_of. rewrite Hk. destruct (register_data_origin r ndarray_name) as [r1 id1] eqn:E1.
  destruct (register_data_origin r1 ndarray_name) as [r2 id2] eqn:E2. pose proof (register_spec _ _ _ _ E1 Hnd) as (N1 & A1 & _).
  pose proof (register_spec _ _ _ _ E2 N1) as (N2 & A2 & B2).
  assert (Hid : id1 = id2).
  { destruct B2 as [->|(-> & _ & Hni)].
    - eapply NoDup_nth_error_inj; [exact N1|exact A1|exact A2].
    - exfalso. apply Hni. exact (nth_error_In _ _ A1). }
  subst id2. rewrite Nat.eqb_refl. reflexivity.
Qed.

Lemma origins_fields w origins errors :
  same_objects w (set_errors (set_origins w origins) errors) /\ w_files (set_errors (set_origins w origins) errors) = w_files w.
Proof. repeat split. Qed.

Lemma rust_array_result b p thread w a memory :
  b <> NoFeature -> origins_wf w -> a_kind a = RustNdarray ->
  let '(w', v, result) := library_run_call b p thread w (GetRustArray (Some a) memory out out out) in
  (if is_standard_layout (nd_shape (a_nd a)) (a_strides a)
   then result = Returned 0 /\ v = RustArray memory (nd_shape (a_nd a))
   else result = Returned 255 /\ v = Plain VNone)
  /\ same_objects w w' /\ w_files w' = w_files w.
Proof.
  intros Hb [Hnd _] Hk. apply some_feature in Hb. unfold library_run_call, library_body, eqs_get_rust_array. cbv zeta. cbn [check_pointer bind out]. rewrite Hb.
  pose proof (as_ndarray_rust (w_origins w) a Hnd Hk) as Ho. destruct (as_ndarray (w_origins w) a) as [origins o]. cbn [snd] in Ho. subst o.
  destruct (is_standard_layout _ _); cbn; (split; [split; reflexivity|]); repeat split.
Qed.

Lemma get_rust_array b p files calls i thread a v result :
  b <> NoFeature -> no_gap a ->
  library_called b p (world_start files) calls i thread (GetRustArray (Some (as_array a)) (st_buffer a) out out out) v result ->
  (row_major (st_shape a) (st_strides a) ->
     result = Returned 0 /\ exists numbers, v = RustArray numbers (st_shape a) /\ row_major_numbers a numbers
       /\ length numbers = prod (st_shape a))
  /\ (~ row_major (st_shape a) (st_strides a) -> result = Returned 255 /\ v = Plain VNone)
  /\ same_objects (library_state b p (world_start files) calls i) (library_state b p (world_start files) calls (S i))
  /\ w_files (library_state b p (world_start files) calls (S i)) = w_files (library_state b p (world_start files) calls i).
Proof.
  intros Hb Hn Hc. apply library_called_step in Hc.
  pose proof (rust_array_result b p thread _ (as_array a) (st_buffer a) Hb (library_origins_state b p _ calls i (origins_start files)) eq_refl) as H.
  rewrite Hc in H. destruct H as (H & Hs & Hf). split; [|split; [|split; assumption]].
  - intros Hr. cbn [as_array a_nd nd_shape a_strides] in H. rewrite (proj2 (standard_row_major _ _ (proj1 Hn)) Hr) in H.
    destruct H as [-> ->]. split; [reflexivity|]. exists (st_buffer a). split; [reflexivity|].
    split; [apply row_major_buffer; assumption|apply no_gap_length; assumption].
  - intros Hr. cbn [as_array a_nd nd_shape a_strides] in H. destruct (is_standard_layout _ _) eqn:E; [|exact H].
    exfalso. apply Hr. apply standard_row_major; [exact (proj1 Hn)|assumption].
Qed.

(* arrays which are not ndarrays *)
Lemma get_other_array b p files calls i thread a memory v result :
  b <> NoFeature -> a_kind a <> RustNdarray ->
  library_called b p (world_start files) calls i thread (GetRustArray (Some a) memory out out out) v result ->
  v = Plain VNone
  /\ ((exists origin, answers_origin a origin
        /\ nth_error (w_origins (library_state b p (world_start files) calls (S i))) origin = Some "rust.ndarray") ->
      exists reason, result = Crashed reason)
  /\ (~ (exists origin, answers_origin a origin
        /\ nth_error (w_origins (library_state b p (world_start files) calls (S i))) origin = Some "rust.ndarray") ->
      result = Returned 255)
  /\ same_objects (library_state b p (world_start files) calls i) (library_state b p (world_start files) calls (S i))
  /\ w_files (library_state b p (world_start files) calls (S i)) = w_files (library_state b p (world_start files) calls i).
Proof.
  intros Hb Hk Hc. apply library_called_step in Hc. pose proof (library_origins_state b p _ calls i (origins_start files)) as [Hnd H0].
  set (w := library_state b p (world_start files) calls i) in *. set (w' := library_state b p (world_start files) calls (S i)) in *. clearbody w w'.
  apply library_run_call_body in Hc as (w1 & o & H & Hr & Hw). cbn [library_body] in H. unfold eqs_get_rust_array in H. cbv zeta in H.
  cbn [check_pointer bind out] in H. rewrite (some_feature b Hb) in H. unfold as_ndarray, origin_of in H.
  assert (Hpanic : forall r m, w1 = set_origins w r -> o = Panic m -> v = Plain VNone -> has_nul m = false ->
    (~ exists origin, answers_origin a origin /\ nth_error r origin = Some "rust.ndarray") ->
    v = Plain VNone
    /\ ((exists origin, answers_origin a origin /\ nth_error (w_origins w') origin = Some "rust.ndarray") -> exists reason, result = Crashed reason)
    /\ (~ (exists origin, answers_origin a origin /\ nth_error (w_origins w') origin = Some "rust.ndarray") -> result = Returned 255)
    /\ same_objects w w' /\ w_files w' = w_files w).
  { intros r m -> -> -> Hm Hno. split; [reflexivity|]. subst w' result. split; [intros Hyes; exfalso; apply Hno; exact Hyes|].
    split; [|apply origins_fields]. intros _. cbn [catch_unwind]. unfold from_error, cstring_new. cbn [error_text].
    replace (has_nul ("internal error: " +++ m)) with false by (symmetry; exact Hm). reflexivity. }
  destruct (a_kind a) as [| |origin] eqn:Ek; [contradiction Hk; reflexivity| |].
  - destruct (register_data_origin (w_origins w) empty_name) as [r1 id1] eqn:E1. destruct (register_data_origin r1 ndarray_name) as [r2 id2] eqn:E2.
    apply register_spec in E1 as (N1 & A1 & _); [|assumption]. apply register_spec in E2 as (N2 & A2 & B2); [|assumption].
    assert (Hne : id1 <> id2).
    { intros ->. assert (A1' : nth_error r2 id2 = Some empty_name).
      { destruct B2 as [->|(-> & _)]; [assumption|]. rewrite nth_error_app1; [assumption|]. apply nth_error_Some. congruence. }
      rewrite A2 in A1'. discriminate A1'. }
    apply Nat.eqb_neq in Hne. rewrite Hne in H. injection H as <- <- <-.
    eapply (Hpanic r2); [reflexivity|reflexivity|reflexivity|reflexivity|]. intros (o' & [Ha _] & _). congruence.
  - unfold call in H. rewrite Ek in H.
    assert (Hcompare : forall answer,
      (let '(r, expected) := register_data_origin (w_origins w) ndarray_name in
       (r, if answer =? expected then Undefined "this is not a pointer to an array of Rust"
           else Panic "assertion failed: this array was not created by rust ndarray"))
      = (w_origins w1, o) -> w1 = set_origins w (w_origins w1) -> v = Plain VNone ->
      (answers_origin a origin -> answer = origin) -> (~ answers_origin a origin -> answer = 0) ->
      v = Plain VNone
      /\ ((exists origin, answers_origin a origin /\ nth_error (w_origins w') origin = Some "rust.ndarray") -> exists reason, result = Crashed reason)
      /\ (~ (exists origin, answers_origin a origin /\ nth_error (w_origins w') origin = Some "rust.ndarray") -> result = Returned 255)
      /\ same_objects w w' /\ w_files w' = w_files w).
    { intros answer Hx Hw1 Hv Hyes Hno. destruct (register_data_origin (w_origins w) ndarray_name) as [r expected] eqn:E.
      injection Hx as Hr1 Ho. apply register_spec in E as (N & A & B); [|assumption].
      assert (Hr0 : nth_error r 0 = Some "unregistered origin").
      { destruct B as [->|(-> & _)]; [assumption|]. rewrite nth_error_app1; [assumption|]. apply nth_error_Some. congruence. }
      destruct (Nat.eqb_spec answer expected) as [->|Hne].
      - assert (Hans : answers_origin a origin).
        { destruct (a_callbacks a OpOrigin) as [| |s] eqn:Ec.
          - split; [assumption|left; assumption].
          - exfalso. assert (expected = 0) as -> by (apply Hno; intros [_ [?|?]]; congruence). rewrite Hr0 in A. discriminate A.
          - destruct (Z.eq_dec s 0) as [->|Hs]; [split; [assumption|right; assumption]|].
            exfalso. assert (expected = 0) as -> by (apply Hno; intros [_ [?|?]]; congruence). rewrite Hr0 in A. discriminate A. }
        subst o result. cbn [catch_unwind snd]. split; [assumption|]. split; [eauto|]. split.
        + intros Hn. exfalso. apply Hn. exists origin. split; [assumption|]. rewrite Hw. cbn [set_errors w_origins].
          rewrite <- Hr1, <- (Hyes Hans). assumption.
        + rewrite Hw, Hw1. apply origins_fields.
      - eapply (Hpanic r); [rewrite Hr1; exact Hw1|symmetry; exact Ho|assumption|reflexivity|].
        intros (o' & [Ha Hca] & Hn). rewrite Ek in Ha. injection Ha as <-. apply Hne.
        rewrite (Hyes (conj Ek Hca)). eapply NoDup_nth_error_inj; [exact N|exact Hn|exact A]. }
    destruct (a_callbacks a OpOrigin) as [| |status] eqn:Ec.
    + destruct (register_data_origin (w_origins w) ndarray_name) as [r expected] eqn:E.
      apply (Hcompare origin); [destruct (origin =? expected); injection H as <- <- <-; reflexivity
        |destruct (origin =? expected); injection H as <- <- <-; reflexivity|destruct (origin =? expected); injection H as <- <- <-; reflexivity| |].
      * auto.
      * intros Hn. exfalso. apply Hn. split; auto.
    + injection H as <- <- <-. eapply (Hpanic (w_origins w)); [reflexivity..|]. intros (o' & [_ [?|?]] & _); congruence.
    + destruct (Z.eqb_spec status 0) as [->|Hs].
      * destruct (register_data_origin (w_origins w) ndarray_name) as [r expected] eqn:E.
        apply (Hcompare origin); [destruct (origin =? expected); injection H as <- <- <-; reflexivity
        |destruct (origin =? expected); injection H as <- <- <-; reflexivity|destruct (origin =? expected); injection H as <- <- <-; reflexivity| |].
        -- auto.
        -- intros Hn. exfalso. apply Hn. split; auto.
      * unfold callback_error in H. destruct (register_data_origin (w_origins w) ndarray_name) as [r expected] eqn:E.
        apply (Hcompare 0); [destruct (0 =? expected); injection H as <- <- <-; reflexivity
        |destruct (0 =? expected); injection H as <- <- <-; reflexivity|destruct (0 =? expected); injection H as <- <- <-; reflexivity| |].
        -- intros [_ [?|?]]; congruence.
        -- auto.
Qed.

Lemma get_rust_array_disabled p w calls i thread array memory v result :
  library_called NoFeature p w calls i thread (GetRustArray (Some array) memory out out out) v result ->
  result = Returned 255 /\ v = Plain VNone
  /\ w_errors (library_state NoFeature p w calls (S i)) thread
     = "internal error: support for rust ndarray is disabled, please recompile the code to activate it".
Proof.
  intros Hc. apply library_called_step, library_run_call_body in Hc as (w1 & o & H & Hr & Hw).
  cbn in H. injection H as <- <- <-. subst result. rewrite Hw. cbn. rewrite Nat.eqb_refl. auto.
Qed.

(* after moving a component *)
Lemma moved_in_ndarrays t name t' : wf_tensor t -> in_ndarrays t -> components_to_properties t [name] = (t', Ok tt) -> in_ndarrays t'.
Proof.
  intros Hwf Hn H. destruct (components_to_properties_ok t [name] t' ltac:(discriminate) H) as [_ Hf].
  intros b' part' Hb' Hp'. destruct (Forall2_In_r _ _ _ _ Hf Hb') as (b & Hb & E).
  assert (Hwb : wf_block b) by (destruct Hwf as (_ & Hbs & _); rewrite Forall_forall in Hbs; exact (Hbs b Hb)).
  pose proof (parts_moved_any b name b' Hwb E) as F. destruct (Forall2_In_r _ _ _ _ F Hp') as (part & Hp & _ & pre & x & post & Hm).
  rewrite (cm_kind _ _ _ _ _ _ Hm). exact (Hn b part Hb Hp).
Qed.

Lemma seen_after_moving b p thread w t name t' :
  b <> NoFeature -> origins_wf w ->
  wf_tensor t -> in_ndarrays t -> readable_tensor t -> components_to_properties t [name] = (t', Ok tt) ->
  ((forall block part memory, In block (tm_blocks t') -> In part (parts_of_block block) ->
      snd (library_run_call b p thread w (GetRustArray (Some (bb_data part)) memory out out out)) = Returned 0)
   <-> forall block part, In block (tm_blocks t) -> In part (parts_of_block block) -> ~ exchanged_in_memory part name).
Proof.
  intros Hb Hw Hwf Hn Hr H. pose proof (moved_in_ndarrays t name t' Hwf Hn H) as Hn'. rewrite <- (components_readable_any t name t' Hwf Hn Hr H).
  assert (G : forall part memory, a_kind (bb_data part) = RustNdarray ->
    (snd (library_run_call b p thread w (GetRustArray (Some (bb_data part)) memory out out out)) = Returned 0
     <-> SpecIo.readable (bb_data part))).
  { intros part memory Hk. pose proof (rust_array_result b p thread w (bb_data part) memory Hb Hw Hk) as Hx.
    destruct (library_run_call b p thread w (GetRustArray (Some (bb_data part)) memory out out out)) as [[w' v] r]. cbn [snd].
    unfold SpecIo.readable, array_data, array_shape, call. rewrite Hk. cbn [bind]. destruct Hx as [Hx _].
    destruct (is_standard_layout _ _); destruct Hx as [-> _].
    - split; eauto.
    - split; [discriminate|]. intros (n & E). discriminate E. }
  split.
  - intros Hx block part Hb' Hp. apply (G part [] (Hn' _ _ Hb' Hp)). apply (Hx block); assumption.
  - intros Hx block part memory Hb' Hp. apply (G part memory (Hn' _ _ Hb' Hp)). exact (Hx block part Hb' Hp).
Qed.

Lemma seen_after_moving_program b p files calls i thread t name t' :
  b <> NoFeature -> wf_tensor t -> in_ndarrays t -> readable_tensor t -> components_to_properties t [name] = (t', Ok tt) ->
  ((forall block part memory, In block (tm_blocks t') -> In part (parts_of_block block) ->
      snd (library_run_call b p thread (library_state b p (world_start files) calls i)
             (GetRustArray (Some (bb_data part)) memory out out out)) = Returned 0)
   <-> forall block part, In block (tm_blocks t) -> In part (parts_of_block block) -> ~ exchanged_in_memory part name).
Proof.
  intros Hb. apply seen_after_moving; [exact Hb|]. apply library_origins_state, origins_start.
Qed.

(* NULL pointers *)
Lemma get_rust_array_null b p w calls i thread array memory data shape shape_count v result :
  array = None \/ data = None \/ shape = None \/ shape_count = None ->
  library_called b p w calls i thread (GetRustArray array memory data shape shape_count) v result ->
  v = Plain VNone /\ result = Returned 1
  /\ same_objects (library_state b p w calls i) (library_state b p w calls (S i))
  /\ w_files (library_state b p w calls (S i)) = w_files (library_state b p w calls i)
  /\ w_origins (library_state b p w calls (S i)) = w_origins (library_state b p w calls i).
Proof.
  intros Hn Hc. apply library_called_step in Hc. apply library_run_call_body in Hc as (w1 & o & H & Hr & Hw).
  cbn [library_body] in H. unfold eqs_get_rust_array in H. cbv zeta in H.
  assert (E : exists message, (let? array := check_pointer "array" array in
    let? _ := check_pointer "data" data in let? _ := check_pointer "shape" shape in
    let? _ := check_pointer "shape_count" shape_count in Ok array) = Err (InvalidParameter message)
    /\ cstring_new (error_text (InvalidParameter message)) <> None).
  { destruct array; [|eexists; split; [reflexivity|vm_compute; discriminate]]. destruct data; [|eexists; split; [reflexivity|vm_compute; discriminate]].
    destruct shape; [|eexists; split; [reflexivity|vm_compute; discriminate]]. destruct shape_count; [|eexists; split; [reflexivity|vm_compute; discriminate]]. exfalso. destruct Hn as [Hn|[Hn|[Hn|Hn]]]; discriminate Hn. }
  destruct E as (message & E & Hm). rewrite E in H. cbn [bind] in H. injection H as <- <- <-.
  split; [reflexivity|]. split; [rewrite <- Hr; cbn [catch_unwind]; unfold from_error; destruct (cstring_new _); [reflexivity|contradiction Hm; reflexivity]|]. rewrite Hw. repeat split.
Qed.
