(* Saving with functions of arrays which fail, or which change their mind *)
From Coq Require Import Permutation.
From Verif Require Import Base Labels Array Block Tensor Npy Io Spec SpecTensor SpecIo NpyFacts IoFacts Saving SavingFacts
  Callbacks CallbacksStore SaveCalls SpecSaveCalls SaveCallsFacts Examples ExamplesIo ExamplesCallbacks.
Local Open Scope string_scope.
Local Open Scope list_scope.
Local Open Scope nat_scope.

(* the answers of the arrays of [s], except for the call number [n] *)
Fixpoint ask_but {A} (n : nat) (bad : given) (s : store) (m : reading A) : answers * A :=
  match m with
  | Give a => ([], a)
  | Query c k =>
      match n with
      | 0 => let '(tr, a) := ask (fun c => array_answers (s_array s (read_array c)) c) (k bad) in ((c, bad) :: tr, a)
      | S n =>
          let g := array_answers (s_array s (read_array c)) c in
          let '(tr, a) := ask_but n bad s (k g) in ((c, g) :: tr, a)
      end
  end.

Lemma ask_but_reads {A} bad s (m : reading A) : forall n, reads m (fst (ask_but n bad s m)) (snd (ask_but n bad s m)).
Proof.
  induction m as [a|c k IH]; intros n.
  - destruct n; constructor.
  - destruct n as [|n]; cbn [ask_but]; cbv zeta.
    + pose proof (ask_reads (fun c => array_answers (s_array s (read_array c)) c) (k bad)) as H. destruct (ask _ (k bad)) as [tr a]. constructor. exact H.
    + specialize (IH (array_answers (s_array s (read_array c)) c) n). destruct (ask_but n bad s (k _)) as [tr a]. constructor. exact IH.
Qed.

Definition ex_save : reading progress := r_save Debug LittleEndian ex_pointers.
Definition ex_asked : answers * progress := ask (fun c => array_answers (s_array ex_store (read_array c)) c) ex_save.

Lemma ex_asked_calls : map fst (fst ex_asked) =
  [RShape 0; RShape 0; RData 0; RShape 1; RShape 1; RData 1; RShape 2; RShape 2; RData 2;
   RShape 3; RShape 3; RData 3; RShape 4; RShape 4; RData 4; RShape 5; RShape 5; RData 5].
Proof. vm_compute. reflexivity. Qed.

Lemma ex_asked_result : snd ex_asked = (ex_archive, Ok tt).
Proof. vm_compute. reflexivity. Qed.

Lemma ex_asked_reads : reads ex_save (fst ex_asked) (ex_archive, Ok tt).
Proof. rewrite <- ex_asked_result. apply ask_reads. Qed.

Lemma ex_asked_answers : answers_of ex_store (fst ex_asked).
Proof. exact (ask_answers (fun c => array_answers (s_array ex_store (read_array c)) c) ex_save). Qed.

(* the second call for the third array fails *)
Definition ex_failed : answers * progress := ask_but 7 (mk_given false (-3) [] None) ex_store ex_save.

Lemma ex_failed_ok : reads ex_save (fst ex_failed) (snd ex_failed)
  /\ fst ex_failed = firstn 7 (fst ex_asked) ++ [(RShape 2, mk_given false (-3) [] None)]
  /\ snd (snd ex_failed) = Err (External (-3) "calling eqs_array_t.shape failed").
Proof. split; [apply ask_but_reads|]. split; vm_compute; reflexivity. Qed.

(* `data` is NULL for the second array *)
Definition ex_null_data : answers * progress := ask_but 5 (mk_given true 0 [] None) ex_store ex_save.

Lemma ex_null_data_ok : reads ex_save (fst ex_null_data) (snd ex_null_data)
  /\ fst ex_null_data = firstn 5 (fst ex_asked) ++ [(RData 1, mk_given true 0 [] None)]
  /\ snd (snd ex_null_data) = Panic "eqs_array_t.data function is NULL".
Proof. split; [apply ask_but_reads|]. split; vm_compute; reflexivity. Qed.

(* the first array has another shape for the second call *)
Definition ex_changed : answers * progress := ask_but 1 (mk_given false 0 [1] None) ex_store ex_save.

Lemma ex_changed_ok : reads ex_save (fst ex_changed) (snd ex_changed)
  /\ snd (snd ex_changed) = Ok tt
  /\ Forall (fun cg => ~ call_failed (snd cg)) (fst ex_changed)
  /\ map fst (fst ex_changed) = flat_map calls_for (tensor_arrays ex_pointers)
  /\ map fst (fst (snd ex_changed)) = map fst ex_archive
  /\ exists e, load Debug (map fst (fst (snd ex_changed))) (fst (snd ex_changed)) = Err e.
Proof.
  split; [apply ask_but_reads|]. split; [vm_compute; reflexivity|]. split.
  - assert (H : forallb (fun cg => negb (gv_null (snd cg)) && (gv_status (snd cg) =? 0)%Z)%bool (fst ex_changed) = true) by (vm_compute; reflexivity).
    apply Forall_forall. intros g Hg. rewrite forallb_forall in H. apply H in Hg. apply andb_prop in Hg as [H1 H2].
    apply Z.eqb_eq in H2. intros [K|K]; [rewrite K in H1; discriminate|contradiction].
  - split; [vm_compute; reflexivity|]. split; [vm_compute; reflexivity|]. eexists. vm_compute. reflexivity.
Qed.

Lemma answers_answered s tr a : answers_of s tr -> float_array (s_array s a) ->
  array_shape (s_array s a) = Ok (nd_shape (a_nd (s_array s a))) -> array_data (s_array s a) = Ok (nd_data (a_nd (s_array s a))) ->
  answered tr a (s_array s a).
Proof.
  intros Ha (_ & Hl & Hs) H1 H2. unfold answers_of in Ha. rewrite Forall_forall in Ha.
  split; [exact H1|]. split; [exact H2|]. split; [|split; [|exact Hs]].
  - intros g Hg. apply Ha in Hg. cbn [fst snd read_array] in Hg. rewrite Hg. unfold array_answers. rewrite H1. reflexivity.
  - intros g memory Hg Hm. apply Ha in Hg. cbn [fst snd read_array] in Hg. rewrite Hg in Hm. unfold array_answers in Hm. rewrite H2 in Hm.
    cbn [gv_memory] in Hm. inversion Hm. rewrite <- Hl. apply firstn_all.
Qed.

Lemma ex_arrays_float : Forall (fun a => float_array (s_array ex_store a)) (tensor_arrays ex_pointers).
Proof.
  rewrite ex_pointers_arrays. repeat (constructor; [apply check_nd_sound; vm_compute; reflexivity|]). constructor.
Qed.

Lemma ex_asked_answered x : In x (tensor_arrays ex_pointers) -> answered (fst ex_asked) x (s_array ex_store x).
Proof.
  intros Hx. apply answers_answered; [exact ex_asked_answers| | |].
  - pose proof ex_arrays_float as H. rewrite Forall_forall in H. exact (H x Hx).
  - rewrite ex_pointers_arrays in Hx. cbn [In] in Hx. repeat destruct Hx as [<-|Hx]; try (vm_compute; reflexivity). destruct Hx.
  - rewrite ex_pointers_arrays in Hx. cbn [In] in Hx. repeat destruct Hx as [<-|Hx]; try (vm_compute; reflexivity). destruct Hx.
Qed.

Lemma ex_seen : wf_tensor (see ex_store ex_pointers) /\ tensor_in_memory (see ex_store ex_pointers) /\ c_parameters (see ex_store ex_pointers).
Proof. rewrite ex_pointers_see. split; [exact ex_tensor_wf|]. split; [exact ex_tensor_in_memory|exact ex_c_parameters]. Qed.

Lemma ex_changed_shapes : exists g g' rest tr archive, reads ex_save tr (archive, Ok tt)
  /\ tr = (RShape 0, g) :: (RShape 0, g') :: rest /\ gv_shape g <> gv_shape g'
  /\ Forall (fun cg => ~ call_failed (snd cg)) tr
  /\ map fst archive = map fst ex_archive
  /\ exists e, load Debug (map fst archive) archive = Err e.
Proof.
  destruct ex_changed_ok as (H1 & H2 & H3 & _ & H4 & H5).
  exists (snd (nth 0 (fst ex_changed) (RShape 0, mk_given false 0 [] None))), (snd (nth 1 (fst ex_changed) (RShape 0, mk_given false 0 [] None))).
  exists (skipn 2 (fst ex_changed)), (fst ex_changed), (fst (snd ex_changed)).
  split; [rewrite <- H2; destruct (snd ex_changed); exact H1|]. split; [vm_compute; reflexivity|]. split; [vm_compute; discriminate|].
  split; [exact H3|]. split; [exact H4|exact H5].
Qed.
