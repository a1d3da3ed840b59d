(* Concrete tensor maps with pointers to arrays, and functions of eqs_array_t which
   fail *)
From Verif Require Import Base BaseFacts Labels Array Block Tensor Callbacks SpecCallbacks CallbacksStore CallbacksFacts CallbacksStoreFacts Examples.
From Coq Require Import Permutation.
Local Open Scope string_scope.
Local Open Scope list_scope.
Local Open Scope nat_scope.

(* the tensor map of Examples.v: arrays 0, 2, 4 are values and 1, 3, 5 gradients *)
Definition ex_pointer_basic (n : nat) (b : BasicBlock) : BasicBlock :=
  mk_basic (pointer n) (bb_samples b) (bb_components b) (bb_properties b).
Definition ex_pointer_block (n : nat) (b : TensorBlock) : TensorBlock :=
  mk_block (ex_pointer_basic n (tb_values b)) (map (fun pg => (fst pg, ex_pointer_basic (S n) (snd pg))) (tb_gradients b))
    (tb_gradient_parameters b).
Definition ex_pointers : TensorMap :=
  mk_tensor ex_keys [ex_pointer_block 0 ex_block_1; ex_pointer_block 2 ex_block_2; ex_pointer_block 4 ex_block_3].

Definition ex_arrays : list eqs_array :=
  [bb_data (tb_values ex_block_1); ex_gradient_array_1; bb_data (tb_values ex_block_2); ex_gradient_array_2;
   bb_data (tb_values ex_block_3); ex_gradient_array_3].
Definition ex_store : store := mk_store (fun n => nth n ex_arrays ex_gradient_array_3) 6.

Lemma ex_pointers_see : see ex_store ex_pointers = ex_tensor.
Proof. vm_compute. reflexivity. Qed.

Lemma ex_pointers_arrays : tensor_arrays ex_pointers = [0; 1; 2; 3; 4; 5].
Proof. reflexivity. Qed.

Lemma ex_pointers_distinct : NoDup (tensor_arrays ex_pointers).
Proof. rewrite ex_pointers_arrays. repeat (constructor; [cbn; intuition discriminate|]). constructor. Qed.

Lemma ex_pointers_below : Forall (fun a => a < s_next ex_store) (tensor_arrays ex_pointers).
Proof. rewrite ex_pointers_arrays. cbn. repeat (constructor; [lia|]). constructor. Qed.

(* the functions of [s], except the call number [n] where the answer is [bad] *)
Fixpoint failing {A} (n : nat) (bad : answer) (s : store) (m : prog A) : trace * A :=
  match m with
  | Ret a => ([], a)
  | Ask c k =>
      match n with
      | 0 => ((c, bad) :: played s (k bad), snd (play s (k bad)))
      | S n => let '(s, an) := respond s c in let '(tr, a) := failing n bad s (k an) in ((c, an) :: tr, a)
      end
  end.

Lemma failing_runs {A} bad (m : prog A) : forall n s, runs m (fst (failing n bad s m)) (snd (failing n bad s m)).
Proof.
  induction m as [a|c k IH]; intros n s; cbn [failing].
  - destruct n; constructor.
  - destruct n as [|n]; [constructor; apply play_runs|].
    cbn [failing]. destruct (respond s c) as [s' an]. specialize (IH an n s'). destruct (failing n bad s' (k an)) as [tr a]. cbn [fst snd] in *. constructor. exact IH.
Qed.

Definition ex_fails (status : Z) : answer := mk_answer false status 0 [] 0.
Definition ex_null : answer := mk_answer true 0 0 [] 0.


(* "center" becomes samples: two blocks *)
Definition ex_center := ex_labels ["center"] [].
Definition ex_to_samples : prog (TensorMap * outcome unit) := p_keys_to_samples Debug ex_pointers ex_center true.
Definition ex_to_properties : prog (TensorMap * outcome unit) := p_keys_to_properties Debug ex_pointers ex_center true.
Definition ex_xyz_to_properties : prog (TensorMap * outcome unit) := p_components_to_properties ex_pointers ["xyz"].

Definition ex_calls (tr : trace) : list (string * list nat * bool) := map (fun e => (name_of (fst e), used (fst e), works (snd e))) tr.

Ltac solve_new := vm_compute; repeat split; intuition discriminate.

(* it works: arrays 6 and 7 are the first new block, 8 and 9 the second one *)
Lemma ex_samples_work : runs ex_to_samples (played ex_store ex_to_samples) (snd (play ex_store ex_to_samples)) /\
  new_arrays (tensor_arrays ex_pointers ++ [20]) (played ex_store ex_to_samples) /\
  snd (snd (play ex_store ex_to_samples)) = Ok tt /\
  tensor_arrays (fst (snd (play ex_store ex_to_samples))) = [6; 7; 8; 9] /\
  ex_calls (skipn 19 (played ex_store ex_to_samples)) =
    [("origin", [9], true); ("origin", [8], true); ("shape", [9], true); ("destroy", [0], true); ("destroy", [1], true);
     ("destroy", [2], true); ("destroy", [3], true); ("destroy", [4], true); ("destroy", [5], true)].
Proof. split; [apply play_runs|]. split; [solve_new|]. vm_compute. auto. Qed.

Lemma ex_properties_work : runs ex_to_properties (played ex_store ex_to_properties) (snd (play ex_store ex_to_properties)) /\
  new_arrays (tensor_arrays ex_pointers ++ [20]) (played ex_store ex_to_properties) /\
  snd (snd (play ex_store ex_to_properties)) = Ok tt /\
  tensor_arrays (fst (snd (play ex_store ex_to_properties))) = [6; 7; 8; 9].
Proof. split; [apply play_runs|]. split; [solve_new|]. vm_compute. auto. Qed.

Lemma ex_components_work : runs ex_xyz_to_properties (played ex_store ex_xyz_to_properties) (snd (play ex_store ex_xyz_to_properties)) /\
  new_arrays (tensor_arrays ex_pointers ++ [20]) (played ex_store ex_xyz_to_properties) /\
  snd (snd (play ex_store ex_xyz_to_properties)) = Ok tt /\ length (played ex_store ex_xyz_to_properties) = 18.
Proof. split; [apply play_runs|]. split; [solve_new|]. vm_compute. auto. Qed.

(* move_samples_from fails in the gradients of the first block: the two new arrays are
   destroyed, and the status is given back *)
Definition ex_failed_move : trace * (TensorMap * outcome unit) := failing 8 (ex_fails (-3)) ex_store ex_to_samples.
Lemma ex_move_fails : runs ex_to_samples (fst ex_failed_move) (ex_pointers, snd (snd ex_failed_move)) /\
  new_arrays (tensor_arrays ex_pointers ++ [20]) (fst ex_failed_move) /\
  ex_calls (fst ex_failed_move) =
    [("shape", [0], true); ("create", [0], true); ("move_samples_from", [6; 0], true); ("move_samples_from", [6; 4], true);
     ("shape", [6], true); ("shape", [1], true); ("create", [0], true); ("move_samples_from", [7; 1], true);
     ("move_samples_from", [7; 5], false); ("destroy", [7], true); ("destroy", [6], true)] /\
  snd (snd ex_failed_move) = Err (External (-3) "calling eqs_array_t.move_samples_from failed").
Proof.
  split; [|split; [solve_new|vm_compute; auto]].
  replace (ex_pointers, snd (snd ex_failed_move)) with (snd ex_failed_move) by (vm_compute; reflexivity). apply failing_runs.
Qed.

(* the same with `create` in the second block of keys_to_properties *)
Definition ex_failed_create : trace * (TensorMap * outcome unit) := failing 13 (ex_fails (-4)) ex_store ex_to_properties.
Lemma ex_create_fails : runs ex_to_properties (fst ex_failed_create) (ex_pointers, snd (snd ex_failed_create)) /\
  new_arrays (tensor_arrays ex_pointers ++ [20]) (fst ex_failed_create) /\
  ex_calls (skipn 12 (fst ex_failed_create)) =
    [("shape", [2], true); ("create", [2], false); ("destroy", [6], true); ("destroy", [7], true)] /\
  snd (snd ex_failed_create) = Err (External (-4) "calling eqs_array_t.create failed").
Proof.
  split; [|split; [solve_new|vm_compute; auto]].
  replace (ex_pointers, snd (snd ex_failed_create)) with (snd ex_failed_create) by (vm_compute; reflexivity). apply failing_runs.
Qed.

(* the shape of a new array fails: it is a panic, which loses the status *)
Definition ex_failed_shape : trace * (TensorMap * outcome unit) := failing 4 (ex_fails (-3)) ex_store ex_to_samples.
Lemma ex_shape_fails : runs ex_to_samples (fst ex_failed_shape) (ex_pointers, snd (snd ex_failed_shape)) /\
  new_arrays (tensor_arrays ex_pointers ++ [20]) (fst ex_failed_shape) /\
  ex_calls (skipn 4 (fst ex_failed_shape)) = [("shape", [6], false); ("destroy", [6], true)] /\
  an_status (snd (nth 4 (fst ex_failed_shape) (QShape 0, ex_null))) = (-3)%Z /\
  snd (snd ex_failed_shape) = Panic "invalid block".
Proof.
  split; [|split; [solve_new|vm_compute; auto]].
  replace (ex_pointers, snd (snd ex_failed_shape)) with (snd ex_failed_shape) by (vm_compute; reflexivity). apply failing_runs.
Qed.

Lemma ex_status_lost : exists tr t',
  runs ex_to_samples tr (t', Panic "invalid block") /\ new_arrays (tensor_arrays ex_pointers) tr /\
  Forall (fun e => an_null (snd e) = false) tr /\
  exists before c an after, tr = before ++ (c, an) :: after /\ all_work before /\ an_status an = (-3)%Z.
Proof.
  exists (fst ex_failed_shape), ex_pointers. split; [|split; [solve_new|split]].
  - replace (ex_pointers, Panic "invalid block") with (snd ex_failed_shape) by (vm_compute; reflexivity). apply failing_runs.
  - apply Forall_forall. intros e He. assert (Hb : forallb (fun e => negb (an_null (snd e))) (fst ex_failed_shape) = true) by (vm_compute; reflexivity).
    rewrite forallb_forall in Hb. specialize (Hb e He). destruct (an_null (snd e)); [discriminate Hb|reflexivity].
  - exists (firstn 4 (fst ex_failed_shape)), (QShape 6), (ex_fails (-3)), (skipn 5 (fst ex_failed_shape)).
    split; [vm_compute; reflexivity|]. split; [|reflexivity]. apply Forall_forall. intros [c an] He. right.
    assert (Hb : forallb (fun e => works (snd e)) (firstn 4 (fst ex_failed_shape)) = true) by (vm_compute; reflexivity).
    rewrite forallb_forall in Hb. exact (Hb _ He).
Qed.

(* reshape fails in components_to_properties: the array stays with swapped axes, and
   the block has no component any more *)
Definition ex_failed_reshape : trace * (TensorMap * outcome unit) := failing 2 (ex_fails 7) ex_store ex_xyz_to_properties.
Lemma ex_reshape_fails : runs ex_xyz_to_properties (fst ex_failed_reshape) (snd ex_failed_reshape) /\
  new_arrays (tensor_arrays ex_pointers ++ [20]) (fst ex_failed_reshape) /\
  ex_calls (fst ex_failed_reshape) = [("shape", [0], true); ("swap_axes", [0], true); ("reshape", [0], false)] /\
  snd (snd ex_failed_reshape) = Err (External 7 "calling eqs_array_t.reshape failed") /\
  map (fun b => length (bb_components (tb_values b))) (tm_blocks (fst (snd ex_failed_reshape))) = [0; 1; 1].
Proof. split; [apply failing_runs|]. split; [solve_new|vm_compute; auto]. Qed.

Lemma ex_components_left : exists tr t' message,
  runs ex_xyz_to_properties tr (t', Err (External 7 message)) /\ new_arrays (tensor_arrays ex_pointers) tr /\ t' <> ex_pointers /\
  exists i j, In (QSwapAxes 0 i j, answer_ok) tr.
Proof.
  exists (fst ex_failed_reshape), (fst (snd ex_failed_reshape)), "calling eqs_array_t.reshape failed". split; [|split; [solve_new|split]].
  - replace (fst (snd ex_failed_reshape), Err (External 7 "calling eqs_array_t.reshape failed")) with (snd ex_failed_reshape) by (vm_compute; reflexivity).
    apply failing_runs.
  - intros E. assert (Hl : map (fun b => length (bb_components (tb_values b))) (tm_blocks (fst (snd ex_failed_reshape))) = [0; 1; 1]) by (vm_compute; reflexivity).
    rewrite E in Hl. vm_compute in Hl. discriminate Hl.
  - exists 1, 1. vm_compute. auto.
Qed.

(* blocks *)
Definition ex_first : TensorBlock := ex_pointer_block 0 ex_block_1.
Definition ex_values : TensorBlock := mk_block (tb_values ex_first) [] [].
Definition ex_new_block (samples : Labels) : prog (outcome TensorBlock) := p_block_new 0 samples [ex_xyz] ex_properties.

(* with samples which are not the right ones, the array is destroyed *)
Lemma ex_block_fails : runs (ex_new_block ex_samples_2) (played ex_store (ex_new_block ex_samples_2)) (snd (play ex_store (ex_new_block ex_samples_2))) /\
  new_arrays [0; 20] (played ex_store (ex_new_block ex_samples_2)) /\
  ex_calls (played ex_store (ex_new_block ex_samples_2)) = [("shape", [0], true); ("destroy", [0], true)] /\
  (forall b, snd (play ex_store (ex_new_block ex_samples_2)) <> Ok b).
Proof. split; [apply play_runs|]. split; [solve_new|]. split; [vm_compute; reflexivity|]. intros b. vm_compute. discriminate. Qed.

Lemma ex_block_works : runs (ex_new_block ex_samples_1) (played ex_store (ex_new_block ex_samples_1)) (Ok ex_values) /\
  new_arrays [0; 20] (played ex_store (ex_new_block ex_samples_1)) /\ block_arrays ex_values = [0].
Proof.
  split; [|split; [solve_new|vm_compute; reflexivity]].
  replace (Ok ex_values) with (snd (play ex_store (ex_new_block ex_samples_1))) by (vm_compute; reflexivity). apply play_runs.
Qed.

Definition ex_new_gradient : prog (TensorBlock * outcome unit) :=
  p_add_gradient ex_values "positions" 1 ex_gradient_samples_1 [ex_cell; ex_xyz].
Lemma ex_gradient_works : runs ex_new_gradient (played ex_store ex_new_gradient) (ex_first, Ok tt) /\
  new_arrays ((1 :: block_arrays ex_values) ++ [20]) (played ex_store ex_new_gradient) /\
  ex_calls (played ex_store ex_new_gradient) = [("origin", [1], true); ("origin", [0], true); ("shape", [1], true)].
Proof.
  split; [|split; [solve_new|vm_compute; reflexivity]].
  replace (ex_first, Ok tt) with (snd (play ex_store ex_new_gradient)) by (vm_compute; reflexivity). apply play_runs.
Qed.
(* the shape of the gradient fails *)
Definition ex_failed_gradient : trace * (TensorBlock * outcome unit) := failing 2 (ex_fails 12) ex_store ex_new_gradient.
Lemma ex_gradient_fails : runs ex_new_gradient (fst ex_failed_gradient) (ex_values, Err (External 12 "calling eqs_array_t.shape failed")) /\
  new_arrays ((1 :: block_arrays ex_values) ++ [20]) (fst ex_failed_gradient) /\
  ex_calls (fst ex_failed_gradient) = [("origin", [1], true); ("origin", [0], true); ("shape", [1], false); ("destroy", [1], true)].
Proof.
  split; [|split; [solve_new|vm_compute; reflexivity]].
  replace (ex_values, Err (External 12 "calling eqs_array_t.shape failed")) with (snd ex_failed_gradient) by (vm_compute; reflexivity).
  apply failing_runs.
Qed.

(* copying a block, and the copy of the gradient fails *)
Lemma ex_clone_works : exists b, runs (p_block_clone ex_first) (played ex_store (p_block_clone ex_first)) (Ok b) /\
  new_arrays (block_arrays ex_first ++ [20]) (played ex_store (p_block_clone ex_first)) /\ block_arrays b = [6; 7].
Proof.
  destruct (snd (play ex_store (p_block_clone ex_first))) as [b|e|m|r] eqn:E; vm_compute in E; try discriminate E.
  exists b. split; [|split; [solve_new|injection E as <-; vm_compute; reflexivity]].
  replace (Ok b) with (snd (play ex_store (p_block_clone ex_first))) by (rewrite <- E; vm_compute; reflexivity). apply play_runs.
Qed.
Definition ex_failed_clone : trace * outcome TensorBlock := failing 1 (ex_fails 1) ex_store (p_block_clone ex_first).
Lemma ex_clone_fails : runs (p_block_clone ex_first) (fst ex_failed_clone) (Panic "calling eqs_array_t.copy failed") /\
  new_arrays (block_arrays ex_first ++ [20]) (fst ex_failed_clone) /\
  ex_calls (fst ex_failed_clone) = [("copy", [0], true); ("copy", [1], false); ("destroy", [6], true)].
Proof.
  split; [|split; [solve_new|vm_compute; reflexivity]].
  replace (Panic "calling eqs_array_t.copy failed") with (snd ex_failed_clone) by (vm_compute; reflexivity). apply failing_runs.
Qed.

(* a tensor map with a wrong number of keys destroys the arrays *)
Definition ex_wrong_keys : prog (outcome TensorMap) := p_tensor_new ex_center (tm_blocks ex_pointers).
Lemma ex_tensor_fails : runs ex_wrong_keys (played ex_store ex_wrong_keys) (snd (play ex_store ex_wrong_keys)) /\
  new_arrays (blocks_arrays (tm_blocks ex_pointers) ++ [20]) (played ex_store ex_wrong_keys) /\
  (forall t, snd (play ex_store ex_wrong_keys) <> Ok t) /\
  map used (map fst (played ex_store ex_wrong_keys)) = [[0]; [1]; [2]; [3]; [4]; [5]].
Proof. split; [apply play_runs|]. split; [solve_new|]. split; [intros t; vm_compute; discriminate|vm_compute; reflexivity]. Qed.

Lemma ex_distinct_20 : NoDup (tensor_arrays ex_pointers ++ [20]).
Proof. rewrite ex_pointers_arrays. cbn. repeat (constructor; [cbn; intuition discriminate|]). constructor. Qed.

Lemma ex_same : see ex_store ex_pointers = ex_tensor /\ Forall (fun a => a < s_next ex_store) (tensor_arrays ex_pointers) /\
  NoDup (tensor_arrays ex_pointers) /\
  snd (keys_to_samples Debug (see ex_store ex_pointers) ex_center true) = Ok tt /\
  snd (keys_to_properties Debug (see ex_store ex_pointers) ex_center true) = Ok tt /\
  see (fst (play ex_store ex_to_samples)) (fst (snd (play ex_store ex_to_samples))) = fst (keys_to_samples Debug ex_tensor ex_center true).
Proof.
  split; [exact ex_pointers_see|]. split; [exact ex_pointers_below|]. split; [exact ex_pointers_distinct|]. vm_compute. auto.
Qed.
