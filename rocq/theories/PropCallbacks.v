(* The functions of eqs_array_t are called: C91 to C94 *)
From Verif Require Import Base Labels Array Block Tensor Callbacks SpecCallbacks CallbacksStore CallbacksFacts CallbacksOwnFacts CallbacksFailFacts
  CallbacksStoreFacts Examples ExamplesCallbacks.
Local Open Scope string_scope.
Local Open Scope list_scope.
Local Open Scope nat_scope.

(* C91: for all the answers of the functions of arrays, all arrays are either given
   back or destroyed once, none is used afterwards, and arrays of others are not
   changed *)
Theorem C91_keys_to_samples p t keys sort others tr t' r :
  NoDup (tensor_arrays t ++ others) ->
  new_arrays (tensor_arrays t ++ others) tr ->
  runs (p_keys_to_samples p t keys sort) tr (t', r) ->
  accounts others (tensor_arrays t) tr (tensor_arrays t').
Proof. exact (samples_accounts p t keys sort others tr t' r). Qed.
Print Assumptions C91_keys_to_samples.

Theorem C91_keys_to_properties p t keys sort others tr t' r :
  NoDup (tensor_arrays t ++ others) ->
  new_arrays (tensor_arrays t ++ others) tr ->
  runs (p_keys_to_properties p t keys sort) tr (t', r) ->
  accounts others (tensor_arrays t) tr (tensor_arrays t').
Proof. exact (properties_accounts p t keys sort others tr t' r). Qed.
Print Assumptions C91_keys_to_properties.

Theorem C91_components_to_properties t variables others tr t' r :
  NoDup (tensor_arrays t ++ others) ->
  new_arrays (tensor_arrays t ++ others) tr ->
  runs (p_components_to_properties t variables) tr (t', r) ->
  accounts others (tensor_arrays t) tr (tensor_arrays t') /\ tensor_arrays t' = tensor_arrays t.
Proof. exact (components_accounts t variables others tr t' r). Qed.
Print Assumptions C91_components_to_properties.

Theorem C91_block_new a samples components properties others tr r :
  NoDup (a :: others) ->
  new_arrays (a :: others) tr ->
  runs (p_block_new a samples components properties) tr r ->
  accounts others [a] tr (match r with Ok b => block_arrays b | _ => [] end) /\ (forall b, r = Ok b -> block_arrays b = [a]).
Proof. exact (block_new_accounts a samples components properties others tr r). Qed.
Print Assumptions C91_block_new.

Theorem C91_add_gradient b parameter a samples components others tr b' r :
  NoDup ((a :: block_arrays b) ++ others) ->
  new_arrays ((a :: block_arrays b) ++ others) tr ->
  runs (p_add_gradient b parameter a samples components) tr (b', r) ->
  accounts others (a :: block_arrays b) tr (block_arrays b').
Proof. exact (add_gradient_accounts b parameter a samples components others tr b' r). Qed.
Print Assumptions C91_add_gradient.

Theorem C91_block_clone b others tr r :
  NoDup (block_arrays b ++ others) ->
  new_arrays (block_arrays b ++ others) tr ->
  runs (p_block_clone b) tr r ->
  accounts (block_arrays b ++ others) [] tr (match r with Ok b' => block_arrays b' | _ => [] end).
Proof. exact (block_clone_accounts b others tr r). Qed.
Print Assumptions C91_block_clone.

Theorem C91_tensor_new keys blocks others tr r :
  NoDup (blocks_arrays blocks ++ others) ->
  new_arrays (blocks_arrays blocks ++ others) tr ->
  runs (p_tensor_new keys blocks) tr r ->
  accounts others (blocks_arrays blocks) tr (match r with Ok t => tensor_arrays t | _ => [] end).
Proof. exact (tensor_new_accounts keys blocks others tr r). Qed.
Print Assumptions C91_tensor_new.

(* a tensor map with gradients where keys are moved to samples, and a failure of
   move_samples_from *)
Example C91_example :
  NoDup (tensor_arrays ex_pointers ++ [20]) /\
  (runs ex_to_samples (played ex_store ex_to_samples) (snd (play ex_store ex_to_samples)) /\
   new_arrays (tensor_arrays ex_pointers ++ [20]) (played ex_store ex_to_samples) /\
   snd (snd (play ex_store ex_to_samples)) = Ok tt /\
   tensor_arrays (fst (snd (play ex_store ex_to_samples))) = [6; 7; 8; 9] /\
   ex_calls (skipn 19 (played ex_store ex_to_samples)) =
     [("origin", [9], true); ("origin", [8], true); ("shape", [9], true); ("destroy", [0], true); ("destroy", [1], true);
      ("destroy", [2], true); ("destroy", [3], true); ("destroy", [4], true); ("destroy", [5], true)]).
Proof. exact (conj ex_distinct_20 ex_samples_work). Qed.

Example C91_example_block :
  runs (ex_new_block ex_samples_2) (played ex_store (ex_new_block ex_samples_2)) (snd (play ex_store (ex_new_block ex_samples_2))) /\
  new_arrays [0; 20] (played ex_store (ex_new_block ex_samples_2)) /\
  ex_calls (played ex_store (ex_new_block ex_samples_2)) = [("shape", [0], true); ("destroy", [0], true)] /\
  (forall b, snd (play ex_store (ex_new_block ex_samples_2)) <> Ok b).
Proof. exact ex_block_fails. Qed.

Example C91_example_gradient :
  runs ex_new_gradient (fst ex_failed_gradient) (ex_values, Err (External 12 "calling eqs_array_t.shape failed")) /\
  new_arrays ((1 :: block_arrays ex_values) ++ [20]) (fst ex_failed_gradient) /\
  ex_calls (fst ex_failed_gradient) = [("origin", [1], true); ("origin", [0], true); ("shape", [1], false); ("destroy", [1], true)].
Proof. exact ex_gradient_fails. Qed.

Example C91_example_clone :
  runs (p_block_clone ex_first) (fst ex_failed_clone) (Panic "calling eqs_array_t.copy failed") /\
  new_arrays (block_arrays ex_first ++ [20]) (fst ex_failed_clone) /\
  ex_calls (fst ex_failed_clone) = [("copy", [0], true); ("copy", [1], false); ("destroy", [6], true)].
Proof. exact ex_clone_fails. Qed.

Example C91_example_tensor :
  runs ex_wrong_keys (played ex_store ex_wrong_keys) (snd (play ex_store ex_wrong_keys)) /\
  new_arrays (blocks_arrays (tm_blocks ex_pointers) ++ [20]) (played ex_store ex_wrong_keys) /\
  (forall t, snd (play ex_store ex_wrong_keys) <> Ok t) /\
  map used (map fst (played ex_store ex_wrong_keys)) = [[0]; [1]; [2]; [3]; [4]; [5]].
Proof. exact ex_tensor_fails. Qed.

Example C91_example_components :
  runs ex_xyz_to_properties (played ex_store ex_xyz_to_properties) (snd (play ex_store ex_xyz_to_properties)) /\
  new_arrays (tensor_arrays ex_pointers ++ [20]) (played ex_store ex_xyz_to_properties) /\
  snd (snd (play ex_store ex_xyz_to_properties)) = Ok tt /\ length (played ex_store ex_xyz_to_properties) = 18.
Proof. exact ex_components_work. Qed.

(* C92: when keys_to_samples or keys_to_properties fail in any way, the tensor map is
   the one from before and its arrays were not changed *)
Theorem C92_keys_to_samples p t keys sort others tr t' r :
  NoDup (tensor_arrays t ++ others) ->
  new_arrays (tensor_arrays t ++ others) tr ->
  runs (p_keys_to_samples p t keys sort) tr (t', r) ->
  r <> Ok tt ->
  t' = t /\ Forall (fun '(c, _) => forall a, In a (changed c) -> ~ In a (tensor_arrays t)) tr.
Proof. exact (samples_failed p t keys sort others tr t' r). Qed.
Print Assumptions C92_keys_to_samples.

Theorem C92_keys_to_properties p t keys sort others tr t' r :
  NoDup (tensor_arrays t ++ others) ->
  new_arrays (tensor_arrays t ++ others) tr ->
  runs (p_keys_to_properties p t keys sort) tr (t', r) ->
  r <> Ok tt ->
  t' = t /\ Forall (fun '(c, _) => forall a, In a (changed c) -> ~ In a (tensor_arrays t)) tr.
Proof. exact (properties_failed p t keys sort others tr t' r). Qed.
Print Assumptions C92_keys_to_properties.

Example C92_example :
  runs ex_to_samples (fst ex_failed_move) (ex_pointers, snd (snd ex_failed_move)) /\
  new_arrays (tensor_arrays ex_pointers ++ [20]) (fst ex_failed_move) /\
  ex_calls (fst ex_failed_move) =
    [("shape", [0], true); ("create", [0], true); ("move_samples_from", [6; 0], true); ("move_samples_from", [6; 4], true);
     ("shape", [6], true); ("shape", [1], true); ("create", [0], true); ("move_samples_from", [7; 1], true);
     ("move_samples_from", [7; 5], false); ("destroy", [7], true); ("destroy", [6], true)] /\
  snd (snd ex_failed_move) = Err (External (-3) "calling eqs_array_t.move_samples_from failed").
Proof. exact ex_move_fails. Qed.

Example C92_example_properties :
  runs ex_to_properties (fst ex_failed_create) (ex_pointers, snd (snd ex_failed_create)) /\
  new_arrays (tensor_arrays ex_pointers ++ [20]) (fst ex_failed_create) /\
  ex_calls (skipn 12 (fst ex_failed_create)) =
    [("shape", [2], true); ("create", [2], false); ("destroy", [6], true); ("destroy", [7], true)] /\
  snd (snd ex_failed_create) = Err (External (-4) "calling eqs_array_t.create failed").
Proof. exact ex_create_fails. Qed.

(* not for components_to_properties: when reshape fails, the axes of the array stay
   swapped and the component is gone *)
Theorem C92_components_to_properties_refuted : exists tr t' message,
  runs ex_xyz_to_properties tr (t', Err (External 7 message)) /\ new_arrays (tensor_arrays ex_pointers) tr /\ t' <> ex_pointers /\
  exists i j, In (QSwapAxes 0 i j, answer_ok) tr.
Proof. exact ex_components_left. Qed.
Print Assumptions C92_components_to_properties_refuted.

(* C93: a call which fails is the last one, except for destroying arrays, and it is
   what is reported; when no call fails, the failure comes from elsewhere *)
Theorem C93_keys_to_samples p t keys sort tr t' r :
  NoDup (tensor_arrays t) ->
  new_arrays (tensor_arrays t) tr ->
  runs (p_keys_to_samples p t keys sort) tr (t', r) ->
  first_failure (tensor_arrays t) tr r.
Proof. exact (keys_to_samples_first p t keys sort tr t' r). Qed.
Print Assumptions C93_keys_to_samples.

Theorem C93_keys_to_properties p t keys sort tr t' r :
  NoDup (tensor_arrays t) ->
  new_arrays (tensor_arrays t) tr ->
  runs (p_keys_to_properties p t keys sort) tr (t', r) ->
  first_failure (tensor_arrays t) tr r.
Proof. exact (keys_to_properties_first p t keys sort tr t' r). Qed.
Print Assumptions C93_keys_to_properties.

Theorem C93_components_to_properties t variables tr t' r :
  runs (p_components_to_properties t variables) tr (t', r) ->
  first_failure (tensor_arrays t) tr r.
Proof. exact (components_first t variables tr t' r). Qed.
Print Assumptions C93_components_to_properties.

Theorem C93_block_new a samples components properties tr r :
  runs (p_block_new a samples components properties) tr r ->
  first_failure [a] tr r.
Proof. exact (block_new_first a samples components properties tr r). Qed.
Print Assumptions C93_block_new.

Theorem C93_add_gradient b parameter a samples components tr b' r :
  runs (p_add_gradient b parameter a samples components) tr (b', r) ->
  first_failure (a :: block_arrays b) tr r.
Proof. exact (add_gradient_first b parameter a samples components tr b' r). Qed.
Print Assumptions C93_add_gradient.

Theorem C93_block_clone b tr r :
  runs (p_block_clone b) tr r ->
  first_failure (block_arrays b) tr r.
Proof. exact (block_clone_first b tr r). Qed.
Print Assumptions C93_block_clone.

Example C93_example :
  NoDup (tensor_arrays ex_pointers) /\
  (runs ex_to_samples (fst ex_failed_shape) (ex_pointers, snd (snd ex_failed_shape)) /\
   new_arrays (tensor_arrays ex_pointers ++ [20]) (fst ex_failed_shape) /\
   ex_calls (skipn 4 (fst ex_failed_shape)) = [("shape", [6], false); ("destroy", [6], true)] /\
   an_status (snd (nth 4 (fst ex_failed_shape) (QShape 0, ex_null))) = (-3)%Z /\
   snd (snd ex_failed_shape) = Panic "invalid block").
Proof. exact (conj ex_pointers_distinct ex_shape_fails). Qed.

Example C93_example_components :
  runs ex_xyz_to_properties (fst ex_failed_reshape) (snd ex_failed_reshape) /\
  new_arrays (tensor_arrays ex_pointers ++ [20]) (fst ex_failed_reshape) /\
  ex_calls (fst ex_failed_reshape) = [("shape", [0], true); ("swap_axes", [0], true); ("reshape", [0], false)] /\
  snd (snd ex_failed_reshape) = Err (External 7 "calling eqs_array_t.reshape failed") /\
  map (fun b => length (bb_components (tb_values b))) (tm_blocks (fst (snd ex_failed_reshape))) = [0; 1; 1].
Proof. exact ex_reshape_fails. Qed.

(* the status is not always given back: a function which is not NULL and fails can be
   a panic *)
Theorem C93_status_refuted : exists tr t',
  runs ex_to_samples tr (t', Panic "invalid block") /\ new_arrays (tensor_arrays ex_pointers) tr /\
  Forall (fun e => an_null (snd e) = false) tr /\
  exists before c an after, tr = before ++ (c, an) :: after /\ all_work before /\ an_status an = (-3)%Z.
Proof. exact ex_status_lost. Qed.
Print Assumptions C93_status_refuted.

(* C94: with arrays in memory, these programs do the same as the functions of Block.v
   and Tensor.v *)
Theorem C94_keys_to_samples s p t keys sort :
  Forall (fun a => a < s_next s) (tensor_arrays t) ->
  (forall reason, snd (keys_to_samples p (see s t) keys sort) <> Undefined reason) ->
  let '(s', (t', r)) := play s (p_keys_to_samples p t keys sort) in
  (see s' t', r) = keys_to_samples p (see s t) keys sort.
Proof. exact (same_keys_to_samples s p t keys sort). Qed.
Print Assumptions C94_keys_to_samples.

Theorem C94_keys_to_properties s p t keys sort :
  Forall (fun a => a < s_next s) (tensor_arrays t) ->
  (forall reason, snd (keys_to_properties p (see s t) keys sort) <> Undefined reason) ->
  let '(s', (t', r)) := play s (p_keys_to_properties p t keys sort) in
  (see s' t', r) = keys_to_properties p (see s t) keys sort.
Proof. exact (same_keys_to_properties s p t keys sort). Qed.
Print Assumptions C94_keys_to_properties.

Theorem C94_components_to_properties s t variables :
  NoDup (tensor_arrays t) ->
  let '(s', (t', r)) := play s (p_components_to_properties t variables) in
  (see s' t', r) = components_to_properties (see s t) variables.
Proof. exact (play_components s t variables). Qed.
Print Assumptions C94_components_to_properties.

Theorem C94_block_new s a samples components properties :
  (forall reason, tensor_block_new (s_array s a) samples components properties <> Undefined reason) ->
  let '(s', r) := play s (p_block_new a samples components properties) in
  (let? b := r in Ok (see_block s' b)) = tensor_block_new (s_array s a) samples components properties.
Proof. exact (same_block_new s a samples components properties). Qed.
Print Assumptions C94_block_new.

Theorem C94_add_gradient s b parameter a samples components :
  (forall reason, snd (tensor_block_add_gradient (see_block s b) parameter (s_array s a) samples components) <> Undefined reason) ->
  let '(s', (b', r)) := play s (p_add_gradient b parameter a samples components) in
  (see_block s' b', r) = tensor_block_add_gradient (see_block s b) parameter (s_array s a) samples components.
Proof. exact (same_add_gradient s b parameter a samples components). Qed.
Print Assumptions C94_add_gradient.

Example C94_example :
  see ex_store ex_pointers = ex_tensor /\ Forall (fun a => a < s_next ex_store) (tensor_arrays ex_pointers) /\
  NoDup (tensor_arrays ex_pointers) /\
  snd (keys_to_samples Debug (see ex_store ex_pointers) ex_center true) = Ok tt /\
  snd (keys_to_properties Debug (see ex_store ex_pointers) ex_center true) = Ok tt /\
  see (fst (play ex_store ex_to_samples)) (fst (snd (play ex_store ex_to_samples))) = fst (keys_to_samples Debug ex_tensor ex_center true).
Proof. exact ex_same. Qed.

Example C94_example_block :
  (runs (ex_new_block ex_samples_1) (played ex_store (ex_new_block ex_samples_1)) (Ok ex_values) /\
   new_arrays [0; 20] (played ex_store (ex_new_block ex_samples_1)) /\ block_arrays ex_values = [0]) /\
  (runs ex_new_gradient (played ex_store ex_new_gradient) (ex_first, Ok tt) /\
   new_arrays ((1 :: block_arrays ex_values) ++ [20]) (played ex_store ex_new_gradient) /\
   ex_calls (played ex_store ex_new_gradient) = [("origin", [1], true); ("origin", [0], true); ("shape", [1], true)]).
Proof. exact (conj ex_block_works ex_gradient_works). Qed.
