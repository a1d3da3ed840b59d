(* Specification vocabulary, part 4: the C API.

   Only the data types of the model, [run] and [call_body] are used. *)
From Coq Require Import Permutation.
From Verif Require Import Base Labels Array Block Tensor Npy Io Origin CApi Spec SpecTensor SpecIo.
Local Open Scope string_scope.
Local Open Scope list_scope.
Local Open Scope nat_scope.

(** * Programs *)

(* what the program can observe before its call number [i] *)
Definition state_at (p : profile) (w : world) (calls : list (nat * c_call)) (i : nat) : world :=
  fst (run p w (firstn i calls)).

(* call number [i] is [c], made by [thread]; it ended with [result] and gave [v] *)
Definition called (p : profile) (w : world) (calls : list (nat * c_call)) (i : nat) (thread : nat)
    (c : c_call) (v : c_value) (result : c_result) : Prop :=
  nth_error calls i = Some (thread, c) /\ nth_error (snd (run p w calls)) i = Some (v, result).

(* the error of a function which did not succeed *)
Definition error_of (o : outcome unit) (e : error) : Prop :=
  o = Err e \/ exists m, o = Panic m /\ e = Internal m.

(* call number [i] was made by [thread] and failed with [e] *)
Definition failed_with (p : profile) (w : world) (calls : list (nat * c_call)) (i : nat) (thread : nat)
    (e : error) : Prop :=
  exists c v result, called p w calls i thread c v result
    /\ error_of (snd (call_body p thread (state_at p w calls i) c)) e.

(* every call returned to its caller *)
Definition all_returned (p : profile) (w : world) (calls : list (nat * c_call)) : Prop :=
  forall r, In r (snd (run p w calls)) -> exists status, snd r = Returned status.

(** * Data origins *)

(* the name was registered by call number [i], which gave the identifier [id] *)
Definition registered (p : profile) (w : world) (calls : list (nat * c_call)) (i : nat) (name : string)
    (id : nat) : Prop :=
  exists thread memory, called p w calls i thread (RegisterDataOrigin (Some memory) out) (VOrigin id) (Returned 0)
    /\ name = c_str memory.

(* the buffer starts with this C string *)
Definition holds_text (buffer : list ascii) (text : string) : Prop :=
  exists rest, buffer = list_ascii_of_string text ++ nul :: rest.

(** * Labels *)

(* the names and rows in the memory of an eqs_labels_t *)
Definition c_names (c : c_labels) : list string :=
  match cl_names c with
  | Some memory => map c_str (firstn (cl_size c) memory)
  | None => []
  end.

Definition c_rows (c : c_labels) : list (list Z) :=
  match cl_values c with
  | Some memory => take_rows (cl_count c) (cl_size c) memory
  | None => []
  end.

(* all the memory which is described is there, or the pointer is NULL *)
Definition readable (c : c_labels) : Prop :=
  (forall memory, cl_names c = Some memory -> cl_size c <= length memory)
  /\ (forall memory, cl_values c = Some memory -> cl_count c * cl_size c <= length memory).

(** * Arrays and handles *)

(* the arrays which belong to the blocks and tensor maps of a program *)
Definition owned_arrays (w : world) : list nat :=
  flat_map (fun hb => ob_arrays (snd hb)) (w_blocks w)
  ++ flat_map (fun ht => concat (ot_arrays (snd ht))) (w_tensors w).

(** * Programs which can not break their tensor maps *)

(* arrays with data of the right size; RustEmptyArray has no data *)
Definition ordinary_array (a : eqs_array) : Prop := wf_array a /\ a_kind a <> RustEmptyArray.

Definition ordinary_call (c : c_call) : Prop :=
  match c with
  | BlockCreate data _ _ _ => ordinary_array data
  | BlockAddGradient _ _ data _ _ => ordinary_array data
  | _ => True
  end.

(* all arrays are ordinary, and components_to_properties never fails: it can leave
   the blocks half modified (see C30) *)
Definition ordinary (p : profile) (w : world) (calls : list (nat * c_call)) : Prop :=
  (forall thread c, In (thread, c) calls -> ordinary_call c)
  /\ (forall i thread tensor variables v result,
        called p w calls i thread (TensorComponentsToProperties tensor variables) v result -> result = Returned 0).

(** * What calls do to the rest of the program *)

(* nothing undefined happened *)
Definition never_crashed (p : profile) (w : world) (calls : list (nat * c_call)) : Prop :=
  forall v reason, ~ In (v, Crashed reason) (snd (run p w calls)).

(* a name which can be used from Rust *)
Definition utf8_text (memory : string) : Prop :=
  is_utf8 (S (length (list_ascii_of_string (c_str memory)))) (list_ascii_of_string (c_str memory)) = true.

(* the values or a gradient of a block *)
Definition named_part (b : TensorBlock) (name : string) (part : BasicBlock) : Prop :=
  (name = "values" /\ part = tb_values b) \/ (name <> "values" /\ In (name, part) (tb_gradients b)).

(* the block or tensor map behind a handle *)
Definition block_at (w : world) (handle : nat) (b : owned_block) : Prop := In (handle, b) (w_blocks w).
Definition tensor_at (w : world) (handle : nat) (t : owned_tensor) : Prop := In (handle, t) (w_tensors w).

(* the block behind a pointer, which can be one of the blocks of a tensor map *)
Definition points_to (w : world) (block : block_ptr) (b : owned_block) : Prop :=
  (exists handle, block = BlockAt handle /\ block_at w handle b)
  \/ exists tensor index t, block = BlockIn tensor index /\ tensor_at w tensor t
       /\ nth_error (tm_blocks (ot_tensor t)) index = Some (ob_block b)
       /\ nth_error (ot_arrays t) index = Some (ob_arrays b).

(* calls which are given a block, or tensor map, to change *)
Definition changes_block (c : c_call) (handle : nat) : Prop :=
  match c with
  | BlockFree block | BlockAddGradient block _ _ _ _ => block = BlockAt handle
  | TensorCreate _ blocks => In (BlockAt handle) blocks
  | _ => False
  end.

Definition changes_tensor (c : c_call) (handle : nat) : Prop :=
  match c with
  | TensorFree tensor | TensorKeysToProperties tensor _ _ _ | TensorKeysToSamples tensor _ _ _
  | TensorComponentsToProperties tensor _ => tensor = Some handle
  | _ => False
  end.

(* calls which change nothing if they fail *)
Definition transactional (c : c_call) : Prop :=
  match c with
  | TensorCreate _ _ | TensorComponentsToProperties _ _ => False
  | _ => True
  end.

(** * The contract of the callers *)

(* a pointer to at least [count] values *)
Definition holds_values {A} (pointer : option (list A)) (count : nat) : Prop :=
  match pointer with
  | Some memory => count <= length memory
  | None => count = 0
  end.

(* a block which was not freed, that can be changed *)
Definition own_block (w : world) (block : block_ptr) : Prop := exists h b, block = BlockAt h /\ block_at w h b.

(* any block which was not freed *)
Definition live_block (w : world) (block : block_ptr) : Prop := exists b, points_to w block b.

(* NULL or a tensor map which was not freed *)
Definition live_tensor (w : world) (tensor : option nat) : Prop :=
  forall h, tensor = Some h -> exists t, tensor_at w h t.

(* all the arrays of a tensor map come from the same place *)
Definition one_origin (t : TensorMap) : Prop :=
  exists kind, forall b, In b (tm_blocks t) ->
    a_kind (bb_data (tb_values b)) = kind /\ forall name part, In (name, part) (tb_gradients b) -> a_kind (bb_data part) = kind.

Definition mergeable (w : world) (tensor : option nat) : Prop :=
  forall h t, tensor = Some h -> tensor_at w h t -> one_origin (ot_tensor t).

(* what a caller should check before this call; NULL is allowed everywhere but in
   the list of blocks of a new tensor map, and where C has no empty buffer *)
Definition respects (w : world) (c : c_call) : Prop :=
  match c with
  | RegisterDataOrigin _ _ => True
  | GetDataOrigin _ buffer => forall memory, buffer = Some memory -> 0 < length memory
  | LabelsPosition _ values count => holds_values values count
  | BlockCreate _ samples components properties =>
      readable samples /\ Forall readable components /\ readable properties
  | BlockFree block => block = BlockNull \/ own_block w block
  | BlockCopy block | BlockLabels block _ _ _ | BlockData block _ _ | BlockGradientsList block _ _ =>
      block = BlockNull \/ live_block w block
  | BlockAddGradient block _ _ samples components =>
      (block = BlockNull \/ own_block w block) /\ readable samples /\ Forall readable components
  | TensorCreate keys blocks => readable keys /\ forall block, In block blocks -> own_block w block
  | TensorFree tensor | TensorKeys tensor _ | TensorBlockById tensor _ _
  | TensorComponentsToProperties tensor _ | TensorSave _ tensor _ _ => live_tensor w tensor
  | TensorBlocksMatching tensor _ _ selection => live_tensor w tensor /\ readable selection
  | TensorKeysToProperties tensor keys _ _ | TensorKeysToSamples tensor keys _ _ =>
      live_tensor w tensor /\ readable keys /\ mergeable w tensor
  | TensorLoad _ _ _ | LastError => True
  end.

Definition respectful (p : profile) (w : world) (calls : list (nat * c_call)) : Prop :=
  forall i thread c v result, called p w calls i thread c v result -> respects (state_at p w calls i) c.

(** * Files *)

(* calls which can change the file with this name *)
Definition writes_file (c : c_call) (name : string) : Prop :=
  match c with
  | TensorSave (Some path) _ _ _ => c_str path = name
  | _ => False
  end.

(* [names] are the names of all the files of the archive with this name, in some
   order *)
Definition lists_archive (w : world) (name : string) (names : list string) : Prop :=
  forall content, hm_get String.eqb (w_files w) name = Some (Some content) -> Permutation names (map fst content).

(* calls which never report the messages of the operating system or the content
   of a file *)
Definition reportable (c : c_call) : Prop :=
  match c with
  | TensorLoad _ _ _ => False
  | TensorSave _ _ (Some message) _ => has_nul message = false
  | _ => True
  end.

(** * What each function does *)

(* the labels in the memory of an eqs_labels_t *)
Definition describes (c : c_labels) (l : Labels) : Prop :=
  cl_names c <> None /\ (cl_values c = None -> cl_count c = 0) /\ is_labels l (c_names c) (c_rows c).

(* labels given by a caller, with at least one variable *)
Definition given_labels (c : c_labels) : Prop := readable c /\ 0 < cl_size c.

(* arrays which are not used for anything, now or before *)
Definition unused_arrays (w : world) (arrays : list nat) : Prop :=
  NoDup arrays /\ forall a, In a arrays -> ~ In a (owned_arrays w) /\ ~ In a (w_destroyed w).

(** * What is reported for each kind of error *)

(* The documented status of an error (equistore.h, EQS_..._ERROR), and the text
   users see. The decimal digits of the status of a callback are not fixed here. *)
Inductive reported_as : error -> Z -> string -> Prop :=
| ReportInvalidParameter m : reported_as (InvalidParameter m) 1 (String.append "invalid parameter: " m)
| ReportIo m : reported_as (IoError m) 2 (String.append "io error: " m)
| ReportSerialization m : reported_as (Serialization m) 3 (String.append "serialization format error: " m)
| ReportBufferSize m : reported_as (BufferSize m) 254 (String.append "buffer is not big enough: " m)
| ReportExternal status context digits :
    reported_as (External status context) status
      (String.append "external error: " (String.append context (String.append " (status " (String.append digits ")"))))
| ReportInternal m : reported_as (Internal m) 255 (String.append "internal error: " m).
