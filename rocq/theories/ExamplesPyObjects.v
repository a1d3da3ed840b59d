(* Programs for the properties C81 to C84 *)
From Coq Require Import Lia Permutation.
From Verif Require Import Base BaseFacts Labels Array Block Tensor Npy Io Origin CApi Spec SpecTensor SpecIo SpecApi BlockFacts OwnerFacts HandleFacts
  PyIo PyObjects SpecPyObjects PyProgramFacts Examples ExamplesIo ExamplesApi.
Local Open Scope string_scope.
Local Open Scope list_scope.
Local Open Scope nat_scope.

(** * Checking programs *)

(* something about all the objects with this number *)
Definition check_object (s : py_state) (o : nat) (f : py_object -> bool) : bool :=
  forallb (fun ox => negb (fst ox =? o) || f (snd ox)) (py_objects s).

Lemma check_object_sound s o f x : check_object s o f = true -> object_is s o x -> f x = true.
Proof.
  unfold check_object. rewrite forallb_forall. intros H Hx. specialize (H _ Hx). cbn [fst snd] in H. rewrite Nat.eqb_refl in H. exact H.
Qed.

Definition check_current_block (s : py_state) (o : nat) : bool :=
  check_object s o (fun x =>
    match x with
    | PyBlock (BlockIn tensor _) before _ _ _ => before =? moves s tensor
    | _ => true
    end).

Lemma check_current_block_sound s o : check_current_block s o = true -> current_block s o.
Proof. intros H tensor index before owning wrappers parent Hx. apply (check_object_sound _ _ _ _ H) in Hx. apply Nat.eqb_eq. exact Hx. Qed.

Definition check_current_view (s : py_state) (o : nat) : bool :=
  check_object s o (fun x =>
    match x with
    | PyView m None => false
    | PyView m (Some source) =>
        existsb (fun sx => (fst sx =? source) &&
          match m, snd sx with
          | KeysMemory tensor before, PyTensor _ _ => before =? moves s tensor
          | PartMemory array before, PyBlock ptr _ _ _ _ =>
              negb (is_null ptr) && check_current_block s source && (before =? changes s array)
          | _, _ => false
          end) (py_objects s)
    | _ => true
    end).

Lemma check_current_view_sound s o : check_current_view s o = true -> current_view s o.
Proof.
  intros H m parent Hx. apply (check_object_sound _ _ _ _ H) in Hx. destruct parent as [source|]; [|discriminate Hx].
  apply existsb_exists in Hx as ([source' x] & Hin & Hm). apply andb_true_iff in Hm as [E Hm]. apply Nat.eqb_eq in E. cbn [fst snd] in *. subst source'.
  exists source, x. split; [reflexivity|]. split; [exact Hin|]. destruct m, x; try discriminate Hm; [|apply Nat.eqb_eq; exact Hm].
  apply andb_true_iff in Hm as [Hm H3]. apply andb_true_iff in Hm as [H1 H2]. split; [intros ->; discriminate H1|].
  split; [apply check_current_block_sound; exact H2|apply Nat.eqb_eq; exact H3].
Qed.

Lemma check_current_views_sound s l : forallb (check_current_view s) l = true -> Forall (current_view s) l.
Proof. rewrite forallb_forall. intros H. apply Forall_forall. intros o Ho. apply check_current_view_sound. auto. Qed.

Definition check_owning (s : py_state) (o : nat) : bool :=
  check_object s o (fun x => match x with PyBlock _ _ owning _ _ => owning | _ => true end).

Lemma check_owning_sound s o : check_owning s o = true -> owning_block s o.
Proof. intros H ptr before owning wrappers parent Hx. apply (check_object_sound _ _ _ _ H) in Hx. exact Hx. Qed.

Definition check_fresh (s : py_state) (o : nat) : bool :=
  check_object s o (fun x =>
    match x with
    | PyList items => forallb (fun item => check_object s item (fun y => match y with PyBlock ptr _ _ _ _ => negb (is_null ptr) | _ => true end)) items
    | _ => true
    end).

Lemma check_fresh_sound s o : check_fresh s o = true -> fresh_blocks s o.
Proof.
  intros H items item ptr before owning wrappers parent Hx Hin Hi. apply (check_object_sound _ _ _ _ H) in Hx. rewrite forallb_forall in Hx.
  apply (check_object_sound _ _ _ _ (Hx _ Hin)) in Hi. intros ->. discriminate Hi.
Qed.

Definition check_unused (s : py_state) (o : nat) : bool :=
  forallb (fun tx => match snd tx with PyTensor _ (Some l) => negb (l =? o) | _ => true end) (py_objects s).

Lemma check_unused_sound s o : check_unused s o = true -> unused_list s o.
Proof. unfold check_unused. rewrite forallb_forall. intros H t ptr Hx. specialize (H _ Hx). cbn [snd] in H. rewrite Nat.eqb_refl in H. discriminate H. Qed.

Definition check_one_kind (kind : array_kind) (t : TensorMap) : bool :=
  forallb (fun b => forallb (fun a => kind_eqb (a_kind a) kind) (block_arrays b)) (tm_blocks t).

Definition check_one_origin (t : TensorMap) : bool :=
  existsb (fun kind => check_one_kind kind t) [RustNdarray; ForeignArray 2].

Lemma check_one_origin_sound t : check_one_origin t = true -> one_origin t.
Proof.
  intros H. apply existsb_exists in H as (kind & _ & H). exists kind. unfold check_one_kind in H. rewrite forallb_forall in H.
  intros b Hb. specialize (H b Hb). unfold block_arrays in H. cbn [forallb] in H. apply andb_true_iff in H as [H1 H2].
  split; [apply kind_eqb_eq; exact H1|]. intros name part Hp. rewrite forallb_forall in H2. apply kind_eqb_eq; apply H2.
  apply in_map_iff. exists (name, part). auto.
Qed.

Definition check_origins (s : py_state) (o : nat) : bool :=
  check_object s o (fun x =>
    match x with
    | PyTensor ptr _ => forallb (fun ht => negb (fst ht =? ptr) || check_one_origin (ot_tensor (snd ht))) (w_tensors (py_world s))
    | _ => true
    end).

Lemma check_origins_sound s o : check_origins s o = true -> same_origin s o.
Proof.
  intros H ptr blocks Hx h t E Ht. injection E as <-. apply (check_object_sound _ _ _ _ H) in Hx. rewrite forallb_forall in Hx. specialize (Hx _ Ht).
  cbn [fst snd] in Hx. rewrite Nat.eqb_refl in Hx. apply check_one_origin_sound. exact Hx.
Qed.

Definition check_statement (s : py_state) (st : statement) : bool :=
  match st with
  | NewBlock _ view samples components properties labels =>
      match view with None => true | _ => false end && check_readable samples && forallb check_readable components
      && check_readable properties && forallb (check_current_view s) labels
  | CopyOf block | PartOf block _ | LabelsOf block _ _ | GradientsList block => check_current_block s block
  | AddGradient block _ _ view samples components labels =>
      match view with None => true | _ => false end && check_readable samples && forallb check_readable components
      && forallb (check_current_view s) labels && check_owning s block
  | SetList o _ => check_unused s o
  | NewTensor keys labels blocks => check_readable keys && forallb (check_current_view s) labels && check_fresh s blocks
  | Matching _ _ selection labels => check_readable selection && forallb (check_current_view s) labels
  | KeysToProperties tensor keys labels _ _ _ | KeysToSamples tensor keys labels _ _ _ =>
      check_readable keys && forallb (check_current_view s) labels && check_origins s tensor
  | Read view => check_current_view s view
  | _ => true
  end.

Lemma check_statement_sound s st : check_statement s st = true -> careful_statement s st.
Proof.
  destruct st; cbn [check_statement careful_statement]; rewrite ?andb_true_iff; intros H; try exact I;
    auto using check_current_block_sound, check_current_view_sound, check_unused_sound.
  - destruct H as [[[[H1 H2] H3] H4] H5]. destruct view; [discriminate H1|].
    repeat split; auto using check_readable_sound, check_all_readable_sound, check_current_views_sound; apply check_readable_sound; assumption.
  - destruct H as [[[[H1 H2] H3] H4] H5]. destruct view; [discriminate H1|].
    split; [reflexivity|]. split; [apply check_readable_sound; exact H2|]. split; [apply check_all_readable_sound; exact H3|].
    split; [apply check_current_views_sound; exact H4|apply check_owning_sound; exact H5].
  - destruct H as [[H1 H2] H3]. split; [apply check_readable_sound; exact H1|]. split; [apply check_current_views_sound; exact H2|apply check_fresh_sound; exact H3].
  - destruct H as [H1 H2]. split; [apply check_readable_sound; exact H1|apply check_current_views_sound; exact H2].
  - destruct H as [[H1 H2] H3]. split; [apply check_readable_sound; exact H1|]. split; [apply check_current_views_sound; exact H2|apply check_origins_sound; exact H3].
  - destruct H as [[H1 H2] H3]. split; [apply check_readable_sound; exact H1|]. split; [apply check_current_views_sound; exact H2|apply check_origins_sound; exact H3].
Qed.

(* [exception]: the statement which is not checked *)
Fixpoint check_from (p : profile) (s : py_state) (exception : option nat) (program : list statement) : bool :=
  match program with
  | [] => true
  | st :: rest =>
      (match exception with Some 0 => true | _ => check_statement s st end)
      && match py_step p s st with
         | (s, Ok _) | (s, Err _) => check_from p s (match exception with Some (S n) => Some n | _ => None end) rest
         | _ => true
         end
  end.

Lemma check_from_sound p program : forall s exception, check_from p s exception program = true ->
  forall before st after s', program = before ++ st :: after -> exception <> Some (length before) ->
  py_run p s before = Ok s' -> careful_statement s' st.
Proof.
  induction program as [|st0 rest IH]; intros s exception H before st after s' E Hne Hr; [destruct before; discriminate E|].
  cbn [check_from] in H. apply andb_true_iff in H as [H1 H2]. destruct before as [|st1 before]; cbn [app] in E; injection E as -> ->.
  - injection Hr as ->. apply check_statement_sound. destruct exception as [[|n]|]; [destruct (Hne eq_refl)|exact H1|exact H1].
  - cbn [py_run] in Hr. assert (Hne' : match exception with Some (S n) => Some n | _ => None end <> Some (length before)).
    { destruct exception as [[|n]|]; try discriminate. intros E. injection E as ->. apply Hne. reflexivity. }
    destruct (py_step p s st1) as [s1 [v|e|m|r]]; try discriminate Hr; eapply IH; eauto.
Qed.

Lemma check_careful p files program : check_from p (py_start files) None program = true -> careful p files program.
Proof. intros H before st after s E Hr. eapply check_from_sound; [exact H|exact E|discriminate|exact Hr]. Qed.

Lemma check_careful_but p files program exception : check_from p (py_start files) (Some exception) program = true ->
  careful_but p files program exception.
Proof.
  intros H before st after s E Hne Hr. eapply check_from_sound; [exact H|exact E| |exact Hr]. intros E'. injection E' as ->. apply Hne. reflexivity.
Qed.

Fixpoint check_made (p : profile) (s : py_state) (program : list statement) : bool :=
  match program with
  | [] => true
  | st :: rest =>
      match py_step p s st with
      | (s, Ok _) => check_made p s rest
      | (s, Err _) => match st with NewTensor _ _ _ => false | _ => check_made p s rest end
      | _ => match st with NewTensor _ _ _ => false | _ => true end
      end
  end.

Lemma check_made_sound p program : forall s, check_made p s program = true ->
  forall before keys labels blocks after s', program = before ++ NewTensor keys labels blocks :: after ->
  py_run p s before = Ok s' -> exists s1 v, py_step p s' (NewTensor keys labels blocks) = (s1, Ok v).
Proof.
  induction program as [|st0 rest IH]; intros s H before keys labels blocks after s' E Hr; [destruct before; discriminate E|].
  cbn [check_made] in H. destruct before as [|st1 before]; cbn [app] in E; injection E as -> ->.
  - injection Hr as ->. destruct (py_step p s' (NewTensor keys labels blocks)) as [s1 [v|e|m|r]]; try discriminate H. exists s1, v. reflexivity.
  - cbn [py_run] in Hr. destruct (py_step p s st1) as [s1 [v|e|m|r]]; try discriminate Hr; [eapply IH; eauto|].
    destruct st1; try discriminate H; eapply IH; eauto.
Qed.

Lemma check_tensors_made p files program : check_made p (py_start files) program = true -> tensors_made p files program.
Proof. intros H before keys labels blocks after s E Hr. eapply check_made_sound; eassumption. Qed.

(** * A program *)

(* a numpy array *)
Definition ex_numpy (shape : list nat) (first : Z) : eqs_array :=
  mk_array (ForeignArray 2) (a_nd (ex_array shape first)) [] (fun _ => Works).

Definition ex_new_blocks : list statement :=
  [ NewBlock (ex_numpy [2; 2; 3] 100) None (ex_c ["structure"] [[4]; [2]]%Z) [ex_c_xyz] ex_c_properties [];            (* 1 *)
    AddGradient 1 "positions" (ex_numpy [3; 2; 2; 3] 200) None (ex_c ["sample"; "atom"] [[1; 5]; [0; 5]; [1; 6]]%Z)
      [ex_c_cell; ex_c_xyz] [];
    NewBlock (ex_numpy [3; 2; 3] 300) None (ex_c ["structure"] [[2]; [7]; [9]]%Z) [ex_c_xyz] ex_c_properties [];       (* 4 *)
    AddGradient 4 "positions" (ex_numpy [1; 2; 2; 3] 400) None (ex_c ["sample"; "atom"] [[2; 5]]%Z) [ex_c_cell; ex_c_xyz] [];
    NewBlock (ex_numpy [1; 2; 3] 500) None (ex_c ["structure"] [[1]]%Z) [ex_c_xyz] ex_c_properties [];                 (* 7 *)
    AddGradient 7 "positions" (ex_numpy [0; 2; 2; 3] 600) None (ex_c ["sample"; "atom"] []) [ex_c_cell; ex_c_xyz] [] ].

Definition ex_program : list statement :=
  ex_new_blocks ++
  [ CopyOf 4;                                                                                                         (* 11 *)
    (* exceptions: another number of properties, and something which is not a variable *)
    NewBlock (ex_numpy [1; 2; 2] 500) None (ex_c ["structure"] [[1]]%Z) [ex_c_xyz] ex_c_properties [];
    GradientsList 2;
    LabelsOf 11 "positions" 1;                                                                                        (* 13 *)
    NewList [1; 4; 7];                                                                                                (* 14 *)
    NewTensor ex_c_keys [] 14;                                                                                        (* 15 *)
    Forget [1; 4; 7; 14];
    BlockOf 15 1;                                                                                                     (* 16 *)
    PartOf 16 "positions";
    LabelsOf 16 "values" 0;                                                                                           (* 17 *)
    KeysOf 15;                                                                                                        (* 18 *)
    Forget [16];
    Collect [16];
    Read 17;
    NewBlock (ex_numpy [3; 1] 0) None (ex_c ["structure"] [[2]; [7]; [9]]%Z) [] (ex_c ["n"] [[0]]%Z) [17];            (* 20 *)
    Save "tensor.npz" 15 None None;
    KeysToSamples 15 (ex_c ["spin"] []) [] true 0 [1; 1; 0];
    Forget [17; 18];
    Collect [16; 17; 18];
    Load "tensor.npz" (rev (map fst ex_archive)) 0;
    BlockOf 25 0;
    PartOf 26 "values";
    Read 27;
    Forget [25] ].

Lemma ex_program_careful : careful Debug [] ex_program.
Proof. apply check_careful. vm_compute. reflexivity. Qed.

Lemma ex_program_made : tensors_made Debug [] ex_program.
Proof. apply check_tensors_made. vm_compute. reflexivity. Qed.

(** * Programs which are not careful *)

Definition ex_simple (n : Z) : statement :=
  NewBlock (ex_numpy [1; 1; 1] n) None (ex_c ["s"] [[n]]) [ex_c ["c"] [[0]]%Z] (ex_c ["p"] [[0]]%Z) [].
Definition ex_k1 := ex_c ["k"] [[0]]%Z.
Definition ex_k2 := ex_c ["k"] [[0]; [1]]%Z.
Definition ex_move (tensor : nat) : statement := KeysToSamples tensor (ex_c ["k"] []) [] true 0 [].

(* 5 is a tensor map with two blocks *)
Definition ex_two : list statement := [ex_simple 0; ex_simple 1; NewList [1; 3]; NewTensor ex_k2 [] 4].

Definition ex_old_block := ex_two ++ [BlockOf 5 0; ex_move 5; PartOf 6 "values"].
Definition ex_old_keys := ex_two ++ [KeysOf 5; ex_move 5; Read 6].
Definition ex_old_properties := ex_two ++ [BlockOf 5 0; LabelsOf 6 "values" 2; ComponentsToProperties 5 ["c"]; Read 7].

Definition ex_view_gradient :=
  ex_two ++ [BlockOf 5 0; AddGradient 6 "g" (ex_numpy [1; 1; 1] 0) None (ex_c ["sample"] [[0]]%Z) [ex_c ["c"] [[0]]%Z] []; Forget [6]; Collect [6; 7];
             BlockOf 5 0; PartOf 8 "g"].
Definition ex_twice := [ex_simple 0; NewList [1]; NewTensor ex_k1 [] 2; NewTensor ex_k1 [] 2].
Definition ex_clear :=
  [ex_simple 0; NewList [1]; NewTensor ex_k1 [] 2; SetList 2 []; Forget [1]; Collect [0; 1]; BlockOf 3 0; PartOf 4 "values"].

(* 0 is a tensor map with arrays of the library *)
Definition ex_files : list (string * file) := [("tensor.npz", Some ex_archive)].
Definition ex_load : list statement := [Load "tensor.npz" (rev (map fst ex_archive)) 0; BlockOf 0 0].

Definition ex_moved_values := ex_load ++ [CopyOf 1; PartOf 2 "values"; NewList [2]; NewTensor ex_k1 [] 4; Forget [5]; Collect [5]; Read 3].
Definition ex_shared_values :=
  ex_load ++ [PartOf 1 "values";
              NewBlock (ex_numpy [2; 2; 3] 100) (Some 2) (ex_c ["structure"] [[4]; [2]]%Z) [ex_c_xyz] ex_c_properties [];
              KeysToSamples 0 (ex_c ["spin"] []) [] true 0 []; CopyOf 4].
Definition ex_as_array := ex_load ++ [PartOf 1 "values"; AsArray 2; Forget [0; 1; 2]; Collect [0; 1; 2]; Read 3].
Definition ex_mixed :=
  ex_load ++ [CopyOf 1; NewBlock (ex_numpy [1; 2; 3] 500) None (ex_c ["structure"] [[1]]%Z) [ex_c_xyz] ex_c_properties [];
              AddGradient 4 "positions" (ex_numpy [0; 2; 2; 3] 600) None (ex_c ["sample"; "atom"] []) [ex_c_cell; ex_c_xyz] [];
              NewList [2; 4]; NewTensor ex_k2 [] 6; ex_move 7].

(* TensorMap() raises *)
Definition ex_leak := [ex_simple 0; NewList [1]; NewTensor (ex_c ["not a name"] [[0]]%Z) [] 2].
Definition ex_leak_view := ex_two ++ [BlockOf 5 0; ex_simple 2; NewList [8; 6]; NewTensor ex_k2 [] 9].

Lemma old_block_crashes : exists program k o name reason,
  careful_but Debug [] program k /\ nth_error program k = Some (PartOf o name) /\ py_run Debug (py_start []) program = Undefined reason.
Proof.
  exists ex_old_block, 6. do 3 eexists. split; [apply check_careful_but; vm_compute; reflexivity|]. split; [reflexivity|vm_compute; reflexivity].
Qed.

Lemma old_keys_crash : exists program k o reason,
  careful_but Debug [] program k /\ nth_error program k = Some (Read o)
  /\ nth_error program (k - 2) = Some (KeysOf 5) /\ py_run Debug (py_start []) program = Undefined reason.
Proof.
  exists ex_old_keys, 6, 6. eexists. split; [apply check_careful_but; vm_compute; reflexivity|]. split; [reflexivity|]. split; [reflexivity|]. vm_compute. reflexivity.
Qed.

Lemma old_properties_crash : exists program k o reason,
  careful_but Debug [] program k /\ nth_error program k = Some (Read o)
  /\ nth_error program (k - 1) = Some (ComponentsToProperties 5 ["c"]) /\ py_run Debug (py_start []) program = Undefined reason.
Proof.
  exists ex_old_properties, 7, 7. eexists. split; [apply check_careful_but; vm_compute; reflexivity|]. split; [reflexivity|]. split; [reflexivity|]. vm_compute. reflexivity.
Qed.

Lemma view_gradient_crashes : exists program k o parameter data samples components reason,
  careful_but Debug [] program k /\ nth_error program k = Some (AddGradient o parameter data None samples components [])
  /\ py_run Debug (py_start []) program = Undefined reason.
Proof.
  exists ex_view_gradient, 5. do 6 eexists. split; [apply check_careful_but; vm_compute; reflexivity|]. split; [reflexivity|vm_compute; reflexivity].
Qed.

Lemma twice_crashes : exists program k keys blocks reason,
  careful_but Debug [] program k /\ nth_error program k = Some (NewTensor keys [] blocks) /\ py_run Debug (py_start []) program = Undefined reason.
Proof.
  exists ex_twice, 3. do 3 eexists. split; [apply check_careful_but; vm_compute; reflexivity|]. split; [reflexivity|vm_compute; reflexivity].
Qed.

Lemma clear_crashes : exists program k o reason,
  careful_but Debug [] program k /\ nth_error program k = Some (SetList o []) /\ py_run Debug (py_start []) program = Undefined reason.
Proof.
  exists ex_clear, 3. do 2 eexists. split; [apply check_careful_but; vm_compute; reflexivity|]. split; [reflexivity|vm_compute; reflexivity].
Qed.

Lemma moved_values_crash : exists files program k o reason,
  careful_but Debug files program k /\ nth_error program k = Some (Read o) /\ py_run Debug (py_start files) program = Undefined reason
  /\ nth_error program 3 = Some (PartOf 2 "values") /\ nth_error program 5 = Some (NewTensor ex_k1 [] 4).
Proof.
  exists ex_files, ex_moved_values, 8, 3. eexists. split; [apply check_careful_but; vm_compute; reflexivity|]. split; [reflexivity|].
  split; [vm_compute; reflexivity|]. split; reflexivity.
Qed.

Lemma shared_values_crash : exists files program k data view samples components properties reason,
  careful_but Debug files program k /\ nth_error program k = Some (NewBlock data (Some view) samples components properties [])
  /\ py_run Debug (py_start files) program = Undefined reason.
Proof.
  exists ex_files. exists ex_shared_values, 3. do 6 eexists. split; [apply check_careful_but; vm_compute; reflexivity|]. split; [reflexivity|vm_compute; reflexivity].
Qed.

Lemma as_array_crashes : exists files program k o reason,
  careful_but Debug files program k /\ nth_error program k = Some (Read o) /\ nth_error program 3 = Some (AsArray 2)
  /\ py_run Debug (py_start files) program = Undefined reason.
Proof.
  exists ex_files, ex_as_array, 6, 3. eexists. split; [apply check_careful_but; vm_compute; reflexivity|]. split; [reflexivity|].
  split; [reflexivity|]. vm_compute. reflexivity.
Qed.

Lemma mixed_crashes : exists files program k tensor keys reason,
  careful_but Debug files program k /\ nth_error program k = Some (KeysToSamples tensor keys [] true 0 [])
  /\ py_run Debug (py_start files) program = Undefined reason.
Proof.
  exists ex_files. exists ex_mixed, 7. do 3 eexists. split; [apply check_careful_but; vm_compute; reflexivity|]. split; [reflexivity|vm_compute; reflexivity].
Qed.

Lemma failure_leaks : exists program s s',
  careful Debug [] program /\ py_run Debug (py_start []) program = Ok s /\ py_run Debug s (at_end s) = Ok s'
  /\ py_objects s' = [] /\ w_blocks (py_world s') <> [].
Proof.
  exists ex_leak. eexists. eexists. split; [apply check_careful; vm_compute; reflexivity|]. split; [vm_compute; reflexivity|].
  split; [vm_compute; reflexivity|]. split; [reflexivity|]. intros E. vm_compute in E. discriminate E.
Qed.

Lemma view_leaks : exists program s s',
  careful Debug [] program /\ py_run Debug (py_start []) program = Ok s /\ py_run Debug s (at_end s) = Ok s'
  /\ py_objects s' = [] /\ w_blocks (py_world s') <> [].
Proof.
  exists ex_leak_view. eexists. eexists. split; [apply check_careful; vm_compute; reflexivity|]. split; [vm_compute; reflexivity|].
  split; [vm_compute; reflexivity|]. split; [reflexivity|]. intros E. vm_compute in E. discriminate E.
Qed.

(** * The end of the program *)

Lemma ex_end_objects : exists s, py_run Debug (py_start []) ex_program = Ok s
  /\ py_variables s = [27; 26; 20; 15; 13; 11]
  /\ object_is s 26 (PyBlock (BlockIn 6 0) 0 false [] (Some 25)) /\ object_is s 25 (PyTensor 6 None)
  /\ object_is s 11 (PyBlock (BlockAt 3) 0 true [9; 10] None)
  /\ object_is s 27 (PyView (PartMemory 14 0) (Some 26)) /\ object_is s 12 (PyWrapper 8 None [])
  /\ current_block s 26 /\ current_block s 11 /\ current_view s 27 /\ unreachable s [12] = true.
Proof.
  eexists. split; [vm_compute; reflexivity|]. split; [reflexivity|].
  split; [unfold object_is; cbn; tauto|]. split; [unfold object_is; cbn; tauto|]. split; [unfold object_is; cbn; tauto|].
  split; [unfold object_is; cbn; tauto|]. split; [unfold object_is; cbn; tauto|].
  split; [apply check_current_block_sound; vm_compute; reflexivity|]. split; [apply check_current_block_sound; vm_compute; reflexivity|].
  split; [apply check_current_view_sound; vm_compute; reflexivity|]. vm_compute. reflexivity.
Qed.
