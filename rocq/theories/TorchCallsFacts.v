(* Proofs about TorchCalls.v *)
From Verif Require Import Base BaseFacts Array ArrayFacts Strided StridedFacts Numpy SpecNumpy NumpyFacts Torch TorchCalls.
Local Open Scope string_scope.
Local Open Scope list_scope.
Local Open Scope nat_scope.

(** * Without types and devices *)

Definition as_numpy (s : torch_state) : np_state := mk_np_state (ts_memory s) (map (option_map tk_array) (ts_tensors s)).

Lemma live_map {A B} (g : A -> B) l i : live (map (option_map g) l) i = option_map g (live l i).
Proof. unfold live. rewrite nth_error_map. destruct (nth_error l i) as [[x|]|]; reflexivity. Qed.

Lemma map_set_nth {A B} (g : A -> B) l i x : map g (set_nth l i x) = set_nth (map g l) i (g x).
Proof. revert i. induction l as [|y l IH]; intros [|i]; cbn; try reflexivity. rewrite IH. reflexivity. Qed.

Lemma set_nth_id {A} (l : list A) i x : nth_error l i = Some x -> set_nth l i x = l.
Proof. revert i. induction l as [|y l IH]; intros [|i] H; cbn in *; try discriminate; [congruence|]. rewrite IH; auto. Qed.

Lemma live_nth {A} (l : list (option A)) i x : live l i = Some x -> nth_error l i = Some (Some x).
Proof. unfold live. destruct (nth_error l i) as [[y|]|]; congruence. Qed.

(* the move is refused by torch, but not by numpy *)
Definition refused (recording : bool) (s : torch_state) (c : command) : Prop :=
  match c with
  | MoveSamples o i _ _ _ =>
      o <> i /\ exists output input, live (ts_tensors s) o = Some output /\ live (ts_tensors s) i = Some input /\
      (tk_device input <> tk_device output \/ np_dtype (tk_array input) <> np_dtype (tk_array output) \/ (recording = true /\ tk_refused output = true))
  | _ => False
  end.

Lemma type_eqb_spec t1 t2 : np_type_eqb t1 t2 = true <-> t1 = t2.
Proof.
  destruct t1, t2; cbn; try (split; congruence). rewrite Nat.eqb_eq. split; congruence.
Qed.

Lemma torch_move_cases f recording m input output samples start stop :
  (torch_move f recording m input output samples start stop = np_move_samples f m (tk_array input) (tk_array output) samples start stop
   /\ tk_device input = tk_device output /\ np_dtype (tk_array input) = np_dtype (tk_array output) /\ (recording = true -> tk_refused output = false))
  \/ (torch_move f recording m input output samples start stop = None
      /\ (tk_device input <> tk_device output \/ np_dtype (tk_array input) <> np_dtype (tk_array output) \/ (recording = true /\ tk_refused output = true))).
Proof.
  unfold torch_move. destruct (String.eqb_spec (tk_device input) (tk_device output)) as [Hd|Hd]; [|right; auto].
  destruct (np_type_eqb _ _) eqn:Et; [apply type_eqb_spec in Et|right; split; [reflexivity|]; right; left; intros K; apply type_eqb_spec in K; congruence].
  cbn [andb]. destruct recording; [destruct (tk_refused output) eqn:Er|]; cbn [andb negb].
  - right. auto.
  - left. auto.
  - left. repeat split; auto. intros K. discriminate.
Qed.

Lemma step_as_numpy f recording s c :
  (as_numpy (fst (torch_step f recording s c)) = fst (numpy_step f (as_numpy s) c) /\ snd (torch_step f recording s c) = snd (numpy_step f (as_numpy s) c))
  \/ (refused recording s c /\ snd (torch_step f recording s c) = Failed /\
      exists o i samples start stop, c = MoveSamples o i samples start stop /\
      as_numpy (fst (torch_step f recording s c)) = mk_np_state (ts_memory s) (set_nth (np_arrays (as_numpy s)) o None)).
Proof.
  destruct c as [i|i|i shape|i|i|i shape|i x y|o i samples start stop]; cbn [torch_step numpy_step as_numpy np_memory np_arrays].
  1-7: rewrite live_map; destruct (live (ts_tensors s) i) as [t|]; cbn [option_map]; try (left; split; reflexivity).
  - left. unfold np_create, np_new. cbn [fst snd]. unfold as_numpy. cbn [ts_memory ts_tensors]. rewrite map_app. split; reflexivity.
  - left. unfold np_copy, np_new. cbn [fst snd]. unfold as_numpy. cbn [ts_memory ts_tensors]. rewrite map_app. split; reflexivity.
  - left. cbn [fst snd]. unfold as_numpy. cbn [ts_memory ts_tensors]. rewrite map_set_nth. split; reflexivity.
  - left. destruct (np_reshape f (ts_memory s) (tk_array t) shape) as [[m a]|]; [|split; reflexivity]. cbn [fst snd]. unfold as_numpy.
    cbn [ts_memory ts_tensors]. rewrite map_set_nth. split; reflexivity.
  - left. destruct (np_swap_axes (tk_array t) x y) as [a|]; [|split; reflexivity]. cbn [fst snd]. unfold as_numpy.
    cbn [ts_memory ts_tensors]. rewrite map_set_nth. split; reflexivity.
  - rewrite !live_map. destruct (Nat.eqb_spec o i) as [|Hoi]; [left; split; reflexivity|].
    destruct (live (ts_tensors s) o) as [output|] eqn:Eo; [|left; split; reflexivity].
    destruct (live (ts_tensors s) i) as [input|] eqn:Ei; [|left; split; reflexivity]. cbn [option_map].
    destruct (torch_move_cases f recording (ts_memory s) input output samples start stop) as [(E & _)|(E & Hr)]; rewrite E.
    + left. destruct (np_move_samples f (ts_memory s) (tk_array input) (tk_array output) samples start stop) as [m'|]; cbn [fst snd]; unfold as_numpy; cbn [ts_memory ts_tensors];
        rewrite map_set_nth; [|split; reflexivity]. split; [|reflexivity]. f_equal. apply set_nth_id.
      cbn [option_map]. rewrite nth_error_map, (live_nth _ _ _ Eo). reflexivity.
    + right. split; [cbn; split; [exact Hoi|]; exists output, input; auto|]. split; [reflexivity|].
      exists o, i, samples, start, stop. split; [reflexivity|]. cbn [fst]. unfold as_numpy. cbn [ts_memory ts_tensors np_arrays]. rewrite map_set_nth. reflexivity.
Qed.

Lemma torch_apart_step f recording n m0 s c : follows_numpy f -> apart n m0 (as_numpy s) -> not_moved_to n c ->
  apart n m0 (as_numpy (fst (torch_step f recording s c))).
Proof.
  intros Hf H Hc. destruct (step_as_numpy f recording s c) as [(E & _)|(_ & _ & o & i & samples & start & stop & _ & E)]; rewrite E.
  - apply apart_step; assumption.
  - exact (apart_destroy n m0 (as_numpy s) o H).
Qed.

(** * Outputs are never refused because of gradients *)

Definition free (n : nat) (s : torch_state) : Prop := forall i t, n <= i -> live (ts_tensors s) i = Some t -> tk_refused t = false.

Lemma live_app {A} (l : list (option A)) x i y : live (l ++ [x]) i = Some y -> live l i = Some y \/ (i = length l /\ x = Some y).
Proof.
  unfold live. destruct (Nat.lt_ge_cases i (length l)) as [H|H].
  - rewrite nth_error_app1 by exact H. auto.
  - rewrite nth_error_app2 by exact H. destruct (i - length l) as [|k] eqn:E; cbn.
    + intros K. right. split; [lia|]. destruct x; congruence.
    + destruct k; discriminate.
Qed.

Lemma live_set_inv {A} (l : list (option A)) i x j y : live (set_nth l i x) j = Some y -> (j = i /\ x = Some y) \/ (j <> i /\ live l j = Some y).
Proof.
  rewrite live_set. destruct (Nat.eqb_spec j i) as [->|H]; cbn [andb]; [|auto]. destruct (Nat.ltb_spec i (length l)) as [Hl|Hl]; [auto|].
  intros K. exfalso. apply live_lt in K. lia.
Qed.

Lemma free_step f recording n s c : n <= length (ts_tensors s) -> free n s -> free n (fst (torch_step f recording s c)).
Proof.
  intros Hlen H. destruct c as [i|i|i shape|i|i|i shape|i x y|o i samples start stop]; cbn [torch_step]; try exact H.
  - destruct (live (ts_tensors s) i) as [t|]; [|exact H]. unfold np_create, np_new. cbn [fst].
    intros j u Hj Hu. cbn [ts_tensors] in Hu. apply live_app in Hu as [Hu|[_ Hu]]; [exact (H j u Hj Hu)|]. inversion Hu. reflexivity.
  - destruct (live (ts_tensors s) i) as [t|]; [|exact H]. unfold np_copy, np_new. cbn [fst].
    intros j u Hj Hu. cbn [ts_tensors] in Hu. apply live_app in Hu as [Hu|[_ Hu]]; [exact (H j u Hj Hu)|]. inversion Hu. reflexivity.
  - destruct (live (ts_tensors s) i) as [t|]; [|exact H]. intros j u Hj Hu. cbn [fst ts_tensors] in Hu. apply live_set_inv in Hu as [[_ Hu]|[_ Hu]]; [discriminate|exact (H j u Hj Hu)].
  - destruct (live (ts_tensors s) i) as [t|] eqn:Ei; [|exact H]. destruct (np_reshape _ _ _ _) as [[m a]|]; [|exact H].
    intros j u Hj Hu. cbn [fst ts_tensors] in Hu. apply live_set_inv in Hu as [[-> Hu]|[_ Hu]]; [|exact (H j u Hj Hu)].
    inversion Hu. cbn [tk_refused]. rewrite (H i t Hj Ei). apply andb_false_r.
  - destruct (live (ts_tensors s) i) as [t|] eqn:Ei; [|exact H]. destruct (np_swap_axes _ _ _) as [a|]; [|exact H].
    intros j u Hj Hu. cbn [fst ts_tensors] in Hu. apply live_set_inv in Hu as [[-> Hu]|[_ Hu]]; [|exact (H j u Hj Hu)].
    inversion Hu. cbn [tk_refused]. exact (H i t Hj Ei).
  - destruct (o =? i); [exact H|]. destruct (live (ts_tensors s) o) as [output|] eqn:Eo; [|exact H].
    destruct (live (ts_tensors s) i) as [input|]; [|exact H]. destruct (torch_move _ _ _ _ _ _ _ _) as [m|]; intros j u Hj Hu; cbn [fst ts_tensors] in Hu;
      apply live_set_inv in Hu as [[-> Hu]|[_ Hu]]; try exact (H j u Hj Hu); [|discriminate]. inversion Hu. cbn [tk_refused]. exact (H o output Hj Eo).
Qed.

(** * One device and one type *)

Definition uniform (device : string) (t : np_type) (s : torch_state) : Prop :=
  forall i x, live (ts_tensors s) i = Some x -> tk_device x = device /\ np_dtype (tk_array x) = t.

Lemma reshape_type f m a shape m' a' : np_reshape f m a shape = Some (m', a') -> np_dtype a' = np_dtype a.
Proof.
  unfold np_reshape. destruct (_ =? _); [|discriminate]. destruct (np_view _ _ _ _); intros E; inversion E; reflexivity.
Qed.

Lemma swap_type a x y a' : np_swap_axes a x y = Some a' -> np_dtype a' = np_dtype a.
Proof. unfold np_swap_axes. destruct (_ && _); [|discriminate]. intros E. inversion E. reflexivity. Qed.

Lemma uniform_step f recording device t s c : uniform device t s -> uniform device t (fst (torch_step f recording s c)).
Proof.
  intros H. destruct c as [i|i|i shape|i|i|i shape|i x y|o i samples start stop]; cbn [torch_step]; try exact H.
  - destruct (live (ts_tensors s) i) as [u|] eqn:Ei; [|exact H]. unfold np_create, np_new. cbn [fst].
    intros j v Hv. cbn [ts_tensors] in Hv. apply live_app in Hv as [Hv|[_ Hv]]; [exact (H j v Hv)|]. inversion Hv. exact (H i u Ei).
  - destruct (live (ts_tensors s) i) as [u|] eqn:Ei; [|exact H]. unfold np_copy, np_new. cbn [fst].
    intros j v Hv. cbn [ts_tensors] in Hv. apply live_app in Hv as [Hv|[_ Hv]]; [exact (H j v Hv)|]. inversion Hv. exact (H i u Ei).
  - destruct (live (ts_tensors s) i) as [u|]; [|exact H]. intros j v Hv. cbn [fst ts_tensors] in Hv. apply live_set_inv in Hv as [[_ Hv]|[_ Hv]]; [discriminate|exact (H j v Hv)].
  - destruct (live (ts_tensors s) i) as [u|] eqn:Ei; [|exact H]. destruct (np_reshape _ _ _ _) as [[m a]|] eqn:Er; [|exact H]. apply reshape_type in Er.
    intros j v Hv. cbn [fst ts_tensors] in Hv. apply live_set_inv in Hv as [[-> Hv]|[_ Hv]]; [|exact (H j v Hv)].
    inversion Hv. destruct (H i u Ei) as [Ha Hb]. split; [exact Ha|]. cbn [tk_array tk_tensor tt_array]. congruence.
  - destruct (live (ts_tensors s) i) as [u|] eqn:Ei; [|exact H]. destruct (np_swap_axes _ _ _) as [a|] eqn:Er; [|exact H]. apply swap_type in Er.
    intros j v Hv. cbn [fst ts_tensors] in Hv. apply live_set_inv in Hv as [[-> Hv]|[_ Hv]]; [|exact (H j v Hv)].
    inversion Hv. destruct (H i u Ei) as [Ha Hb]. split; [exact Ha|]. cbn [tk_array tk_tensor tt_array]. congruence.
  - destruct (o =? i); [exact H|]. destruct (live (ts_tensors s) o) as [output|] eqn:Eo; [|exact H].
    destruct (live (ts_tensors s) i) as [input|]; [|exact H]. destruct (torch_move _ _ _ _ _ _ _ _) as [m|]; intros j v Hv; cbn [fst ts_tensors] in Hv;
      apply live_set_inv in Hv as [[-> Hv]|[_ Hv]]; try exact (H j v Hv); [|discriminate]. inversion Hv. exact (H o output Eo).
Qed.

Lemma not_refused recording device t n s c : uniform device t s -> free n s -> not_moved_to n c -> ~ refused recording s c.
Proof.
  intros Hu Hf Hc. destruct c as [i|i|i shape|i|i|i shape|i x y|o i samples start stop]; try (intros []; fail).
  intros (_ & output & input & Ho & Hi & [K|[K|[_ K]]]).
  - apply K. rewrite (proj1 (Hu _ _ Ho)), (proj1 (Hu _ _ Hi)). reflexivity.
  - apply K. rewrite (proj2 (Hu _ _ Ho)), (proj2 (Hu _ _ Hi)). reflexivity.
  - rewrite (Hf _ _ Hc Ho) in K. discriminate.
Qed.

Lemma torch_programs_same f recording origin device t p : forall n m0 s arrays,
  follows_numpy f -> apart n m0 (as_numpy s) -> uniform device t s -> free n s ->
  Forall2 (alike origin t (ts_memory s)) (np_arrays (as_numpy s)) arrays -> regular n p arrays ->
  run (torch_step f recording) p s = run array_step p arrays.
Proof.
  induction p as [|c next IH]; intros n m0 s arrays Hf Hap Hu Hfree H Hr; [reflexivity|]. destruct Hr as [Hc Hr]. cbn [run].
  assert (Hn : not_moved_to n c) by (destruct c; try exact I; exact (proj1 Hc)).
  destruct (steps_same f origin t n m0 (as_numpy s) arrays c Hf Hap H Hc) as [E H'].
  pose proof (torch_apart_step f recording n m0 s c Hf Hap Hn) as Hap'.
  assert (Hlen : n <= length (ts_tensors s)) by (pose proof (ap_length _ _ _ Hap) as K; cbn in K; rewrite map_length in K; exact K).
  pose proof (free_step f recording n s c Hlen Hfree) as Hfree'.
  pose proof (uniform_step f recording device t s c Hu) as Hu'.
  destruct (step_as_numpy f recording s c) as [(E1 & E2)|(K & _)]; [|contradiction (not_refused _ _ _ _ _ _ Hu Hfree Hn K)].
  destruct (torch_step f recording s c) as [s' r]. cbn [fst snd] in *. rewrite <- E1 in H'. rewrite <- E2 in E.
  destruct (array_step arrays c) as [arrays' r']. cbn [fst snd] in *. subst r'. f_equal. exact (IH r n m0 s' arrays' Hf Hap' Hu' Hfree' H' Hr).
Qed.

(** * Properties *)

Lemma torch_start m tensors : as_numpy (given_tensors m tensors) = mk_np_state m (map Some (map tk_array tensors)).
Proof. unfold as_numpy, given_tensors. cbn [ts_memory ts_tensors]. rewrite !map_map. reflexivity. Qed.

Lemma torch_apart_start m tensors : Forall (fun t => in_memory m (tk_array t)) tensors -> apart (length tensors) m (as_numpy (given_tensors m tensors)).
Proof.
  intros H. rewrite torch_start. rewrite <- (map_length tk_array tensors). apply apart_start. apply Forall_map. exact H.
Qed.

Lemma torch_free_start m tensors : free (length tensors) (given_tensors m tensors).
Proof. intros i t Hi Ht. apply live_lt in Ht. cbn in Ht. rewrite map_length in Ht. lia. Qed.

Lemma torch_same f recording origin device t m tensors arrays p :
  follows_numpy f -> Forall (fun x => in_memory m (tk_array x) /\ tk_device x = device /\ np_dtype (tk_array x) = t) tensors ->
  Forall2 (fun x array => shown origin m (tk_array x) array) tensors arrays -> regular (length tensors) p (map Some arrays) ->
  run (torch_step f recording) p (given_tensors m tensors) = run array_step p (map Some arrays).
Proof.
  intros Hf Hm Hs Hr. eapply (torch_programs_same f recording origin device t p (length tensors) m); [exact Hf| | |apply torch_free_start| |exact Hr].
  - apply torch_apart_start. eapply Forall_impl; [|exact Hm]. intros x Hx. exact (proj1 Hx).
  - intros i x Hx. unfold given_tensors, live in Hx. cbn [ts_tensors] in Hx. rewrite nth_error_map in Hx. destruct (nth_error tensors i) as [y|] eqn:E; [|discriminate].
    inversion Hx. subst y. rewrite Forall_forall in Hm. apply nth_error_In in E. exact (proj2 (Hm x E)).
  - rewrite torch_start. cbn [np_arrays given_tensors ts_memory]. clear Hr. induction Hs as [|x array l l' Hab Hs IH]; cbn; constructor; pose proof (Forall_inv Hm) as (_ & _ & Ht); pose proof (Forall_inv_tail Hm) as Hm'; [|auto].
    split; [exact Ht|exact Hab].
Qed.

Lemma torch_run_invariants f recording n m0 commands : forall s, follows_numpy f -> apart n m0 (as_numpy s) -> free n s -> Forall (not_moved_to n) commands ->
  apart n m0 (as_numpy (torch_run f recording s commands)) /\ free n (torch_run f recording s commands).
Proof.
  induction commands as [|c commands IH]; intros s Hf H Hfree Hc; [split; assumption|]. inversion Hc; subst. cbn [torch_run fold_left].
  apply IH; [exact Hf|apply torch_apart_step; assumption| |assumption].
  apply free_step; [|exact Hfree]. pose proof (ap_length _ _ _ H) as K. cbn in K. rewrite map_length in K. exact K.
Qed.

Lemma torch_user_memory f recording m tensors commands : follows_numpy f -> Forall (fun t => in_memory m (tk_array t)) tensors ->
  Forall (not_moved_to (length tensors)) commands -> firstn (length m) (ts_memory (torch_run f recording (given_tensors m tensors) commands)) = m.
Proof.
  intros Hf Hm Hc.
  exact (ap_user _ _ _ (proj1 (torch_run_invariants f recording _ m commands _ Hf (torch_apart_start m tensors Hm) (torch_free_start m tensors) Hc))).
Qed.

Lemma torch_moves_allowed f recording m tensors commands o i samples start stop output input m' :
  follows_numpy f -> Forall (fun t => in_memory m (tk_array t)) tensors -> Forall (not_moved_to (length tensors)) commands ->
  let s := torch_run f recording (given_tensors m tensors) commands in
  length tensors <= o -> o <> i -> live (ts_tensors s) o = Some output -> live (ts_tensors s) i = Some input ->
  tk_device input = tk_device output -> np_dtype (tk_array input) = np_dtype (tk_array output) ->
  np_move_samples f (ts_memory s) (tk_array input) (tk_array output) samples start stop = Some m' ->
  snd (torch_step f recording s (MoveSamples o i samples start stop)) = Done.
Proof.
  intros Hf Hm Hc s Ho Hoi Eo Ei Hd Ht Em.
  destruct (torch_run_invariants f recording _ m commands _ Hf (torch_apart_start m tensors Hm) (torch_free_start m tensors) Hc) as [_ Hfree]. fold s in Hfree.
  cbn [torch_step]. destruct (Nat.eqb_spec o i); [contradiction|]. rewrite Eo, Ei.
  destruct (torch_move_cases f recording (ts_memory s) input output samples start stop) as [(E & _)|(E & [K|[K|[_ K]]])].
  - rewrite E, Em. reflexivity.
  - contradiction.
  - contradiction.
  - rewrite (Hfree o output Ho Eo) in K. discriminate.
Qed.

(** * Gradients *)

Definition same_values (s1 s2 : torch_state) : Prop :=
  ts_tensors s1 = ts_tensors s2 /\ length (ts_memory s1) = length (ts_memory s2) /\
  forall i t, live (ts_tensors s1) i = Some t -> tk_grad t = false ->
    nth (np_buffer (tk_array t)) (ts_memory s1) [] = nth (np_buffer (tk_array t)) (ts_memory s2) [].

Lemma same_elements m1 m2 a : nth (np_buffer a) m1 [] = nth (np_buffer a) m2 [] -> np_elements m1 a = np_elements m2 a.
Proof. intros H. apply map_ext. intros idx. unfold np_get. rewrite H. reflexivity. Qed.

Lemma move_other_memory f m1 m2 input output samples start stop m1' :
  np_move_samples f m1 input output samples start stop = Some m1' -> exists m2', np_move_samples f m2 input output samples start stop = Some m2'.
Proof.
  unfold np_move_samples. destruct (np_shape input) as [|n_in [|c_in in_shape]]; try discriminate.
  destruct (np_shape output) as [|n_out [|c_out out_shape]]; try discriminate. destruct (_ && _); [|discriminate]. intros _. eexists. reflexivity.
Qed.

Lemma move_same_buffer f m1 m2 input output samples start stop m1' m2' :
  np_move_samples f m1 input output samples start stop = Some m1' -> np_move_samples f m2 input output samples start stop = Some m2' ->
  nth (np_buffer input) m1 [] = nth (np_buffer input) m2 [] -> nth (np_buffer output) m1 [] = nth (np_buffer output) m2 [] ->
  np_buffer output < length m1 -> np_buffer output < length m2 ->
  nth (np_buffer output) m1' [] = nth (np_buffer output) m2' [].
Proof.
  unfold np_move_samples. destruct (np_shape input) as [|n_in [|c_in in_shape]]; try discriminate.
  destruct (np_shape output) as [|n_out [|c_out out_shape]]; try discriminate. destruct (_ && _); [|discriminate].
  intros E1 E2 Hi Ho H1 H2. inversion E1. inversion E2. rewrite !nth_set_this by assumption. unfold np_get. rewrite Hi, Ho. reflexivity.
Qed.

Lemma buffer_lt n m0 s i t : apart n m0 (as_numpy s) -> live (ts_tensors s) i = Some t -> np_buffer (tk_array t) < length (ts_memory s).
Proof.
  intros H Hi. apply (in_memory_lt (np_memory (as_numpy s))). apply (ap_memory _ _ _ H i). cbn [as_numpy np_arrays]. rewrite live_map, Hi. reflexivity.
Qed.

Lemma buffer_other n m0 s i j t u : apart n m0 (as_numpy s) -> n <= i -> j <> i -> live (ts_tensors s) i = Some t -> live (ts_tensors s) j = Some u ->
  np_buffer (tk_array u) <> np_buffer (tk_array t).
Proof.
  intros H Hn Hj Hi Hu. apply (proj2 (proj2 (ap_new _ _ _ H i (tk_array t) Hn ltac:(cbn [as_numpy np_arrays]; rewrite live_map, Hi; reflexivity))) j); [exact Hj|].
  cbn [as_numpy np_arrays]. rewrite live_map, Hu. reflexivity.
Qed.

Lemma same_values_new n m0 s1 s2 l b1 b2 : apart n m0 (as_numpy s1) -> same_values s1 s2 ->
  (forall i t, live l i = Some t -> tk_grad t = false ->
     (exists j u, live (ts_tensors s1) j = Some u /\ tk_grad u = false /\ np_buffer (tk_array u) = np_buffer (tk_array t))
     \/ (np_buffer (tk_array t) = length (ts_memory s1) /\ b1 = b2)) ->
  same_values (mk_torch_state (ts_memory s1 ++ [b1]) l) (mk_torch_state (ts_memory s2 ++ [b2]) l).
Proof.
  intros Hap (Et & El & H) Hl. split; [reflexivity|]. cbn [ts_memory ts_tensors]. split; [rewrite !app_length, El; reflexivity|].
  intros i t Hi Hg. destruct (Hl i t Hi Hg) as [(j & u & Hj & Hu & Eb)|[Eb E]].
  - rewrite <- Eb. pose proof (buffer_lt _ _ _ _ _ Hap Hj) as K. rewrite !app_nth1 by lia. exact (H j u Hj Hu).
  - rewrite Eb. rewrite app_nth2 by lia. rewrite El, app_nth2 by lia. rewrite !Nat.sub_diag. cbn. exact E.
Qed.

Lemma same_values_step f n m0 s1 s2 c : apart n m0 (as_numpy s1) -> not_moved_to n c -> same_values s1 s2 ->
  same_values (fst (torch_step f true s1 c)) (fst (torch_step f true s2 c)).
Proof.
  intros Hap Hc Hs. pose proof Hs as (Et & El & H). destruct c as [i|i|i shape|i|i|i shape|i x y|o i samples start stop]; cbn [torch_step]; rewrite <- Et; try exact Hs.
  - destruct (live (ts_tensors s1) i) as [t|] eqn:Ei; [|exact Hs]. unfold np_create, np_new. cbn [fst]. rewrite <- El. apply (same_values_new n m0); [exact Hap|exact Hs|].
    intros j u Hj Hu. apply live_snoc in Hj as [[_ Hj]|[_ ->]]; [left; exists j, u; auto|right; auto].
  - destruct (live (ts_tensors s1) i) as [t|] eqn:Ei; [|exact Hs]. unfold np_copy, np_new. cbn [fst]. rewrite <- El. apply (same_values_new n m0); [exact Hap|exact Hs|].
    intros j u Hj Hu. apply live_snoc in Hj as [[_ Hj]|[_ ->]]; [left; exists j, u; auto|right; split; [reflexivity|]]. apply same_elements. exact (H i t Ei Hu).
  - destruct (live (ts_tensors s1) i) as [t|] eqn:Ei; [|exact Hs]. split; [reflexivity|]. split; [exact El|]. cbn [fst ts_tensors ts_memory].
    intros j u Hj Hu. apply live_set_inv in Hj as [[_ Hj]|[_ Hj]]; [discriminate|]. exact (H j u Hj Hu).
  - destruct (live (ts_tensors s1) i) as [t|] eqn:Ei; [|exact Hs]. unfold np_reshape. destruct (_ =? _); [|exact Hs]. destruct (np_view _ _ _ _) as [strides|].
    + cbn [fst]. split; [reflexivity|]. split; [exact El|]. cbn [ts_tensors ts_memory]. intros j u Hj Hu. apply live_set_inv in Hj as [[_ Hj]|[_ Hj]]; [|exact (H j u Hj Hu)].
      inversion Hj. subst u. exact (H i t Ei Hu).
    + unfold np_new. cbn [fst]. rewrite <- El. apply (same_values_new n m0); [exact Hap|exact Hs|].
      intros j u Hj Hu. apply live_set_inv in Hj as [[_ Hj]|[_ Hj]]; [|left; exists j, u; auto]. inversion Hj. subst u. right. split; [reflexivity|].
      apply same_elements. exact (H i t Ei Hu).
  - destruct (live (ts_tensors s1) i) as [t|] eqn:Ei; [|exact Hs]. destruct (np_swap_axes (tk_array t) x y) as [a|] eqn:Es; [|exact Hs].
    cbn [fst]. split; [reflexivity|]. split; [exact El|]. cbn [ts_tensors ts_memory]. intros j u Hj Hu. apply live_set_inv in Hj as [[_ Hj]|[_ Hj]]; [|exact (H j u Hj Hu)].
    inversion Hj. subst u. unfold np_swap_axes in Es. destruct (_ && _); [|discriminate]. inversion Es. exact (H i t Ei Hu).
  - destruct (Nat.eqb_spec o i) as [|Hoi]; [exact Hs|]. destruct (live (ts_tensors s1) o) as [output|] eqn:Eo; [|exact Hs].
    destruct (live (ts_tensors s1) i) as [input|] eqn:Ei; [|exact Hs].
    assert (Hfail : same_values (mk_torch_state (ts_memory s1) (set_nth (ts_tensors s1) o None)) (mk_torch_state (ts_memory s2) (set_nth (ts_tensors s1) o None))).
    { split; [reflexivity|]. split; [exact El|]. cbn [ts_tensors ts_memory]. intros j u Hj Hu. apply live_set_inv in Hj as [[_ Hj]|[_ Hj]]; [discriminate|exact (H j u Hj Hu)]. }
    unfold torch_move. destruct (_ && _); [|exact Hfail].
    destruct (np_move_samples f (ts_memory s1) (tk_array input) (tk_array output) samples start stop) as [m1|] eqn:E1.
    + destruct (move_other_memory f _ (ts_memory s2) _ _ _ _ _ _ E1) as [m2 E2]. rewrite E2. cbn [fst]. split; [reflexivity|]. cbn [ts_tensors ts_memory].
      destruct (move_only_output _ _ _ _ _ _ _ _ E1) as (b1 & Eb1 & _). destruct (move_only_output _ _ _ _ _ _ _ _ E2) as (b2 & Eb2 & _).
      split; [subst m1 m2; rewrite !set_nth_length; exact El|]. intros j u Hj Hu. apply live_set_inv in Hj as [[_ Hj]|[Hne Hj]].
      * inversion Hj. subst u. unfold tk_grad in Hu. cbn [tk_tensor tt_requires_grad] in Hu. apply orb_false_elim in Hu as [Hgo Hgi]. cbn [andb] in Hgi.
        change (tk_array (mk_tracked _ _)) with (tk_array output). pose proof (buffer_lt _ _ _ _ _ Hap Eo) as K.
        apply (move_same_buffer f (ts_memory s1) (ts_memory s2) (tk_array input) (tk_array output) samples start stop); [exact E1|exact E2|exact (H i input Ei Hgi)|exact (H o output Eo Hgo)|exact K|lia].
      * pose proof (buffer_other _ _ _ _ _ _ _ Hap Hc Hne Eo Hj) as K. subst m1 m2. rewrite !nth_set_other by congruence. exact (H j u Hj Hu).
    + destruct (np_move_samples f (ts_memory s2) (tk_array input) (tk_array output) samples start stop) as [m2|] eqn:E2; [|exact Hfail].
      destruct (move_other_memory f _ (ts_memory s1) _ _ _ _ _ _ E2) as [m K]. congruence.
Qed.

Lemma same_values_run f n m0 commands : forall s1 s2, follows_numpy f -> apart n m0 (as_numpy s1) -> Forall (not_moved_to n) commands -> same_values s1 s2 ->
  same_values (torch_run f true s1 commands) (torch_run f true s2 commands).
Proof.
  induction commands as [|c commands IH]; intros s1 s2 Hf Hap Hc Hs; [exact Hs|]. inversion Hc; subst. cbn [torch_run fold_left].
  apply IH; [exact Hf|apply torch_apart_step; assumption|assumption|]. apply (same_values_step f n m0); assumption.
Qed.

Lemma torch_gradients_track f m1 m2 tensors commands : follows_numpy f -> Forall (fun t => in_memory m1 (tk_array t)) tensors ->
  Forall (not_moved_to (length tensors)) commands -> length m1 = length m2 ->
  (forall t, In t tensors -> tk_grad t = false -> nth_error m1 (np_buffer (tk_array t)) = nth_error m2 (np_buffer (tk_array t))) ->
  let s1 := torch_run f true (given_tensors m1 tensors) commands in
  let s2 := torch_run f true (given_tensors m2 tensors) commands in
  ts_tensors s1 = ts_tensors s2 /\
  forall i t, live (ts_tensors s1) i = Some t -> tk_grad t = false -> np_elements (ts_memory s1) (tk_array t) = np_elements (ts_memory s2) (tk_array t).
Proof.
  intros Hf Hm Hc El H s1 s2.
  assert (Hs : same_values (given_tensors m1 tensors) (given_tensors m2 tensors)).
  { split; [reflexivity|]. split; [exact El|]. cbn [given_tensors ts_tensors ts_memory]. intros i t Hi Ht. unfold live in Hi. rewrite nth_error_map in Hi.
    destruct (nth_error tensors i) as [u|] eqn:E; [|discriminate]. inversion Hi. subst u. apply nth_error_In in E. specialize (H t E Ht).
    rewrite <- !(nth_default_eq), !nth_default_eq. rewrite Forall_forall in Hm. pose proof (in_memory_lt _ _ (Hm t E)) as K.
    destruct (nth_error m1 (np_buffer (tk_array t))) as [b|] eqn:E1; [|apply nth_error_None in E1; lia].
    rewrite (nth_error_nth _ _ [] E1), (nth_error_nth m2 _ [] (eq_sym H)). reflexivity. }
  destruct (same_values_run f _ m1 commands _ _ Hf (torch_apart_start m1 tensors Hm) Hc Hs) as (E & _ & K). split; [exact E|].
  intros i t Hi Ht. apply same_elements. exact (K i t Hi Ht).
Qed.

(* no tensor starts to compute gradients *)
Lemma no_gradients_step f recording n s c : n <= length (ts_tensors s) ->
  (forall i t, n <= i -> live (ts_tensors s) i = Some t -> tk_grad t = false) ->
  (recording = true -> forall i t, live (ts_tensors s) i = Some t -> tk_grad t = false) ->
  (forall i t, n <= i -> live (ts_tensors (fst (torch_step f recording s c))) i = Some t -> tk_grad t = false)
  /\ (recording = true -> forall i t, live (ts_tensors (fst (torch_step f recording s c))) i = Some t -> tk_grad t = false).
Proof.
  intros Hlen Hn Hr.
  assert (Hg : forall i t, live (ts_tensors s) i = Some t -> recording && tk_grad t = false).
  { intros i t Hi. destruct recording; [exact (Hr eq_refl i t Hi)|reflexivity]. }
  assert (Hold : forall l,
    (forall i t, live l i = Some t -> (exists j, i <= j /\ live (ts_tensors s) j = Some t) \/ tk_grad t = false) ->
    (forall i t, n <= i -> live l i = Some t -> tk_grad t = false)
    /\ (recording = true -> forall i t, live l i = Some t -> tk_grad t = false)).
  { intros l Hl. split.
    - intros i t Hi Ht. destruct (Hl i t Ht) as [(j & Hj & Hjt)|K]; [|exact K]. apply (Hn j t); [lia|exact Hjt].
    - intros E i t Ht. destruct (Hl i t Ht) as [(j & _ & Hjt)|K]; [exact (Hr E j t Hjt)|exact K]. }
  destruct c as [i|i|i shape|i|i|i shape|i x y|o i samples start stop]; cbn [torch_step]; try (split; assumption).
  - destruct (live (ts_tensors s) i) as [t|] eqn:Ei; [|split; assumption]. unfold np_create, np_new. cbn [fst ts_tensors].
    apply Hold. intros j u Hj. apply live_snoc in Hj as [[_ Hj]|[_ ->]]; [left; exists j; auto|right; reflexivity].
  - destruct (live (ts_tensors s) i) as [t|] eqn:Ei; [|split; assumption]. unfold np_copy, np_new. cbn [fst ts_tensors].
    apply Hold. intros j u Hj. apply live_snoc in Hj as [[_ Hj]|[_ ->]]; [left; exists j; auto|right; exact (Hg i t Ei)].
  - destruct (live (ts_tensors s) i) as [t|] eqn:Ei; [|split; assumption]. cbn [fst ts_tensors].
    apply Hold. intros j u Hj. apply live_set_inv in Hj as [[_ Hj]|[_ Hj]]; [discriminate|left; exists j; auto].
  - destruct (live (ts_tensors s) i) as [t|] eqn:Ei; [|split; assumption]. destruct (np_reshape _ _ _ _) as [[m a]|]; [|split; assumption].
    cbn [fst ts_tensors]. apply Hold. intros j u Hj. apply live_set_inv in Hj as [[_ Hj]|[_ Hj]]; [|left; exists j; auto].
    inversion Hj. right. exact (Hg i t Ei).
  - destruct (live (ts_tensors s) i) as [t|] eqn:Ei; [|split; assumption]. destruct (np_swap_axes _ _ _) as [a|]; [|split; assumption].
    cbn [fst ts_tensors]. apply Hold. intros j u Hj. apply live_set_inv in Hj as [[_ Hj]|[_ Hj]]; [|left; exists j; auto].
    inversion Hj. right. exact (Hg i t Ei).
  - destruct (o =? i); [split; assumption|]. destruct (live (ts_tensors s) o) as [output|] eqn:Eo; [|split; assumption].
    destruct (live (ts_tensors s) i) as [input|] eqn:Ei; [|split; assumption]. destruct (torch_move _ _ _ _ _ _ _ _) as [m|]; cbn [fst ts_tensors].
    + split.
      * intros j u Hj Hu. apply live_set_inv in Hu as [[-> Hu]|[_ Hu]]; [|exact (Hn j u Hj Hu)].
        inversion Hu. change (tk_grad output || recording && tk_grad input = false). rewrite (Hn o output Hj Eo), (Hg i input Ei). reflexivity.
      * intros E j u Hu. apply live_set_inv in Hu as [[-> Hu]|[_ Hu]]; [|exact (Hr E j u Hu)].
        inversion Hu. change (tk_grad output || recording && tk_grad input = false). rewrite (Hr E o output Eo), (Hg i input Ei). reflexivity.
    + apply Hold. intros j u Hj. apply live_set_inv in Hj as [[_ Hj]|[_ Hj]]; [discriminate|left; exists j; auto].
Qed.

Lemma step_longer f recording s c : length (ts_tensors s) <= length (ts_tensors (fst (torch_step f recording s c))).
Proof.
  destruct c as [i|i|i shape|i|i|i shape|i x y|o i samples start stop]; cbn [torch_step]; try apply Nat.le_refl.
  - destruct (live (ts_tensors s) i); [|apply Nat.le_refl]. unfold np_create, np_new. cbn [fst ts_tensors]. rewrite app_length. lia.
  - destruct (live (ts_tensors s) i); [|apply Nat.le_refl]. unfold np_copy, np_new. cbn [fst ts_tensors]. rewrite app_length. lia.
  - destruct (live (ts_tensors s) i); [|apply Nat.le_refl]. cbn [fst ts_tensors]. rewrite set_nth_length. lia.
  - destruct (live (ts_tensors s) i); [|apply Nat.le_refl]. destruct (np_reshape _ _ _ _) as [[m a]|]; [|apply Nat.le_refl]. cbn [fst ts_tensors]. rewrite set_nth_length. lia.
  - destruct (live (ts_tensors s) i); [|apply Nat.le_refl]. destruct (np_swap_axes _ _ _); [|apply Nat.le_refl]. cbn [fst ts_tensors]. rewrite set_nth_length. lia.
  - destruct (o =? i); [apply Nat.le_refl|]. destruct (live (ts_tensors s) o); [|apply Nat.le_refl]. destruct (live (ts_tensors s) i); [|apply Nat.le_refl].
    destruct (torch_move _ _ _ _ _ _ _ _); cbn [fst ts_tensors]; rewrite set_nth_length; lia.
Qed.

Lemma no_gradients_run f recording n commands : forall s, n <= length (ts_tensors s) ->
  (forall i t, n <= i -> live (ts_tensors s) i = Some t -> tk_grad t = false) ->
  (recording = true -> forall i t, live (ts_tensors s) i = Some t -> tk_grad t = false) ->
  forall i t, n <= i -> live (ts_tensors (torch_run f recording s commands)) i = Some t -> tk_grad t = false.
Proof.
  induction commands as [|c commands IH]; intros s Hlen Hn Hr; [exact Hn|]. cbn [torch_run fold_left].
  destruct (no_gradients_step f recording n s c Hlen Hn Hr) as [Hn' Hr']. pose proof (step_longer f recording s c) as L.
  apply (IH (fst (torch_step f recording s c))); [lia|exact Hn'|exact Hr'].
Qed.

Lemma torch_no_gradients f recording m tensors commands :
  (recording = true -> Forall (fun t => tk_grad t = false) tensors) ->
  let s := torch_run f recording (given_tensors m tensors) commands in
  forall i t, length tensors <= i -> live (ts_tensors s) i = Some t -> tk_grad t = false.
Proof.
  intros H s. apply no_gradients_run.
  - cbn. rewrite map_length. lia.
  - intros i t Hi Ht. apply live_lt in Ht. cbn in Ht. rewrite map_length in Ht. lia.
  - intros E i t Ht. unfold given_tensors, live in Ht. cbn [ts_tensors] in Ht. rewrite nth_error_map in Ht.
    destruct (nth_error tensors i) as [u|] eqn:Eu; [|discriminate]. inversion Ht. subst u. specialize (H E). rewrite Forall_forall in H.
    apply H. eapply nth_error_In; exact Eu.
Qed.
