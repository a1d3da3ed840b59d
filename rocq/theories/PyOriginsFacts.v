(* Proofs about PyOrigins.v *)
From Verif Require Import Base BaseFacts Origin CApi ApiFacts PyOrigins SpecPyOrigins.
Local Open Scope string_scope.
Local Open Scope list_scope.
Local Open Scope nat_scope.

Definition grows (r r' : registry) : Prop := exists new, r' = r ++ new.

Lemma grows_refl r : grows r r.
Proof. exists []. symmetry. apply app_nil_r. Qed.

Lemma grows_trans r1 r2 r3 : grows r1 r2 -> grows r2 r3 -> grows r1 r3.
Proof. intros [a ->] [b ->]. exists (a ++ b). symmetry. apply app_assoc. Qed.

Lemma grows_nth r r' id name : grows r r' -> nth_error r id = Some name -> nth_error r' id = Some name.
Proof. intros [new ->] H. rewrite nth_error_app1; [exact H|]. apply nth_error_Some. congruence. Qed.

Lemma same_name r id id' name : registry_ok r -> nth_error r id = Some name -> nth_error r id' = Some name -> id = id'.
Proof. intros [Hn _] H H'. apply (proj1 (NoDup_nth_error r) Hn); [apply nth_error_Some; congruence|congruence]. Qed.

Lemma register_ok r name : registry_ok r -> registry_ok (fst (register_data_origin r name)) /\ grows r (fst (register_data_origin r name))
  /\ nth_error (fst (register_data_origin r name)) (snd (register_data_origin r name)) = Some name.
Proof.
  intros [Hn H0]. destruct (register_data_origin r name) as [r' id] eqn:E. cbn [fst snd].
  destruct (register_spec _ _ _ _ E Hn) as (Hn' & Hid & [->|(-> & _ & _)]).
  - split; [split; assumption|]. split; [apply grows_refl|exact Hid].
  - split; [split; [exact Hn'|]|]. + destruct r; [discriminate|]. exact H0. + split; [exists [name]; reflexivity|exact Hid].
Qed.

Lemma name_of_ok r id : registry_ok r -> exists name, get_data_origin r id = Ok name
  /\ (nth_error r id = Some name \/ (nth_error r id = None /\ name = "unregistered origin")).
Proof.
  intros [_ H0]. unfold get_data_origin. destruct (Nat.ltb_spec id (length r)) as [H|H].
  - destruct (nth_error r id) as [name|] eqn:E; [|apply nth_error_None in E; lia]. exists name. unfold index_slice. rewrite E. auto.
  - exists "unregistered origin". unfold index_slice. rewrite H0. split; [reflexivity|]. right. split; [apply nth_error_None; exact H|reflexivity].
Qed.

(** * Results of code, for all that other threads can do *)

Fixpoint safe (P : registry -> py_result -> Prop) (known : storage -> Prop) (r : registry) (c : code py_result) : Prop :=
  match c with
  | Return x => P r x
  | LoadGlobal s next => forall r' value, grows r r' -> registry_ok r' ->
      (forall id, value = Some id -> nth_error r' id = Some (storage_name s)) -> (known s -> value <> None) ->
      safe P (fun s' => known s' \/ (s' = s /\ value <> None)) r' (next value)
  | StoreGlobal s id next => nth_error r id = Some (storage_name s) /\ safe P (fun s' => known s' \/ s' = s) r next
  | RegisterName name next => forall r' id, grows r r' -> registry_ok r' -> nth_error r' id = Some name -> safe P known r' (next id)
  | NameOf id next => forall r' name, grows r r' -> registry_ok r' ->
      (nth_error r' id = Some name \/ (nth_error r' id = None /\ name = "unregistered origin")) -> safe P known r' (next name)
  end.

Definition stays (P : registry -> py_result -> Prop) : Prop := forall r r' x, grows r r' -> registry_ok r' -> P r x -> P r' x.

Lemma safe_grows P c : stays P -> forall known r r', grows r r' -> registry_ok r' -> safe P known r c -> safe P known r' c.
Proof.
  intros HP. induction c as [x|s next IH|s id next IH|name next IH|id next IH]; cbn [safe]; intros known r r' Hg Hok H.
  - exact (HP r r' x Hg Hok H).
  - intros r2 value Hg2. apply H. exact (grows_trans _ _ _ Hg Hg2).
  - destruct H as [H1 H2]. split; [exact (grows_nth _ _ _ _ Hg H1)|]. exact (IH _ r r' Hg Hok H2).
  - intros r2 id Hg2. apply H. exact (grows_trans _ _ _ Hg Hg2).
  - intros r2 name Hg2. apply H. exact (grows_trans _ _ _ Hg Hg2).
Qed.

Lemma safe_origin P known r s next :
  (forall r' id known', grows r r' -> registry_ok r' -> nth_error r' id = Some (storage_name s) -> safe P known' r' (next (Some id))) ->
  safe P known r (storage_origin s next).
Proof.
  intros H. cbn [storage_origin safe]. intros r1 value Hg1 Hok1 Hv1 _. destruct value as [id|].
  - cbn [safe]. intros r2 value Hg2 Hok2 Hv2 Hk2. destruct value as [id2|].
    + apply H; [exact (grows_trans _ _ _ Hg1 Hg2)|exact Hok2|exact (Hv2 id2 eq_refl)].
    + exfalso. apply Hk2; [|reflexivity]. right. split; [reflexivity|discriminate].
  - cbn [safe]. intros r2 id Hg2 Hok2 Hid. split; [exact Hid|]. intros r3 value Hg3 Hok3 Hv3 Hk3. destruct value as [id3|].
    + apply H; [exact (grows_trans _ _ _ Hg1 (grows_trans _ _ _ Hg2 Hg3))|exact Hok3|exact (Hv3 id3 eq_refl)].
    + exfalso. apply Hk3; [|reflexivity]. right. reflexivity.
Qed.

(** * The result of each call *)

Definition raw_result (op : py_op) (r : registry) (x : py_result) : Prop :=
  match op with
  | Wrap NumpyKind => exists id, x = NewWrapper (Some id) /\ nth_error r id = Some (storage_name NumpyStorage)
  | Wrap TorchKind => exists id, x = NewWrapper (Some id) /\ nth_error r id = Some (storage_name TorchStorage)
  | Wrap OtherKind => x = UnknownArray
  | OriginOf s => exists id, x = Origin (Some id) /\ nth_error r id = Some (storage_name s)
  | Register name => exists id, x = Origin (Some id) /\ nth_error r id = Some name
  | ToPython (Wrapped n) => x = Object n
  | ToPython RustNdarray => x = RustView
  | ToPython RustEmpty => x = UnknownOrigin "rust.EmptyArray"
  | ToPython (FromProgram _ value) =>
      let id := given_id value in
      ((exists s, nth_error r id = Some (storage_name s)) /\ x = WrongPointer)
      \/ ((forall s, exists id', id' <> id /\ nth_error r id' = Some (storage_name s))
          /\ exists name, x = UnknownOrigin name /\ (nth_error r id = Some name \/ name = "unregistered origin"))
  | Allocated (Wrapped _) => x = Answer true
  | Allocated RustNdarray | Allocated RustEmpty => x = Answer false
  | Allocated (FromProgram _ value) =>
      let id := given_id value in
      ((exists s, s <> RustStorage /\ nth_error r id = Some (storage_name s)) /\ x = Answer true)
      \/ ((forall s, s <> RustStorage -> exists id', id' <> id /\ nth_error r id' = Some (storage_name s)) /\ x = Answer false)
  end.

Lemma raw_stays op : stays (raw_result op).
Proof.
  intros r r' x Hg Hok. destruct op as [s|[]|[n| | |status value]|[n| | |status value]|name]; cbn [raw_result]; try (intros H; exact H).
  - intros (id & -> & H). exists id. split; [reflexivity|exact (grows_nth _ _ _ _ Hg H)].
  - intros (id & -> & H). exists id. split; [reflexivity|exact (grows_nth _ _ _ _ Hg H)].
  - intros (id & -> & H). exists id. split; [reflexivity|exact (grows_nth _ _ _ _ Hg H)].
  - intros [[[s H] ->]|[H (name & -> & Hn)]].
    + left. split; [exists s; exact (grows_nth _ _ _ _ Hg H)|reflexivity].
    + right. split; [intros s; destruct (H s) as (id' & Hne & H'); exists id'; split; [exact Hne|exact (grows_nth _ _ _ _ Hg H')]|].
      exists name. split; [reflexivity|]. destruct Hn as [Hn|Hn]; [left; exact (grows_nth _ _ _ _ Hg Hn)|right; exact Hn].
  - intros [[(s & Hs & H) ->]|[H ->]].
    + left. split; [exists s; split; [exact Hs|exact (grows_nth _ _ _ _ Hg H)]|reflexivity].
    + right. split; [|reflexivity]. intros s Hs. destruct (H s Hs) as (id' & Hne & H'). exists id'. split; [exact Hne|exact (grows_nth _ _ _ _ Hg H')].
  - intros (id & -> & H). exists id. split; [reflexivity|exact (grows_nth _ _ _ _ Hg H)].
Qed.

Lemma compare_ids r id v name name' : registry_ok r -> nth_error r id = Some name -> nth_error r v = Some name' ->
  is_origin id (Some v) = String.eqb name name'.
Proof.
  intros Hok H H'. cbn [is_origin]. destruct (String.eqb_spec name name') as [->|Hne].
  - apply Nat.eqb_eq. exact (same_name _ _ _ _ Hok H H').
  - apply Nat.eqb_neq. intros ->. congruence.
Qed.

Definition wrapper_ok (r : registry) (id : option nat) : Prop :=
  exists v s, id = Some v /\ s <> RustStorage /\ nth_error r v = Some (storage_name s).

Lemma op_safe s op c known : registry_ok (py_registry s) -> Forall (wrapper_ok (py_registry s)) (py_wrappers s) ->
  op_code s op = Some c -> safe (raw_result op) known (py_registry s) c.
Proof.
  intros Hok Hw E. destruct op as [st|[]|t|t|name]; cbn [op_code] in E.
  - injection E as <-. apply safe_origin. intros r' id known' _ _ H. cbn [safe raw_result]. exists id. split; [reflexivity|exact H].
  - injection E as <-. apply safe_origin. intros r' id known' _ _ H. cbn [safe raw_result]. exists id. split; [reflexivity|exact H].
  - injection E as <-. apply safe_origin. intros r' id known' _ _ H. cbn [safe raw_result]. exists id. split; [reflexivity|exact H].
  - injection E as <-. reflexivity.
  - destruct (array_of s t) as [a|] eqn:Ea; [|discriminate]. cbn [option_map] in E. injection E as <-. destruct t as [n| | |status value]; cbn [array_of] in Ea.
    + destruct (nth_error (py_wrappers s) n) as [w|] eqn:En; [|discriminate]. injection Ea as <-. rewrite Forall_forall in Hw.
      destruct (Hw w (nth_error_In _ _ En)) as (v & st & -> & Hst & Hv). cbn [to_python data_origin].
      apply safe_origin. intros r1 n1 k1 Hg1 Hok1 H1. apply safe_origin. intros r2 n2 k2 Hg2 Hok2 H2.
      rewrite (compare_ids r2 v n1 _ _ Hok2 (grows_nth _ _ _ _ (grows_trans _ _ _ Hg1 Hg2) Hv) (grows_nth _ _ _ _ Hg2 H1)).
      rewrite (compare_ids r2 v n2 _ _ Hok2 (grows_nth _ _ _ _ (grows_trans _ _ _ Hg1 Hg2) Hv) H2). destruct st; [reflexivity|reflexivity|contradiction].
    + injection Ea as <-. cbn [to_python data_origin safe]. intros r0 v Hg0 Hok0 Hv.
      apply safe_origin. intros r1 n1 k1 Hg1 Hok1 H1. apply safe_origin. intros r2 n2 k2 Hg2 Hok2 H2.
      rewrite (compare_ids r2 v n1 _ _ Hok2 (grows_nth _ _ _ _ (grows_trans _ _ _ Hg1 Hg2) Hv) (grows_nth _ _ _ _ Hg2 H1)).
      rewrite (compare_ids r2 v n2 _ _ Hok2 (grows_nth _ _ _ _ (grows_trans _ _ _ Hg1 Hg2) Hv) H2).
      change (String.eqb "rust.ndarray" (storage_name NumpyStorage) || String.eqb "rust.ndarray" (storage_name TorchStorage)) with false. cbv iota.
      apply safe_origin. intros r3 n3 k3 Hg3 Hok3 H3.
      rewrite (compare_ids r3 v n3 _ _ Hok3 (grows_nth _ _ _ _ (grows_trans _ _ _ Hg1 (grows_trans _ _ _ Hg2 Hg3)) Hv) H3). reflexivity.
    + injection Ea as <-. cbn [to_python data_origin safe]. intros r0 v Hg0 Hok0 Hv.
      apply safe_origin. intros r1 n1 k1 Hg1 Hok1 H1. apply safe_origin. intros r2 n2 k2 Hg2 Hok2 H2.
      rewrite (compare_ids r2 v n1 _ _ Hok2 (grows_nth _ _ _ _ (grows_trans _ _ _ Hg1 Hg2) Hv) (grows_nth _ _ _ _ Hg2 H1)).
      rewrite (compare_ids r2 v n2 _ _ Hok2 (grows_nth _ _ _ _ (grows_trans _ _ _ Hg1 Hg2) Hv) H2).
      change (String.eqb "rust.EmptyArray" (storage_name NumpyStorage) || String.eqb "rust.EmptyArray" (storage_name TorchStorage)) with false. cbv iota.
      apply safe_origin. intros r3 n3 k3 Hg3 Hok3 H3. pose proof (grows_nth _ _ _ _ (grows_trans _ _ _ Hg1 (grows_trans _ _ _ Hg2 Hg3)) Hv) as Hv3.
      rewrite (compare_ids r3 v n3 _ _ Hok3 Hv3 H3). change (String.eqb "rust.EmptyArray" (storage_name RustStorage)) with false. cbv iota.
      cbn [safe raw_result]. intros r4 name Hg4 Hok4 [Hn|[Hn _]]; rewrite (grows_nth _ _ _ _ Hg4 Hv3) in Hn; [congruence|discriminate].
    + injection Ea as <-. cbn [to_python data_origin]. change (match value with Some id => id | None => 0 end) with (given_id value). set (id := given_id value).
      apply safe_origin. intros r1 n1 k1 Hg1 Hok1 H1. apply safe_origin. intros r2 n2 k2 Hg2 Hok2 H2. cbn [is_origin].
      destruct (Nat.eqb_spec id n1) as [E1|E1]; cbn [orb].
      { cbn [safe raw_result]. left. split; [|reflexivity]. exists NumpyStorage. fold id. rewrite E1. exact (grows_nth _ _ _ _ Hg2 H1). }
      destruct (Nat.eqb_spec id n2) as [E2|E2]; cbn [orb].
      { cbn [safe raw_result]. left. split; [|reflexivity]. exists TorchStorage. fold id. rewrite E2. exact H2. }
      apply safe_origin. intros r3 n3 k3 Hg3 Hok3 H3. cbn [is_origin]. destruct (Nat.eqb_spec id n3) as [E3|E3].
      { cbn [safe raw_result]. left. split; [|reflexivity]. exists RustStorage. fold id. rewrite E3. exact H3. }
      cbn [safe]. intros r4 name Hg4 Hok4 Hn. cbn [raw_result]. fold id. right. split.
      * intros []; [exists n1|exists n2|exists n3]; (split; [congruence|]).
        -- exact (grows_nth _ _ _ _ (grows_trans _ _ _ Hg2 (grows_trans _ _ _ Hg3 Hg4)) H1).
        -- exact (grows_nth _ _ _ _ (grows_trans _ _ _ Hg3 Hg4) H2).
        -- exact (grows_nth _ _ _ _ Hg4 H3).
      * exists name. split; [reflexivity|]. destruct Hn as [Hn|[_ Hn]]; auto.
  - destruct (array_of s t) as [a|] eqn:Ea; [|discriminate]. cbn [option_map] in E. injection E as <-. destruct t as [n| | |status value]; cbn [array_of] in Ea.
    + destruct (nth_error (py_wrappers s) n) as [w|] eqn:En; [|discriminate]. injection Ea as <-. rewrite Forall_forall in Hw.
      destruct (Hw w (nth_error_In _ _ En)) as (v & st & -> & Hst & Hv). cbn [was_allocated_by_python data_origin].
      apply safe_origin. intros r1 n1 k1 Hg1 Hok1 H1. apply safe_origin. intros r2 n2 k2 Hg2 Hok2 H2.
      rewrite (compare_ids r2 v n1 _ _ Hok2 (grows_nth _ _ _ _ (grows_trans _ _ _ Hg1 Hg2) Hv) (grows_nth _ _ _ _ Hg2 H1)).
      rewrite (compare_ids r2 v n2 _ _ Hok2 (grows_nth _ _ _ _ (grows_trans _ _ _ Hg1 Hg2) Hv) H2). destruct st; [reflexivity|reflexivity|contradiction].
    + injection Ea as <-. cbn [was_allocated_by_python data_origin safe]. intros r0 v Hg0 Hok0 Hv.
      apply safe_origin. intros r1 n1 k1 Hg1 Hok1 H1. apply safe_origin. intros r2 n2 k2 Hg2 Hok2 H2.
      rewrite (compare_ids r2 v n1 _ _ Hok2 (grows_nth _ _ _ _ (grows_trans _ _ _ Hg1 Hg2) Hv) (grows_nth _ _ _ _ Hg2 H1)).
      rewrite (compare_ids r2 v n2 _ _ Hok2 (grows_nth _ _ _ _ (grows_trans _ _ _ Hg1 Hg2) Hv) H2). reflexivity.
    + injection Ea as <-. cbn [was_allocated_by_python data_origin safe]. intros r0 v Hg0 Hok0 Hv.
      apply safe_origin. intros r1 n1 k1 Hg1 Hok1 H1. apply safe_origin. intros r2 n2 k2 Hg2 Hok2 H2.
      rewrite (compare_ids r2 v n1 _ _ Hok2 (grows_nth _ _ _ _ (grows_trans _ _ _ Hg1 Hg2) Hv) (grows_nth _ _ _ _ Hg2 H1)).
      rewrite (compare_ids r2 v n2 _ _ Hok2 (grows_nth _ _ _ _ (grows_trans _ _ _ Hg1 Hg2) Hv) H2). reflexivity.
    + injection Ea as <-. cbn [was_allocated_by_python data_origin]. change (match value with Some id => id | None => 0 end) with (given_id value). set (id := given_id value).
      apply safe_origin. intros r1 n1 k1 Hg1 Hok1 H1. apply safe_origin. intros r2 n2 k2 Hg2 Hok2 H2. cbn [is_origin safe raw_result]. fold id.
      destruct (Nat.eqb_spec id n1) as [E1|E1]; cbn [orb].
      { left. split; [|reflexivity]. exists NumpyStorage. rewrite E1. split; [discriminate|exact (grows_nth _ _ _ _ Hg2 H1)]. }
      destruct (Nat.eqb_spec id n2) as [E2|E2].
      { left. split; [|reflexivity]. exists TorchStorage. rewrite E2. split; [discriminate|exact H2]. }
      right. split; [|reflexivity]. intros [] Hst; [exists n1|exists n2|contradiction]; (split; [congruence|]); [exact (grows_nth _ _ _ _ Hg2 H1)|exact H2].
  - injection E as <-. cbn [safe raw_result]. intros r' id _ _ H. exists id. split; [reflexivity|exact H].
Qed.

(** * Executions *)

Definition event_ok (r : registry) (e : py_event) : Prop :=
  match ev_op e with
  | Wrap OtherKind => ev_result e = UnknownArray
  | Wrap _ => exists n, ev_result e = Object n
  | op => raw_result op r (ev_result e)
  end.

Lemma event_stays r r' e : grows r r' -> registry_ok r' -> event_ok r e -> event_ok r' e.
Proof.
  intros Hg Hok. unfold event_ok. destruct (ev_op e) as [s|[]|t|t|name]; try (intros H; exact H); apply (raw_stays _ r r'); assumption.
Qed.

Record py_inv (s : py_state) : Prop := mk_py_inv {
  pi_registry : registry_ok (py_registry s);
  pi_globals : forall st id, py_globals s st = Some id -> nth_error (py_registry s) id = Some (storage_name st);
  pi_wrappers : Forall (wrapper_ok (py_registry s)) (py_wrappers s);
  pi_threads : forall i op c, py_threads s i = Some (op, c) ->
    exists known : storage -> Prop, (forall st, known st -> py_globals s st <> None) /\ safe (raw_result op) known (py_registry s) c;
  pi_log : Forall (event_ok (py_registry s)) (py_log s);
}.

Lemma wrapper_stays r r' w : grows r r' -> wrapper_ok r w -> wrapper_ok r' w.
Proof. intros Hg (v & s & -> & Hs & H). exists v, s. split; [reflexivity|]. split; [exact Hs|exact (grows_nth _ _ _ _ Hg H)]. Qed.

Lemma set_storage_same g s id : set_storage g s id s = Some id.
Proof. destruct s; reflexivity. Qed.

Lemma set_storage_cases g s id s' : (s' = s /\ set_storage g s id s' = Some id) \/ (s' <> s /\ set_storage g s id s' = g s').
Proof. destruct s, s'; cbn; (left; split; congruence) || (right; split; congruence). Qed.

Lemma set_thread_inv threads i x j y : set_thread threads i x j = Some y -> (j = i /\ x = Some y) \/ (j <> i /\ threads j = Some y).
Proof. unfold set_thread. destruct (Nat.eqb_spec j i); auto. Qed.

Lemma inv_return s i op : py_inv s -> forall l e, Forall (wrapper_ok (py_registry s)) l -> event_ok (py_registry s) (mk_event i op e) ->
  py_inv (mk_py_state (py_registry s) (py_globals s) l (set_thread (py_threads s) i None) (py_log s ++ [mk_event i op e])).
Proof.
  intros [Hr Hgl Hw Ht Hl] l e Hl' He. split; cbn [py_registry py_globals py_wrappers py_threads py_log]; try assumption.
  - intros j op' c Hj. apply set_thread_inv in Hj as [[_ Hj]|[_ Hj]]; [discriminate|]. exact (Ht j op' c Hj).
  - apply Forall_app. split; [exact Hl|]. constructor; [exact He|constructor].
Qed.

Lemma inv_step s i m : py_inv s -> py_inv (py_step s i m).
Proof.
  intros H. pose proof H as [Hr Hgl Hw Ht Hl]. unfold py_step. destruct (py_threads s i) as [[op c]|] eqn:Ei.
  - destruct m as [|]; [exact H|]. destruct (Ht i op c Ei) as (known & Hk & Hs). destruct c as [x|st next|st id next|name next|id next].
    + cbn [safe] in Hs. assert (Hx : (exists id, x = NewWrapper id) \/ (forall id, x <> NewWrapper id)).
      { destruct x; try (right; intros; discriminate). left. eexists. reflexivity. }
      destruct Hx as [[id ->]|Hx].
      * assert (Ho : exists kind, op = Wrap kind).
        { destruct op as [?|?|[]|[]|?]; cbn [raw_result] in Hs; try discriminate Hs; try (destruct Hs as (? & Hs & _); discriminate Hs); try (eexists; reflexivity).
          - destruct Hs as [[_ Hs]|[_ (? & Hs & _)]]; discriminate Hs.
          - destruct Hs as [[_ Hs]|[_ Hs]]; discriminate Hs. }
        destruct Ho as [kind ->]. apply inv_return; [exact H| |].
        -- apply Forall_app. split; [exact Hw|]. constructor; [|constructor]. destruct kind; cbn [raw_result] in Hs; [| |discriminate];
             destruct Hs as (v & E & Hv); inversion E; eexists v, _; (split; [reflexivity|]; split; [|exact Hv]); discriminate.
        -- destruct kind; cbn [raw_result] in Hs; [| |discriminate]; eexists; reflexivity.
      * replace (match x with NewWrapper id => _ | _ => _ end) with
          (mk_py_state (py_registry s) (py_globals s) (py_wrappers s) (set_thread (py_threads s) i None) (py_log s ++ [mk_event i op x]))
          by (destruct x; try reflexivity; contradiction (Hx _ eq_refl)).
        apply inv_return; [exact H|exact Hw|]. unfold event_ok. cbn [ev_op ev_result]. destruct op as [?|[]|?|?|?]; try exact Hs;
          destruct Hs as (v & E & _); contradiction (Hx _ E).
    + cbn [safe] in Hs. split; cbn [py_registry py_globals py_wrappers py_threads py_log]; try assumption.
      intros j op' c Hj. apply set_thread_inv in Hj as [[_ Hj]|[_ Hj]]; [|exact (Ht j op' c Hj)]. inversion Hj; subst op' c.
      eexists. split; [|apply (Hs (py_registry s) (py_globals s st)); [apply grows_refl|exact Hr|apply Hgl|apply Hk]].
      intros st' [K|[-> K]]; [exact (Hk st' K)|exact K].
    + cbn [safe] in Hs. destruct Hs as [Hid Hs]. split; cbn [py_registry py_globals py_wrappers py_threads py_log]; try assumption.
      * intros st' id' E. destruct (set_storage_cases (py_globals s) st id st') as [[-> K]|[_ K]]; rewrite K in E; [inversion E; subst id'; exact Hid|exact (Hgl st' id' E)].
      * assert (Hnn : forall st', py_globals s st' <> None -> set_storage (py_globals s) st id st' <> None).
        { intros st' K. destruct (set_storage_cases (py_globals s) st id st') as [[_ ->]|[_ ->]]; [discriminate|exact K]. }
        intros j op' c Hj. apply set_thread_inv in Hj as [[_ Hj]|[_ Hj]].
        -- inversion Hj; subst op' c. eexists. split; [|exact Hs]. intros st' [K| ->]; [exact (Hnn st' (Hk st' K))|]. rewrite set_storage_same. discriminate.
        -- destruct (Ht j op' c Hj) as (known' & Hk' & Hs'). exists known'. split; [|exact Hs']. intros st' K. exact (Hnn st' (Hk' st' K)).
    + cbn [safe] in Hs. destruct (register_ok (py_registry s) name Hr) as (Hr' & Hg & Hid). destruct (register_data_origin (py_registry s) name) as [r id]. cbn [fst snd] in *.
      split; cbn [py_registry py_globals py_wrappers py_threads py_log].
      * exact Hr'.
      * intros st id' E. exact (grows_nth _ _ _ _ Hg (Hgl st id' E)).
      * eapply Forall_impl; [|exact Hw]. intros w. apply wrapper_stays. exact Hg.
      * intros j op' c Hj. apply set_thread_inv in Hj as [[_ Hj]|[_ Hj]].
        -- inversion Hj; subst op' c. exists known. split; [exact Hk|]. apply Hs; assumption.
        -- destruct (Ht j op' c Hj) as (known' & Hk' & Hs'). exists known'. split; [exact Hk'|]. exact (safe_grows _ c (raw_stays op') known' _ _ Hg Hr' Hs').
      * eapply Forall_impl; [|exact Hl]. intros e. apply event_stays; assumption.
    + cbn [safe] in Hs. destruct (name_of_ok (py_registry s) id Hr) as (name & -> & Hn). split; cbn [py_registry py_globals py_wrappers py_threads py_log]; try assumption.
      intros j op' c Hj. apply set_thread_inv in Hj as [[_ Hj]|[_ Hj]]; [|exact (Ht j op' c Hj)]. inversion Hj; subst op' c.
      exists known. split; [exact Hk|]. apply Hs; [apply grows_refl|exact Hr|exact Hn].
  - destruct m as [op|]; [|exact H]. destruct (op_code s op) as [c|] eqn:Ec; [|exact H].
    split; cbn [py_registry py_globals py_wrappers py_threads py_log]; try assumption.
    intros j op' c' Hj. apply set_thread_inv in Hj as [[_ Hj]|[_ Hj]]; [|exact (Ht j op' c' Hj)]. inversion Hj; subst op' c'.
    exists (fun _ => False). split; [intros st []|]. exact (op_safe s op c _ Hr Hw Ec).
Qed.

Lemma inv_run schedule : forall s, py_inv s -> py_inv (py_run s schedule).
Proof. induction schedule as [|[i m] schedule IH]; intros s H; [exact H|]. cbn [py_run fold_left fst snd]. apply IH, inv_step, H. Qed.

Lemma inv_start r : registry_ok r -> py_inv (py_start r).
Proof. intros H. split; cbn; try constructor; try exact (proj1 H); try exact (proj2 H); intros; discriminate. Qed.

Lemma event_at r schedule e : registry_ok r -> In e (py_log (py_run (py_start r) schedule)) ->
  registry_ok (py_registry (py_run (py_start r) schedule)) /\ event_ok (py_registry (py_run (py_start r) schedule)) e.
Proof.
  intros Hr He. pose proof (inv_run schedule _ (inv_start r Hr)) as [H _ _ _ Hl]. split; [exact H|]. rewrite Forall_forall in Hl. exact (Hl e He).
Qed.

(** * Properties *)

Lemma origins_cached r schedule e s : registry_ok r -> let final := py_run (py_start r) schedule in
  In e (py_log final) -> ev_op e = OriginOf s -> exists id, ev_result e = Origin (Some id) /\ get_data_origin (py_registry final) id = Ok (storage_name s).
Proof.
  intros Hr final He E. destruct (event_at r schedule e Hr He) as [Hok H]. unfold event_ok in H. rewrite E in H. destruct H as (id & -> & H).
  exists id. split; [reflexivity|]. destruct (name_of_ok _ id Hok) as (name & En & [K|[K _]]); fold final in K, H, En; congruence.
Qed.

Lemma storage_names s1 s2 : storage_name s1 = storage_name s2 -> s1 = s2.
Proof. destruct s1, s2; cbn; congruence. Qed.

Lemma origins_agree r schedule e1 e2 s1 s2 : registry_ok r -> let final := py_run (py_start r) schedule in
  In e1 (py_log final) -> In e2 (py_log final) -> ev_op e1 = OriginOf s1 -> ev_op e2 = OriginOf s2 ->
  exists id1 id2, ev_result e1 = Origin (Some id1) /\ ev_result e2 = Origin (Some id2) /\ (id1 = id2 <-> s1 = s2) /\ id1 <> 0.
Proof.
  intros Hr final He1 He2 E1 E2. destruct (event_at r schedule e1 Hr He1) as [Hok H1]. destruct (event_at r schedule e2 Hr He2) as [_ H2].
  unfold event_ok in H1, H2. rewrite E1 in H1. rewrite E2 in H2. destruct H1 as (id1 & -> & H1), H2 as (id2 & -> & H2).
  exists id1, id2. split; [reflexivity|]. split; [reflexivity|]. split; [split|].
  - intros ->. apply storage_names. congruence.
  - intros ->. exact (same_name _ _ _ _ Hok H1 H2).
  - intros ->. rewrite (proj2 Hok) in H1. destruct s1; discriminate.
Qed.

Lemma register_agrees r schedule e1 e2 s name : registry_ok r -> let final := py_run (py_start r) schedule in
  In e1 (py_log final) -> In e2 (py_log final) -> ev_op e1 = OriginOf s -> ev_op e2 = Register name ->
  exists id1 id2, ev_result e1 = Origin (Some id1) /\ ev_result e2 = Origin (Some id2) /\ (id1 = id2 <-> storage_name s = name).
Proof.
  intros Hr final He1 He2 E1 E2. destruct (event_at r schedule e1 Hr He1) as [Hok H1]. destruct (event_at r schedule e2 Hr He2) as [_ H2].
  unfold event_ok in H1, H2. rewrite E1 in H1. rewrite E2 in H2. destruct H1 as (id1 & -> & H1), H2 as (id2 & -> & H2).
  exists id1, id2. split; [reflexivity|]. split; [reflexivity|]. split.
  - intros ->. congruence.
  - intros <-. exact (same_name _ _ _ _ Hok H1 H2).
Qed.

Lemma objects_found r schedule e : registry_ok r -> In e (py_log (py_run (py_start r) schedule)) ->
  match ev_op e with
  | ToPython (Wrapped n) => ev_result e = Object n
  | ToPython RustNdarray => ev_result e = RustView
  | ToPython RustEmpty => ev_result e = UnknownOrigin "rust.EmptyArray"
  | Allocated (Wrapped n) => ev_result e = Answer true
  | Allocated RustNdarray | Allocated RustEmpty => ev_result e = Answer false
  | _ => True
  end.
Proof.
  intros Hr He. destruct (event_at r schedule e Hr He) as [_ H]. unfold event_ok in H. destruct (ev_op e) as [?|?|[]|[]|?]; try exact I; exact H.
Qed.

Lemma program_arrays r schedule e status value : registry_ok r -> let final := py_run (py_start r) schedule in
  In e (py_log final) -> ev_op e = ToPython (FromProgram status value) ->
  (ev_result e = WrongPointer <-> exists s, nth_error (py_registry final) (given_id value) = Some (storage_name s))
  /\ (ev_result e <> WrongPointer -> exists name, ev_result e = UnknownOrigin name
        /\ (nth_error (py_registry final) (given_id value) = Some name \/ name = "unregistered origin")).
Proof.
  intros Hr final He E. destruct (event_at r schedule e Hr He) as [Hok H]. unfold event_ok in H. rewrite E in H. cbn [raw_result] in H. fold final in H, Hok.
  destruct H as [[Hs ->]|[Hs (name & -> & Hn)]].
  - split; [split; auto|]. intros K. contradiction.
  - split; [|intros _; exists name; auto]. split; [discriminate|]. intros [s K]. destruct (Hs s) as (id' & Hne & K').
    contradiction (Hne (same_name _ _ _ _ Hok K' K)).
Qed.

Lemma program_allocated r schedule e status value : registry_ok r -> let final := py_run (py_start r) schedule in
  In e (py_log final) -> ev_op e = Allocated (FromProgram status value) ->
  exists b, ev_result e = Answer b
    /\ (b = true <-> exists s, s <> RustStorage /\ nth_error (py_registry final) (given_id value) = Some (storage_name s)).
Proof.
  intros Hr final He E. destruct (event_at r schedule e Hr He) as [Hok H]. unfold event_ok in H. rewrite E in H. cbn [raw_result] in H. fold final in H, Hok.
  destruct H as [[Hs ->]|[Hs ->]]; eexists; (split; [reflexivity|]).
  - split; auto.
  - split; [discriminate|]. intros (s & Hne & K). destruct (Hs s Hne) as (id' & Hne' & K'). contradiction (Hne' (same_name _ _ _ _ Hok K' K)).
Qed.

(** * Calls end *)

Fixpoint ends (n : nat) (c : code py_result) : Prop :=
  match n with
  | 0 => False
  | S n =>
      match c with
      | Return _ => True
      | LoadGlobal _ next => forall value, ends n (next value)
      | StoreGlobal _ _ next => ends n next
      | RegisterName _ next => forall id, ends n (next id)
      | NameOf _ next => forall name, ends n (next name)
      end
  end.

Lemma ends_more n c : ends n c -> forall m, n <= m -> ends m c.
Proof.
  revert c. induction n as [|n IH]; intros c H m Hm; [contradiction|]. destruct m as [|m]; [lia|]. destruct c; cbn [ends] in *; auto with arith; intros; apply IH; auto with arith.
Qed.

Lemma ends_origin n s next : (forall value, ends n (next value)) -> ends (4 + n) (storage_origin s next).
Proof.
  intros H. intros [id|].
  - change (forall value, ends (2 + n) (next value)). intros value. apply (ends_more n); [apply H|lia].
  - change (forall (_ : nat) value, ends n (next value)). intros _. exact H.
Qed.

Lemma ends_origin_at m n s next : m = 4 + n -> (forall value, ends n (next value)) -> ends m (storage_origin s next).
Proof. intros ->. apply ends_origin. Qed.

Lemma ends_return n r : ends (S n) (Return r).
Proof. exact I. Qed.

Lemma ends_register n name next : (forall id, ends n (next id)) -> ends (S n) (RegisterName name next).
Proof. intros H. exact H. Qed.

Lemma ends_name n id next : (forall name, ends n (next name)) -> ends (S n) (NameOf id next).
Proof. intros H. exact H. Qed.

Lemma ends_data_origin n a next : (forall id, ends n (next id)) -> ends (S n) (data_origin a next).
Proof.
  intros H. destruct a; cbn [data_origin].
  - apply (ends_more n); [apply H|lia].
  - apply ends_register. exact H.
  - apply (ends_more n); [apply H|lia].
Qed.

Lemma to_python_ends a : ends 15 (to_python a).
Proof.
  unfold to_python. apply ends_data_origin. intros id.
  apply (ends_origin_at 14 10); [reflexivity|]. intros v1. apply (ends_origin_at 10 6); [reflexivity|]. intros v2.
  destruct (_ || _); [apply ends_return|]. apply (ends_origin_at 6 2); [reflexivity|]. intros v3.
  destruct (is_origin id v3); [apply ends_return|]. apply ends_name. intros name. apply ends_return.
Qed.

Lemma was_allocated_ends a : ends 15 (was_allocated_by_python a).
Proof.
  unfold was_allocated_by_python. apply ends_data_origin. intros id.
  apply (ends_origin_at 14 10); [reflexivity|]. intros v1. apply (ends_origin_at 10 6); [reflexivity|]. intros v2. apply ends_return.
Qed.

Lemma op_ends s op c : op_code s op = Some c -> ends 15 c.
Proof.
  destruct op as [st|[]|t|t|name]; cbn [op_code wrap]; intros E.
  - injection E as <-. apply (ends_origin_at 15 11); [reflexivity|]. intros v. apply ends_return.
  - injection E as <-. apply (ends_origin_at 15 11); [reflexivity|]. intros v. apply ends_return.
  - injection E as <-. apply (ends_origin_at 15 11); [reflexivity|]. intros v. apply ends_return.
  - injection E as <-. apply ends_return.
  - destruct (array_of s t) as [a|]; cbn [option_map] in E; [|discriminate]. injection E as <-. apply to_python_ends.
  - destruct (array_of s t) as [a|]; cbn [option_map] in E; [|discriminate]. injection E as <-. apply was_allocated_ends.
  - injection E as <-. apply ends_register. intros id. apply ends_return.
Qed.

Lemma other_step s i j m : i <> j -> py_threads (py_step s j m) i = py_threads s i.
Proof.
  intros H. unfold py_step. assert (Hs : forall x, set_thread (py_threads s) j x i = py_threads s i).
  { intros x. unfold set_thread. destruct (Nat.eqb_spec i j); [contradiction|reflexivity]. }
  destruct (py_threads s j) as [[op c]|]; destruct m as [op'|]; try reflexivity.
  - destruct c as [x|st next|st id next|name next|id next]; try apply Hs.
    + destruct x; apply Hs.
    + destruct (register_data_origin (py_registry s) name) as [r id]. apply Hs.
    + destruct (get_data_origin (py_registry s) id); try apply Hs; reflexivity.
  - destruct (op_code s op'); [apply Hs|reflexivity].
Qed.

Lemma set_thread_this threads i x : set_thread threads i x i = x.
Proof. unfold set_thread. rewrite Nat.eqb_refl. reflexivity. Qed.

Lemma thread_ends i schedule : (forall op, ~ In (i, Start op) schedule) -> forall n s, py_inv s ->
  match py_threads s i with Some (_, c) => ends n c | None => True end -> n <= own_steps i schedule -> py_threads (py_run s schedule) i = None.
Proof.
  induction schedule as [|[j m] schedule IH]; intros Hno n s Hinv H Hn.
  - cbn in Hn. cbn. destruct (py_threads s i) as [[op c]|]; [|reflexivity]. replace n with 0 in H by lia. contradiction.
  - assert (Hno' : forall op, ~ In (i, Start op) schedule) by (intros op K; exact (Hno op (or_intror K))).
    cbn [py_run fold_left fst snd]. unfold own_steps in Hn. cbn [filter fst] in Hn. destruct (Nat.eqb_spec j i) as [->|Hne].
    + cbn [length] in Hn. destruct m as [op|]; [contradiction (Hno op (or_introl eq_refl))|].
      apply (IH Hno' (n - 1) (py_step s i Continue) (inv_step _ _ _ Hinv)); [|unfold own_steps; lia].
      unfold py_step. destruct (py_threads s i) as [[op c]|] eqn:Ei; [|rewrite Ei; exact I].
      destruct n as [|n]; [contradiction|]. replace (S n - 1) with n by lia. destruct c as [x|st next|st id next|name next|id next]; cbn [ends] in H.
      * destruct x; cbn [py_threads]; rewrite set_thread_this; exact I.
      * cbn [py_threads]. rewrite set_thread_this. apply H.
      * cbn [py_threads]. rewrite set_thread_this. apply H.
      * destruct (register_data_origin (py_registry s) name) as [r id]. cbn [py_threads]. rewrite set_thread_this. apply H.
      * destruct (name_of_ok (py_registry s) id (pi_registry _ Hinv)) as (name & -> & _). cbn [py_threads]. rewrite set_thread_this. apply H.
    + apply (IH Hno' n (py_step s j m) (inv_step _ _ _ Hinv)); [|exact Hn]. rewrite other_step by congruence. exact H.
Qed.

Lemma calls_end r before i op schedule : registry_ok r -> let s := py_run (py_start r) before in
  py_threads s i = None -> (forall op', ~ In (i, Start op') schedule) -> 15 <= own_steps i schedule ->
  py_threads (py_run s ((i, Start op) :: schedule)) i = None.
Proof.
  intros Hr s Hi Hno Hn. cbn [py_run fold_left fst snd]. pose proof (inv_run before _ (inv_start r Hr)) as Hinv. fold s in Hinv.
  apply (thread_ends i schedule Hno 15 _ (inv_step _ _ _ Hinv)); [|exact Hn]. unfold py_step. rewrite Hi.
  destruct (op_code s op) as [c|] eqn:Ec; [|rewrite Hi; exact I]. cbn [py_threads]. rewrite set_thread_this. exact (op_ends s op c Ec).
Qed.

(** * The origins of wrappers *)

Definition wrap_event_ok (r : registry) (wrappers : list (option nat)) (e : py_event) : Prop :=
  match ev_op e, ev_result e with
  | Wrap kind, Object n => exists id, nth_error wrappers n = Some (Some id) /\ nth_error r id = Some (kind_origin kind)
  | _, _ => True
  end.

Definition wrap_inv (s : py_state) : Prop := Forall (wrap_event_ok (py_registry s) (py_wrappers s)) (py_log s).

Lemma wrap_event_stays r r' ws ws' e : grows r r' -> (exists new, ws' = ws ++ new) -> wrap_event_ok r ws e -> wrap_event_ok r' ws' e.
Proof.
  intros Hg [new ->]. unfold wrap_event_ok. destruct (ev_op e); try (intros _; exact I). destruct (ev_result e); try (intros _; exact I).
  intros (id & H1 & H2). exists id. split; [|exact (grows_nth _ _ _ _ Hg H2)]. rewrite nth_error_app1; [exact H1|]. apply nth_error_Some. congruence.
Qed.

Lemma wrap_event_return r ws i op x : (forall id, x <> NewWrapper id) -> raw_result op r x -> wrap_event_ok r ws (mk_event i op x).
Proof.
  intros Hx H. unfold wrap_event_ok. cbn [ev_op ev_result]. destruct op as [?|[]|?|?|?]; try exact I; cbn [raw_result] in H;
    [destruct H as (id & -> & _); exact I|destruct H as (id & -> & _); exact I|subst x; exact I].
Qed.

Lemma wrap_step s i m : py_inv s -> wrap_inv s -> wrap_inv (py_step s i m).
Proof.
  intros [Hr Hgl Hw Ht Hl] H. unfold py_step. destruct (py_threads s i) as [[op c]|] eqn:Ei.
  - destruct m as [|]; [exact H|]. destruct (Ht i op c Ei) as (known & Hk & Hs). destruct c as [x|st next|st id next|name next|id next]; try exact H.
    + cbn [safe] in Hs. assert (Hx : (exists id, x = NewWrapper id) \/ (forall id, x <> NewWrapper id)).
      { destruct x; try (right; intros; discriminate). left. eexists. reflexivity. }
      destruct Hx as [[id ->]|Hx].
      * unfold wrap_inv. cbn [py_registry py_wrappers py_log]. apply Forall_app. split.
        -- eapply Forall_impl; [|exact H]. intros e. apply wrap_event_stays; [apply grows_refl|exists [id]; reflexivity].
        -- constructor; [|constructor]. unfold wrap_event_ok. cbn [ev_op ev_result]. destruct op as [?|kind|?|?|?]; try exact I.
           rewrite nth_error_app2, Nat.sub_diag by lia. cbn [nth_error].
           destruct kind; cbn [raw_result] in Hs; [| |discriminate]; destruct Hs as (v & E & Hv); injection E as ->; exists v; (split; [reflexivity|exact Hv]).
      * replace (match x with NewWrapper id => _ | _ => _ end) with
          (mk_py_state (py_registry s) (py_globals s) (py_wrappers s) (set_thread (py_threads s) i None) (py_log s ++ [mk_event i op x]))
          by (destruct x; try reflexivity; contradiction (Hx _ eq_refl)).
        unfold wrap_inv. cbn [py_registry py_wrappers py_log]. apply Forall_app. split; [exact H|]. constructor; [|constructor]. exact (wrap_event_return _ _ _ _ _ Hx Hs).
    + destruct (register_ok (py_registry s) name Hr) as (_ & Hg & _). destruct (register_data_origin (py_registry s) name) as [r id]. cbn [fst] in Hg.
      unfold wrap_inv. cbn [py_registry py_wrappers py_log]. eapply Forall_impl; [|exact H]. intros e. apply wrap_event_stays; [exact Hg|]. exists []. symmetry. apply app_nil_r.
    + destruct (get_data_origin (py_registry s) id); exact H.
  - destruct m as [op|]; [|exact H]. destruct (op_code s op); exact H.
Qed.

Lemma wrap_run schedule : forall s, py_inv s -> wrap_inv s -> wrap_inv (py_run s schedule).
Proof.
  induction schedule as [|[i m] schedule IH]; intros s Hi H; [exact H|]. cbn [py_run fold_left fst snd]. apply IH; [apply inv_step, Hi|apply wrap_step; assumption].
Qed.

Lemma wrapper_origin r schedule e kind n : registry_ok r -> let final := py_run (py_start r) schedule in
  In e (py_log final) -> ev_op e = Wrap kind -> ev_result e = Object n ->
  exists id, array_of final (Wrapped n) = Some (WrapperArray n (Some id)) /\ get_data_origin (py_registry final) id = Ok (kind_origin kind).
Proof.
  intros Hr final He Eo Ex. destruct (event_at r schedule e Hr He) as [Hok _].
  assert (H : wrap_inv final) by (apply wrap_run; [apply inv_start; exact Hr|constructor]). unfold wrap_inv in H. rewrite Forall_forall in H.
  specialize (H e He). unfold wrap_event_ok in H. rewrite Eo, Ex in H. destruct H as (id & H1 & H2). exists id. cbn [array_of]. rewrite H1. split; [reflexivity|].
  destruct (name_of_ok _ id Hok) as (name & En & [K|[K _]]); fold final in K, En; congruence.
Qed.

Lemma wrapper_made r schedule e kind : registry_ok r -> In e (py_log (py_run (py_start r) schedule)) -> ev_op e = Wrap kind ->
  match kind with OtherKind => ev_result e = UnknownArray | _ => exists n, ev_result e = Object n end.
Proof. intros Hr He E. destruct (event_at r schedule e Hr He) as [_ H]. unfold event_ok in H. rewrite E in H. destruct kind; exact H. Qed.
