(* The declarations of Python are the ones of the header *)
From Verif Require Import Base Declarations SpecDeclarations.
Local Open Scope string_scope.
Local Open Scope list_scope.
Local Open Scope nat_scope.

Section CTypeInd.
  Context (P : c_type -> Prop)
    (HN : forall words, P (CNames words)) (HS : forall name, P (CStructRef name)) (HE : forall name, P (CEnumRef name))
    (HP : forall t, P t -> P (CPointer t)) (HA : forall t dim, P t -> P (CArray t dim))
    (HF : forall t params, P t -> Forall P params -> P (CFunction t params)).
  Fixpoint c_type_nested (t : c_type) : P t :=
    match t with
    | CNames words => HN words
    | CStructRef name => HS name
    | CEnumRef name => HE name
    | CPointer t => HP t (c_type_nested t)
    | CArray t dim => HA t dim (c_type_nested t)
    | CFunction t params =>
        HF t params (c_type_nested t)
          ((fix all (l : list c_type) : Forall P l :=
              match l with
              | [] => Forall_nil P
              | t :: l => Forall_cons t (c_type_nested t) (all l)
              end) params)
    end.
End CTypeInd.

Section PyTypeInd.
  Context (P : py_type -> Prop)
    (HN : forall name, P (PyName name)) (HP : forall t, P t -> P (PyPointer t))
    (HF : forall t args, P t -> Forall P args -> P (PyFunction t args)) (HA : forall t dim, P t -> P (PyArray t dim)).
  Fixpoint py_type_nested (t : py_type) : P t :=
    match t with
    | PyName name => HN name
    | PyPointer t => HP t (py_type_nested t)
    | PyArray t dim => HA t dim (py_type_nested t)
    | PyFunction t args =>
        HF t args (py_type_nested t)
          ((fix all (l : list py_type) : Forall P l :=
              match l with
              | [] => Forall_nil P
              | t :: l => Forall_cons t (py_type_nested t) (all l)
              end) args)
    end.
End PyTypeInd.

Lemma all_some_Forall2 {A B} (f : A -> option B) l bs : all_some f l = Some bs <-> Forall2 (fun a b => f a = Some b) l bs.
Proof.
  revert bs. induction l as [|x l IH]; intros bs; cbn [all_some].
  - split; intros H; inversion H; subst; [constructor|reflexivity].
  - split.
    + destruct (f x) as [b|] eqn:E; [|discriminate]. fold (all_some f) in *. destruct (all_some f l) as [bs'|] eqn:E'; [|discriminate].
      intros H; inversion H; subst. constructor; [exact E|]. apply IH. reflexivity.
    + intros H; inversion H as [|? b ? bs' Hb Hbs]; subst. rewrite Hb. fold (all_some f). apply IH in Hbs. rewrite Hbs. reflexivity.
Qed.

Lemma all_some_le {A B} (f g : A -> option B) l bs : Forall (fun a => forall b, f a = Some b -> g a = Some b) l ->
  all_some f l = Some bs -> all_some g l = Some bs.
Proof.
  intros H E. apply all_some_Forall2 in E. apply all_some_Forall2. revert H. induction E as [|x b l bs Hb E IH]; intros H; [constructor|].
  inversion H; subst. constructor; auto.
Qed.

Definition le_env (e1 e2 : string -> option repr) : Prop := forall name r, e1 name = Some r -> e2 name = Some r.

Lemma c_meaning_le a structs enums e1 e2 t : le_env e1 e2 -> forall r,
  c_meaning a structs enums e1 t = Some r -> c_meaning a structs enums e2 t = Some r.
Proof.
  intros He. induction t as [words|name|name|t IH|t dim IH|t params IH IHs] using c_type_nested; intros r; cbn [c_meaning]; try exact (fun H => H).
  - destruct (c_words a words); [exact (fun H => H)|]. destruct words as [|w [|]]; try discriminate. apply He.
  - destruct (c_meaning a structs enums e1 t) as [r'|]; [|discriminate]. rewrite (IH r' eq_refl). exact (fun H => H).
  - destruct dim; [|discriminate]. destruct (c_meaning a structs enums e1 t) as [r'|]; [|discriminate].
    rewrite (IH r' eq_refl). exact (fun H => H).
  - destruct (c_meaning a structs enums e1 t) as [r'|]; [|discriminate]. rewrite (IH r' eq_refl).
    destruct (all_some (c_meaning a structs enums e1) params) as [rs|] eqn:E.
    + rewrite (all_some_le _ _ _ _ IHs E). exact (fun H => H).
    + destruct r'; discriminate.
Qed.

Lemma py_meaning_le a e1 e2 t : le_env e1 e2 -> forall r, py_meaning a e1 t = Some r -> py_meaning a e2 t = Some r.
Proof.
  intros He. induction t as [name|t IH|t args IH IHs|t dim IH] using py_type_nested; intros r; cbn [py_meaning].
  - destruct (ctypes_name a name); [exact (fun H => H)|]. apply He.
  - destruct (py_meaning a e1 t) as [r'|]; [|discriminate]. rewrite (IH r' eq_refl). exact (fun H => H).
  - destruct (py_meaning a e1 t) as [r'|]; [|discriminate]. rewrite (IH r' eq_refl).
    destruct (all_some (py_meaning a e1) args) as [rs|] eqn:E; [|discriminate].
    rewrite (all_some_le _ _ _ _ IHs E). exact (fun H => H).
  - destruct (py_meaning a e1 t) as [r'|]; [|discriminate]. rewrite (IH r' eq_refl). exact (fun H => H).
Qed.

(** * Names *)

Lemma eqs_not_c a name : eqs_name name = true -> c_words a [name] = None.
Proof.
  intros H. cbn [c_words find_name].
  repeat match goal with |- (if (?n =? ?l)%string then _ else _) = _ =>
    destruct (String.eqb_spec n l) as [->|_]; [discriminate H|] end.
  reflexivity.
Qed.

Lemma eqs_not_ctypes a name : eqs_name name = true -> ctypes_name a name = None.
Proof.
  intros H. unfold ctypes_name. cbn [find_name].
  repeat match goal with |- (if (?n =? ?l)%string then _ else _) = _ =>
    destruct (String.eqb_spec n l) as [->|_]; [discriminate H|] end.
  reflexivity.
Qed.

Lemma other_name name : eqs_name name = false -> eqs_name (c_type_name name) = false.
Proof.
  intros H. unfold c_type_name. rewrite H.
  repeat match goal with |- eqs_name (if ?c then _ else _) = _ => destruct c; [reflexivity|] end.
  reflexivity.
Qed.

Lemma word_sound a name r r' : eqs_name name = false -> c_words a [name] = Some r -> ctypes_name a (c_type_name name) = Some r' -> r' = r.
Proof.
  intros _. cbn [c_words find_name].
  repeat match goal with |- (if (?n =? ?l)%string then _ else _) = _ -> _ =>
    destruct (String.eqb_spec n l) as [->|_];
    [intros H1 H2; vm_compute in H1, H2; congruence|] end.
  discriminate.
Qed.

Definition some_args (args : list py_type) : list py_type :=
  match args with [PyName name] => if (name =? "None")%string then [] else args | _ => args end.
Definition some_result (restype : py_type) : py_result :=
  match restype with
  | PyName name => if (name =? "eqs_status_t")%string then CheckStatus else ResultType restype
  | _ => ResultType restype
  end.

Lemma none_dec args : args = [PyName "None"] \/ some_args args = args.
Proof.
  destruct args as [|[n|t|t l|t n] [|p args]]; try (right; reflexivity). cbn. destruct (String.eqb_spec n "None") as [->|]; auto.
Qed.

Lemma status_dec p : p = PyName "eqs_status_t" \/ some_result p = ResultType p.
Proof. destruct p as [n|t|t l|t n]; try (right; reflexivity). cbn. destruct (String.eqb_spec n "eqs_status_t") as [->|]; auto. Qed.

Section Sound.
  Context (a : abi) (structs enums : list string) (G : string -> option repr).
  Context (HG : forall name r, G name = Some r -> eqs_name name = true).
  Context (HS : forall name, In name structs -> eqs_name name = true /\ G name = Some (RStruct name)).
  Context (HE : forall name, In name enums -> eqs_name name = true /\ G name = Some (REnum name)).

  Context (HP : forall name r, G name = Some r -> match r with RFunction _ _ | RArray _ _ => False | _ => True end).

  Notation c := (c_meaning a structs enums G).
  Notation py := (py_meaning a G).

  Lemma name_sound name r r' : c (CNames [name]) = Some r -> py (PyName (c_type_name name)) = Some r' -> r' = r.
  Proof.
    cbn [c_meaning py_meaning]. destruct (eqs_name name) eqn:E.
    - rewrite (eqs_not_c a name E). unfold c_type_name. rewrite E, (eqs_not_ctypes a name E). congruence.
    - intros H1 H2. destruct (ctypes_name a (c_type_name name)) as [q|] eqn:Eq.
      + inversion H2; subst. destruct (c_words a [name]) as [q'|] eqn:Ew.
        * inversion H1; subst. eapply word_sound; eauto.
        * apply HG in H1. congruence.
      + apply HG in H2. rewrite (other_name name E) in H2. discriminate.
  Qed.

  Lemma typedecl_sound t name r r' : typedecl_name t = Some name -> c t = Some r -> py (PyName (c_type_name name)) = Some r' -> r' = r.
  Proof.
    destruct t as [words|n|n|t|t dim|t params]; try discriminate; cbn [typedecl_name].
    - destruct words as [|w [|]]; try discriminate. intros H; inversion H; subst. apply name_sound.
    - intros H; inversion H; subst. cbn [c_meaning]. destruct (in_dec string_dec name structs) as [Hin|]; [|discriminate].
      destruct (HS name Hin) as [E Hn]. cbn [py_meaning]. unfold c_type_name. rewrite E, (eqs_not_ctypes a name E). congruence.
    - intros H; inversion H; subst. cbn [c_meaning]. destruct (in_dec string_dec name enums) as [Hin|]; [|discriminate].
      destruct (HE name Hin) as [E Hn]. cbn [py_meaning]. unfold c_type_name. rewrite E, (eqs_not_ctypes a name E). congruence.
  Qed.

  (* void and char are not the names of structs *)
  Lemma typedecl_word t name r : typedecl_name t = Some name -> eqs_name name = false -> c t = Some r -> t = CNames [name].
  Proof.
    destruct t as [words|n|n|t|t dim|t params]; try discriminate; cbn [typedecl_name].
    - destruct words as [|w [|]]; try discriminate. congruence.
    - intros H E; inversion H; subst. cbn [c_meaning]. destruct (in_dec string_dec name structs) as [Hin|]; [|discriminate].
      destruct (HS name Hin). congruence.
    - intros H E; inversion H; subst. cbn [c_meaning]. destruct (in_dec string_dec name enums) as [Hin|]; [|discriminate].
      destruct (HE name Hin). congruence.
  Qed.

  Definition point (r : repr) : repr := match r with RFunction _ _ => RPointer r | r => r end.

  Lemma adjust_point r : adjust (point r) = adjust r.
  Proof. destruct r; reflexivity. Qed.

  Lemma params_sound params args : Forall (fun t => forall p r r', type_to_ctypes t = Some p -> c t = Some r -> py p = Some r' -> r' = point r) params ->
    forall rs rs', all_some type_to_ctypes params = Some args -> all_some c params = Some rs -> all_some py args = Some rs' -> rs' = map point rs.
  Proof.
    intros H rs rs' H1 H2 H3. apply all_some_Forall2 in H1, H2, H3. revert args rs rs' H1 H2 H3.
    induction H as [|t params Ht H IH]; intros args rs rs' H1 H2 H3; inversion H1; subst; inversion H2; subst; inversion H3; subst; [reflexivity|].
    cbn [map]. f_equal; [eapply Ht; eauto|]. eapply IH; eauto.
  Qed.

  Lemma no_void_some rs qs : no_void rs = Some qs -> qs = rs.
  Proof. unfold no_void. destruct (existsb _ rs); congruence. Qed.

  Lemma callback_sound rs qs qs' : c_params rs = Some qs -> callback_args (map point rs) = Some qs' -> qs' = qs.
  Proof.
    unfold callback_args. destruct (existsb _ (map point rs)) eqn:Ea; [discriminate|]. intros H1 H2.
    assert (E : rs <> [RVoid]) by (intros ->; discriminate H2).
    assert (E1 : c_params rs = no_void (map adjust rs)).
    { unfold c_params. destruct rs as [|[] [|]]; try reflexivity. congruence. }
    rewrite E1 in H1. apply no_void_some in H1, H2. subst. clear E E1. induction rs as [|r rs IH]; [reflexivity|].
    cbn [map existsb] in Ea. apply orb_false_iff in Ea as [E1 E2]. cbn [map]. f_equal; [|apply IH; exact E2].
    destruct r; try reflexivity. discriminate.
  Qed.

  Lemma word_plain name r : c (CNames [name]) = Some r -> match r with RFunction _ _ | RArray _ _ => False | _ => True end.
  Proof.
    cbn [c_meaning]. destruct (c_words a [name]) as [q|] eqn:E; [|apply HP]. intros H; inversion H; subst. revert E. cbn [c_words find_name].
    repeat match goal with |- (if ?b then _ else _) = _ -> _ => destruct b; [intros E; inversion E; exact I|] end. discriminate.
  Qed.

  Lemma typedecl_plain t name r : typedecl_name t = Some name -> c t = Some r -> point r = r.
  Proof.
    destruct t as [words|n|n|t|t dim|t params]; try discriminate; cbn [typedecl_name].
    - destruct words as [|w [|]]; try discriminate. intros _ H. apply word_plain in H. destruct r; try reflexivity. destruct H.
    - intros _. cbn [c_meaning]. destruct (in_dec _ _ _); [|discriminate]. intros H; inversion H; reflexivity.
    - intros _. cbn [c_meaning]. destruct (in_dec _ _ _); [|discriminate]. intros H; inversion H; reflexivity.
  Qed.

  Lemma char_word t r : typedecl_name t = Some "char" -> c t = Some r -> r = RChar.
  Proof. intros H Hc. pose proof (typedecl_word _ _ _ H eq_refl Hc) as ->. cbn in Hc. congruence. Qed.

  Lemma void_word t r : typedecl_name t = Some "void" -> c t = Some r -> r = RVoid.
  Proof. intros H Hc. pose proof (typedecl_word _ _ _ H eq_refl Hc) as ->. cbn in Hc. congruence. Qed.

  Lemma type_sound t : forall p r r', type_to_ctypes t = Some p -> c t = Some r -> py p = Some r' -> r' = point r.
  Proof.
    assert (Hbase : forall t name p r r', typedecl_name t = Some name -> p = PyName (c_type_name name) -> c t = Some r -> py p = Some r' ->
                      r' = point r).
    { intros t0 name p r r' Hn -> Hc Hp. rewrite (typedecl_plain _ _ _ Hn Hc). apply (typedecl_sound _ _ _ _ Hn Hc Hp). }
    assert (Hptr : forall t name r r', typedecl_name t = Some name -> c t = Some r -> py (PyPointer (PyName (c_type_name name))) = Some r' ->
                     r' = RPointer r).
    { intros t0 name r r' Hn Hc Hp. cbn [py_meaning] in Hp. change (match ctypes_name a (c_type_name name) with Some q => Some q | None => G (c_type_name name) end) with (py (PyName (c_type_name name))) in Hp.
      destruct (py (PyName (c_type_name name))) as [q|] eqn:E; [|discriminate]. inversion Hp; subst.
      rewrite (typedecl_sound _ _ _ _ Hn Hc E). reflexivity. }
    induction t as [words|name|name|t IH|t dim IH|t params IH IHs] using c_type_nested; intros p r r' Ht Hc Hp.
    - cbn [type_to_ctypes] in Ht. destruct (typedecl_name (CNames words)) as [name|] eqn:En; [|discriminate].
      inversion Ht; subst. eapply Hbase; eauto.
    - inversion Ht; subst. eapply (Hbase (CStructRef name)); eauto; reflexivity.
    - inversion Ht; subst. eapply (Hbase (CEnumRef name)); eauto; reflexivity.
    - assert (Hone : forall name, typedecl_name t = Some name ->
        (if (name =? "void")%string then Some (PyName "ctypes.c_void_p")
         else if (name =? "char")%string then Some (PyName "ctypes.c_char_p") else Some (PyPointer (PyName (c_type_name name)))) = Some p ->
        r' = point r).
      { intros name Hn. cbn [c_meaning] in Hc. destruct (c t) as [q|] eqn:Eq; [|discriminate]. inversion Hc; subst.
        destruct (String.eqb_spec name "void") as [->|_].
        { intros H; inversion H; subst. rewrite (void_word _ _ Hn Eq). cbn in Hp. cbn. congruence. }
        destruct (String.eqb_spec name "char") as [->|_].
        { intros H; inversion H; subst. rewrite (char_word _ _ Hn Eq). cbn in Hp. cbn. congruence. }
        intros H; inversion H; subst. cbn [point]. eapply Hptr; eauto. }
      destruct t as [words|name|name|t|t dim|t params].
      + cbn [type_to_ctypes] in Ht. destruct (typedecl_name (CNames words)) as [name|] eqn:En; [|discriminate]. eapply Hone; eauto.
      + eapply Hone; [reflexivity|exact Ht].
      + eapply Hone; [reflexivity|exact Ht].
      + clear Hone IH. cbn [c_meaning] in Hc. destruct (c t) as [q|] eqn:Eq; [|discriminate]. inversion Hc; subst. cbn [point].
        assert (Htwo : forall name, typedecl_name t = Some name ->
          (if (name =? "char")%string then Some (PyPointer (PyName "ctypes.c_char_p")) else Some (PyPointer (PyPointer (PyName (c_type_name name))))) = Some p ->
          r' = RPointer (RPointer q)).
        { intros name Hn. destruct (String.eqb_spec name "char") as [->|_].
          { intros H; inversion H; subst. rewrite (char_word _ _ Hn Eq). cbn in Hp. congruence. }
          intros H; inversion H; subst. cbn [py_meaning] in Hp.
          change (option_map RPointer (match ctypes_name a (c_type_name name) with Some q => Some q | None => G (c_type_name name) end)) with (py (PyPointer (PyName (c_type_name name)))) in Hp.
          destruct (py (PyPointer (PyName (c_type_name name)))) as [q'|] eqn:E; [|discriminate]. inversion Hp; subst. f_equal. eapply Hptr; eauto. }
        destruct t as [words|name|name|t|t dim|t params].
        * cbn [type_to_ctypes] in Ht. destruct (typedecl_name (CNames words)) as [name|] eqn:En; [|discriminate]. eapply Htwo; eauto.
        * eapply Htwo; [reflexivity|exact Ht].
        * eapply Htwo; [reflexivity|exact Ht].
        * clear Htwo. cbn [type_to_ctypes] in Ht. destruct (typedecl_name t) as [name|] eqn:En; [|discriminate].
          destruct (String.eqb_spec name "char") as [->|_]; [|discriminate]. inversion Ht; subst.
          cbn [c_meaning] in Eq. destruct (c t) as [q'|] eqn:Eq'; [|discriminate]. inversion Eq; subst.
          rewrite (char_word _ _ En Eq'). cbn in Hp. congruence.
        * discriminate.
        * discriminate.
      + discriminate.
      + change (type_to_ctypes (CPointer (CFunction t params))) with (type_to_ctypes (CFunction t params)) in Ht.
        cbn [c_meaning] in Hc. change (match c t, all_some c params with
          | Some (RFunction _ _), _ | Some (RArray _ _), _ => None
          | Some r, Some rs => option_map (RFunction r) (c_params rs) | _, _ => None end) with (c (CFunction t params)) in Hc.
        destruct (c (CFunction t params)) as [q|] eqn:Eq; [|discriminate]. inversion Hc; subst.
        rewrite (IH _ _ _ Ht eq_refl Hp). cbn [c_meaning] in Eq. destruct (c t) as [[]|], (all_some c params) as [rs|]; try discriminate Eq;
          destruct (c_params rs); inversion Eq; reflexivity.
    - cbn [type_to_ctypes c_meaning] in Ht, Hc. destruct dim as [dim|]; [|discriminate].
      destruct (type_to_ctypes t) as [q|] eqn:Eq; [|discriminate]. inversion Ht; subst. destruct (c t) as [rc|] eqn:Ec; [|discriminate].
      cbn [py_meaning] in Hp. destruct (py q) as [rp|] eqn:Ep; [|discriminate]. inversion Hp; subst.
      rewrite (IH _ _ _ eq_refl eq_refl Ep). destruct rc; cbn [stored option_map] in Hc; inversion Hc; subst; reflexivity.
    - cbn [type_to_ctypes c_meaning] in Ht, Hc. destruct (type_to_ctypes t) as [q|] eqn:Eq; [|discriminate].
      destruct (all_some type_to_ctypes params) as [args|] eqn:Ea; [|discriminate]. inversion Ht; subst.
      destruct (c t) as [rc|] eqn:Ec; [|discriminate]. cbn [py_meaning] in Hp. destruct (py q) as [rp|] eqn:Ep; [|discriminate].
      destruct (all_some py args) as [rs'|] eqn:Er'; [|discriminate].
      pose proof (IH _ _ _ eq_refl eq_refl Ep) as ->.
      assert (Hrc : point rc = rc /\ exists rs qs, all_some c params = Some rs /\ c_params rs = Some qs /\ r = RFunction rc qs).
      { destruct (all_some c params) as [rs|]; [|destruct rc; discriminate Hc].
        destruct rc; try discriminate Hc; destruct (c_params rs) as [qs|] eqn:Eqs; try discriminate Hc; inversion Hc; subst;
          (split; [reflexivity|exists rs, qs; auto]). }
      destruct Hrc as (Hrc & rs & qs & Ers & Eqs & ->). rewrite Hrc in Hp.
      pose proof (params_sound _ _ IHs _ _ Ea Ers Er') as ->. destruct (callback_args (map point rs)) as [qs'|] eqn:Eq'; [|discriminate].
      inversion Hp; subst. rewrite (callback_sound _ _ _ Eqs Eq'). reflexivity.
  Qed.

  Lemma stored_some r q : stored r = Some q -> r = Some q /\ point q = q.
  Proof. destruct r as [[]|]; cbn; intros H; inversion H; subst; split; reflexivity. Qed.

  Lemma members_sound members ps rs rs' : members_to_ctypes members = Some ps ->
    all_some (fun '(n, t) => option_map (pair n) (stored (c t))) members = Some rs ->
    all_some (fun '(n, t) => option_map (pair n) (py t)) ps = Some rs' -> rs' = rs.
  Proof.
    unfold members_to_ctypes. intros H1 H2 H3. apply all_some_Forall2 in H1, H2, H3. revert ps rs rs' H1 H2 H3.
    induction members as [|[n t] members IH]; intros ps rs rs' H1 H2 H3; inversion H1; subst; inversion H2; subst; inversion H3; subst; [reflexivity|].
    f_equal; [|eapply IH; eauto]. cbn beta iota in *. destruct (type_to_ctypes t) as [p|] eqn:Et; [|discriminate].
    match goal with H : option_map _ (Some p) = Some _ |- _ => cbn in H; inversion H; subst end. cbn beta iota in *.
    destruct (stored (c t)) as [q|] eqn:Ec; [|discriminate]. apply stored_some in Ec as [Ec Eq].
    destruct (py p) as [q'|] eqn:Ep; [|discriminate]. cbn in *.
    pose proof (type_sound _ _ _ _ Et Ec Ep). congruence.
  Qed.

  Context (HT : forall r, G "eqs_status_t" = Some r -> r = RInt true 4).

  Lemma type_word t name : type_to_ctypes t = Some (PyName name) -> eqs_name name = true \/ name = "None" -> exists w, typedecl_name t = Some w /\ c_type_name w = name.
  Proof.
    assert (H : forall t name, option_map (fun name => PyName (c_type_name name)) (typedecl_name t) = Some (PyName name) ->
              exists w, typedecl_name t = Some w /\ c_type_name w = name).
    { intros t0 n H. destruct (typedecl_name t0) as [w|]; [|discriminate]. inversion H. exists w; auto. }
    assert (H' : forall t name, match typedecl_name t with
      | Some name => if (name =? "void")%string then Some (PyName "ctypes.c_void_p") else if (name =? "char")%string then Some (PyName "ctypes.c_char_p") else Some (PyPointer (PyName (c_type_name name)))
      | None => None end = Some (PyName name) -> eqs_name name = true \/ name = "None" -> False).
    { intros t0 n. destruct (typedecl_name t0) as [w|]; [|discriminate]. destruct (w =? "void")%string; [|destruct (w =? "char")%string; [|discriminate]];
        intros E; inversion E; subst; intros [|]; discriminate. }
    destruct t as [words|n|n|t|t dim|t params]; intros E Hn.
    - apply H; exact E.
    - apply H; exact E.
    - apply H; exact E.
    - exfalso. destruct t as [words|n|n|t|t dim|t params].
      + eapply (H' (CNames words)); eauto.
      + eapply (H' (CStructRef n)); eauto.
      + eapply (H' (CEnumRef n)); eauto.
      + cbn [type_to_ctypes] in E. destruct t as [words|n|n|t|t dim|t params]; repeat match type of E with
          | (match ?x with _ => _ end) = _ => destruct x; try discriminate E
          | (if ?x then _ else _) = _ => destruct x; try discriminate E
          end.
      + discriminate.
      + cbn [type_to_ctypes] in E. destruct (type_to_ctypes t), (all_some type_to_ctypes params); discriminate.
    - cbn [type_to_ctypes] in E. destruct dim; [|discriminate]. destruct (type_to_ctypes t); discriminate.
    - cbn [type_to_ctypes] in E. destruct (type_to_ctypes t), (all_some type_to_ctypes params); discriminate.
  Qed.

  Lemma none_word w : c_type_name w = "None" -> w = "void".
  Proof.
    unfold c_type_name. destruct (eqs_name w) eqn:E; [intros ->; discriminate|].
    destruct (w =? "uintptr_t")%string; [discriminate|]. destruct (String.eqb_spec w "void") as [->|_]; [reflexivity|].
    repeat match goal with |- (if ?b then _ else _) = _ -> _ => destruct b; [discriminate|] end. discriminate.
  Qed.

  Lemma status_word w : c_type_name w = "eqs_status_t" -> w = "eqs_status_t".
  Proof.
    unfold c_type_name. destruct (eqs_name w) eqn:E; [exact (fun H => H)|].
    repeat match goal with |- (if ?b then _ else _) = _ -> _ => destruct b; [discriminate|] end. discriminate.
  Qed.

  Lemma status_sound t r : type_to_ctypes t = Some (PyName "eqs_status_t") -> c t = Some r -> r = RInt true 4.
  Proof.
    intros H Hc. apply type_word in H as (w & Hw & E); [|left; reflexivity]. apply status_word in E as ->. apply HT.
    destruct t as [words|n|n|t|t dim|t params]; try discriminate; cbn [typedecl_name] in Hw.
    - destruct words as [|w [|]]; try discriminate. inversion Hw; subst. exact Hc.
    - inversion Hw; subst. cbn [c_meaning] in Hc. destruct (in_dec _ _ _) as [Hin|]; [|discriminate]. destruct (HS _ Hin). congruence.
    - inversion Hw; subst. cbn [c_meaning] in Hc. destruct (in_dec _ _ _) as [Hin|]; [|discriminate]. destruct (HE _ Hin). congruence.
  Qed.

  Lemma args_sound rs qs qs' : c_params rs = Some qs -> argtypes (map point rs) = Some qs' -> qs' = qs.
  Proof.
    unfold argtypes. rewrite map_map, (map_ext _ _ adjust_point). intros H1 H2.
    assert (E : rs <> [RVoid]) by (intros ->; discriminate H2).
    assert (E1 : c_params rs = no_void (map adjust rs)).
    { unfold c_params. destruct rs as [|[] [|]]; try reflexivity. congruence. }
    congruence.
  Qed.

  Lemma function_sound name result params f r rs x : function_to_ctypes result params = Some f ->
    c (CFunction result params) = Some (RFunction r rs) -> py_function a G (name, f) = Some x -> x = (name, (rs, r)).
  Proof.
    unfold function_to_ctypes. destruct (all_some type_to_ctypes params) as [args|] eqn:Ea; [|discriminate].
    destruct (type_to_ctypes result) as [p|] eqn:Ep; [|discriminate]. intros H; inversion H; subst. clear H.
    cbn [c_meaning]. destruct (c result) as [rc|] eqn:Ec; [|discriminate]. intros Hc.
    assert (Hrc : point rc = rc /\ rc = r /\ exists cs, all_some c params = Some cs /\ c_params cs = Some rs).
    { destruct (all_some c params) as [cs|]; [|destruct rc; discriminate Hc].
      destruct rc; try discriminate Hc; destruct (c_params cs) as [qs|] eqn:Eqs; try discriminate Hc; inversion Hc; subst;
        (split; [reflexivity|split; [reflexivity|exists cs; auto]]). }
    clear Hc. destruct Hrc as (Hrc & -> & cs & Ecs & Eqs).
    unfold py_function. intros Hp.
    assert (Hres : forall r', result_meaning a G (some_result p) = Some r' -> r' = r).
    { intros r' Hr'. destruct (status_dec p) as [->|E].
      - pose proof (status_sound _ _ Ep Ec). cbn in Hr'. congruence.
      - rewrite E in Hr'. rewrite (type_sound _ _ _ _ Ep Ec Hr'). exact Hrc. }
    fold (some_args args) in Hp. fold (some_result p) in Hp.
    destruct (result_meaning a G _) as [r'|]; [|destruct (all_some py _); discriminate Hp]. rewrite (Hres r' eq_refl) in Hp. clear Hres.
    destruct (none_dec args) as [->|Eargs].
    - cbn in Hp. inversion Hp; subst. do 2 f_equal. apply all_some_Forall2 in Ea. inversion Ea as [|t ? ps ? Ht Hps]; subst. inversion Hps; subst.
      apply type_word in Ht as (w & Hw & E); [|right; reflexivity]. apply none_word in E as ->.
      apply all_some_Forall2 in Ecs. inversion Ecs as [|? q ? qs Hq Hqs]; subst. inversion Hqs; subst.
      rewrite (void_word _ _ Hw Hq) in Eqs. cbn in Eqs. congruence.
    - rewrite Eargs in Hp. destruct (all_some py args) as [rs'|] eqn:Er'; [|discriminate].
      assert (Hps : rs' = map point cs).
      { eapply (params_sound params args); eauto. apply Forall_forall. intros t _. apply type_sound. }
      subst. destruct (argtypes (map point cs)) as [qs'|] eqn:Eq'; [|discriminate]. inversion Hp; subst. do 2 f_equal.
      eapply args_sound; eauto.
  Qed.
End Sound.

(** * All the header *)

(* the typedefs at the end of the header *)
Fixpoint final (a : abi) (structs enums : list string) (env : string -> option repr) (header : list c_decl) : string -> option repr :=
  match header with
  | [] => env
  | CTypedef name t :: header =>
      match c_meaning a structs enums env t with
      | Some r => final a structs enums (add_name name r env) header
      | None => env
      end
  | CEnum name _ :: header => final a structs enums (add_name name (REnum name) env) header
  | CStruct name _ :: header => final a structs enums (add_name name (RStruct name) env) header
  | CDeclare _ _ _ :: header => final a structs enums env header
  end.

Lemma add_same name r env : add_name name r env name = Some r.
Proof. unfold add_name. rewrite String.eqb_refl. reflexivity. Qed.

Lemma add_le name r env : env name = None -> le_env env (add_name name r env).
Proof. intros H n q E. unfold add_name. destruct (String.eqb_spec n name) as [->|]; congruence. Qed.

Lemma add_none name r env n : n <> name -> env n = None -> add_name name r env n = None.
Proof. intros H E. unfold add_name. destruct (String.eqb_spec n name); congruence. Qed.

Section Header.
  Context (a : abi) (structs enums : list string).

  Definition fresh (env : string -> option repr) (header : list c_decl) : Prop :=
    NoDup (map decl_name header) /\ forall d, In d header -> env (decl_name d) = None.

  Lemma fresh_add env d header r : fresh env (d :: header) -> fresh (add_name (decl_name d) r env) header.
  Proof.
    intros [H1 H2]. inversion H1; subst. split; [assumption|]. intros d' Hd'. apply add_none.
    - intros E. apply (H3). rewrite <- E. apply in_map. exact Hd'.
    - apply H2. right. exact Hd'.
  Qed.

  Lemma fresh_tl env d header : fresh env (d :: header) -> fresh env header.
  Proof. intros [H1 H2]. inversion H1; subst. split; [assumption|]. intros; apply H2; right; assumption. Qed.

  Lemma final_le header : forall env, fresh env header -> le_env env (final a structs enums env header).
  Proof.
    induction header as [|d header IH]; intros env Hf; [exact (fun _ _ H => H)|].
    assert (Hadd : forall r, le_env env (final a structs enums (add_name (decl_name d) r env) header)).
    { intros r n q Hn. apply IH; [apply fresh_add; exact Hf|]. apply add_le; [apply Hf; left; reflexivity|exact Hn]. }
    destruct d as [name t|name l|name l|name res l]; cbn [final decl_name] in *.
    - destruct (c_meaning a structs enums env t); [apply Hadd|exact (fun _ _ H => H)].
    - apply Hadd.
    - apply Hadd.
    - apply IH. eapply fresh_tl; eauto.
  Qed.

  Lemma final_dom header : forall env name r, final a structs enums env header name = Some r ->
    env name = Some r \/ In name (map decl_name header).
  Proof.
    induction header as [|d header IH]; intros env name r; [left; assumption|].
    assert (Hadd : forall q, final a structs enums (add_name (decl_name d) q env) header name = Some r ->
      env name = Some r \/ In name (map decl_name (d :: header))).
    { intros q H. apply IH in H as [H|H]; [|right; right; exact H]. unfold add_name in H.
      destruct (String.eqb_spec name (decl_name d)) as [->|]; [right; left; reflexivity|left; exact H]. }
    destruct d as [n t|n l|n l|n res l]; cbn [final decl_name] in *.
    - destruct (c_meaning a structs enums env t); [apply Hadd|left; assumption].
    - apply Hadd.
    - apply Hadd.
    - intros H. apply IH in H as [H|H]; [left; exact H|right; right; exact H].
  Qed.

  Definition plain (env : string -> option repr) : Prop :=
    forall name r, env name = Some r -> match r with RFunction _ _ | RArray _ _ => False | _ => True end.

  Lemma final_plain header : forall env, plain env -> (forall name t, In (CTypedef name t) header -> exists word, t = CNames [word]) ->
    plain (final a structs enums env header).
  Proof.
    induction header as [|d header IH]; intros env Hp Hw; [exact Hp|].
    assert (Hadd : forall name r, match r with RFunction _ _ | RArray _ _ => False | _ => True end ->
      plain (final a structs enums (add_name name r env) header)).
    { intros name r Hr. apply IH; [|intros; eapply Hw; right; eassumption]. intros n q. unfold add_name.
      destruct (n =? name)%string; [intros E; inversion E; subst; exact Hr|apply Hp]. }
    destruct d as [name t|name l|name l|name res l]; cbn [final].
    - destruct (c_meaning a structs enums env t) as [r|] eqn:E; [|exact Hp]. apply Hadd.
      destruct (Hw name t (or_introl eq_refl)) as [w ->]. eapply word_plain; eauto.
    - apply Hadd; exact I.
    - apply Hadd; exact I.
    - apply IH; [exact Hp|]. intros; eapply Hw; right; eassumption.
  Qed.

  (* what is in the header is in the final environment *)
  Lemma final_decl header : forall env d, fresh env header -> c_read a structs enums env header = Some d ->
    forall x, In x header -> match x with
      | CTypedef name t => exists r, final a structs enums env header name = Some r /\ c_meaning a structs enums (final a structs enums env header) t = Some r
      | CStruct name _ => final a structs enums env header name = Some (RStruct name)
      | CEnum name _ => final a structs enums env header name = Some (REnum name)
      | CDeclare _ _ _ => True
      end.
  Proof.
    induction header as [|y header IH]; intros env d Hf Hr x Hx; [destruct Hx|].
    pose proof (final_le (y :: header) env Hf) as Hle.
    destruct y as [name t|name l|name l|name res l]; cbn [c_read final decl_name] in *.
    - destruct (c_meaning a structs enums env t) as [r|] eqn:E; [|discriminate].
      assert (Hf' := fresh_add env (CTypedef name t) header r Hf). cbn [decl_name] in Hf'.
      destruct Hx as [<-|Hx]; [|exact (IH _ _ Hf' Hr x Hx)]. exists r. split.
      + apply (final_le header _ Hf'). apply add_same.
      + eapply c_meaning_le; [exact Hle|exact E].
    - destruct (all_some _ l); [|discriminate]. destruct (c_read a structs enums (add_name name (RStruct name) env) header) as [d'|] eqn:E; [|discriminate].
      assert (Hf' := fresh_add env (CStruct name l) header (RStruct name) Hf). cbn [decl_name] in Hf'.
      destruct Hx as [<-|Hx]; [|exact (IH _ _ Hf' E x Hx)]. apply (final_le header _ Hf'). apply add_same.
    - assert (Hf' := fresh_add env (CEnum name l) header (REnum name) Hf). cbn [decl_name] in Hf'.
      destruct Hx as [<-|Hx]; [|exact (IH _ _ Hf' Hr x Hx)]. apply (final_le header _ Hf'). apply add_same.
    - destruct (c_meaning a structs enums env (CFunction res l)) as [[]|]; try discriminate.
      destruct (c_read a structs enums env header) as [d'|] eqn:E; [|discriminate].
      destruct Hx as [<-|Hx]; [exact I|]. exact (IH _ _ (fresh_tl _ _ _ Hf) E x Hx).
  Qed.

  Context (G : string -> option repr).
  Context (HG : forall name r, G name = Some r -> eqs_name name = true).
  Context (HS : forall name, In name structs -> eqs_name name = true /\ G name = Some (RStruct name)).
  Context (HE : forall name, In name enums -> eqs_name name = true /\ G name = Some (REnum name)).
  Context (HP : plain G).
  Context (HT : forall r, G "eqs_status_t" = Some r -> r = RInt true 4).

  Definition type_right (x : string * py_type) : Prop := forall r, py_meaning a G (snd x) = Some r -> G (fst x) = Some r.
  Definition struct_right (x : string * list (string * py_type)) (y : string * list (string * repr)) : Prop :=
    fst x = fst y /\ G (fst x) = Some (RStruct (fst x)) /\
    forall rs, all_some (fun '(n, t) => option_map (pair n) (py_meaning a G t)) (snd x) = Some rs -> rs = snd y.
  Definition function_right (x : string * (list py_type * py_result)) (y : string * (list repr * repr)) : Prop :=
    forall z, py_function a G x = Some z -> z = y.

  Lemma read_right header : forall env d m, fresh env header -> Forall (fun d => eqs_name (decl_name d) = true) header ->
    (forall name t, In (CTypedef name t) header -> exists word, t = CNames [word]) ->
    le_env (final a structs enums env header) G ->
    c_read a structs enums env header = Some d -> generate header = Some m ->
    Forall type_right (pm_types m) /\ Forall2 struct_right (pm_structs m) (d_structs d) /\ Forall2 function_right (pm_functions m) (d_functions d).
  Proof.
    induction header as [|y header IH]; intros env d m Hf Hn Hw Hle Hr Hg.
    { inversion Hr; inversion Hg; subst. repeat split; constructor. }
    pose proof (final_le (y :: header) env Hf) as Hle0. inversion Hn as [|? ? Hny Hn']; subst.
    assert (Hw' : forall name t, In (CTypedef name t) header -> exists word, t = CNames [word]) by (intros; eapply Hw; right; eassumption).
    assert (HleG : le_env env G) by (intros n q H; apply Hle, Hle0, H).
    cbn [generate] in Hg. destruct (generate header) as [m'|] eqn:Eg; [|discriminate].
    destruct y as [name t|name l|name l|name res l]; cbn [c_read final decl_name] in *; rewrite Hny in Hg.
    - destruct (c_meaning a structs enums env t) as [r|] eqn:E; [|discriminate].
      assert (Hf' := fresh_add env (CTypedef name t) header r Hf). cbn [decl_name] in Hf'.
      destruct (Hw name t (or_introl eq_refl)) as [w ->]. cbn in Hg. inversion Hg; subst. cbn [pm_types pm_structs pm_functions].
      destruct (IH _ _ _ Hf' Hn' Hw' Hle Hr eq_refl) as (H1 & H2 & H3). split; [|split; assumption]. constructor; [|exact H1].
      intros q Hq. cbn [fst snd] in *. assert (EG : G name = Some r) by (apply Hle, (final_le header _ Hf'), add_same).
      rewrite EG. f_equal. symmetry. eapply (name_sound a structs enums G); eauto. eapply c_meaning_le; eauto.
    - destruct (all_some _ l) as [rs|] eqn:El; [|discriminate]. destruct (c_read a structs enums (add_name name (RStruct name) env) header) as [d'|] eqn:E; [|discriminate].
      inversion Hr; subst. assert (Hf' := fresh_add env (CStruct name l) header (RStruct name) Hf). cbn [decl_name] in Hf'.
      destruct (members_to_ctypes l) as [ps|] eqn:Ep; [|discriminate]. inversion Hg; subst. cbn [pm_types pm_structs pm_functions d_structs d_functions].
      destruct (IH _ _ _ Hf' Hn' Hw' Hle E eq_refl) as (H1 & H2 & H3). split; [exact H1|split; [|exact H3]]. constructor; [|exact H2].
      split; [reflexivity|split]; [apply Hle, (final_le header _ Hf'), add_same|]. cbn [fst snd]. intros rs' Hrs'.
      eapply (members_sound a structs enums G); eauto. revert El. apply all_some_le. apply Forall_forall. intros [n t] _ [n' q].
      destruct (stored (c_meaning a structs enums env t)) as [q'|] eqn:Eq; [|discriminate]. intros H; inversion H; subst.
      destruct (c_meaning a structs enums env t) as [q''|] eqn:Ec; [|discriminate]. rewrite (c_meaning_le _ _ _ _ _ _ HleG _ Ec), Eq. reflexivity.
    - assert (Hf' := fresh_add env (CEnum name l) header (REnum name) Hf). cbn [decl_name] in Hf'. inversion Hg; subst. cbn [pm_types pm_structs pm_functions].
      exact (IH _ _ _ Hf' Hn' Hw' Hle Hr eq_refl).
    - destruct (c_meaning a structs enums env (CFunction res l)) as [rf|] eqn:Ec; [|discriminate]. destruct rf as [| | | | | | | | | |r rs]; try discriminate.
      destruct (c_read a structs enums env header) as [d'|] eqn:E; [|discriminate]. inversion Hr; subst.
      destruct (function_to_ctypes res l) as [f|] eqn:Ef; [|discriminate]. inversion Hg; subst. cbn [pm_types pm_structs pm_functions d_structs d_functions].
      destruct (IH _ _ _ (fresh_tl _ _ _ Hf) Hn' Hw' Hle E eq_refl) as (H1 & H2 & H3). split; [exact H1|split; [exact H2|]]. constructor; [|exact H3].
      intros z Hz. eapply (function_sound a structs enums G); eauto. eapply c_meaning_le; eauto.
  Qed.

  Lemma types_right types : Forall type_right types -> forall env env', le_env env G -> py_types a env types = Some env' -> le_env env' G.
  Proof.
    induction 1 as [|[name t] types Ht H IH]; intros env env' Hle Hp; cbn [py_types] in Hp; [inversion Hp; subst; exact Hle|].
    destruct (py_meaning a env t) as [r|] eqn:E; [|discriminate]. eapply IH; [|exact Hp]. intros n q. unfold add_name.
    destruct (String.eqb_spec n name) as [->|]; [|apply Hle]. intros Hq; inversion Hq; subst. apply Ht. eapply py_meaning_le; eauto.
  Qed.

  Lemma structs_right ss ds : Forall2 struct_right ss ds -> forall env env' ds', le_env env G -> py_structs a env ss = Some (env', ds') ->
    le_env env' G /\ ds' = ds.
  Proof.
    induction 1 as [|[name members] [name' rs] ss ds Hs H IH]; intros env env' ds' Hle Hp; cbn [py_structs] in Hp; [inversion Hp; subst; auto|].
    destruct Hs as (En & HGn & Hm). cbn [fst snd] in *. subst.
    assert (Hle' : le_env (add_name name' (RStruct name') env) G).
    { intros n q. unfold add_name. destruct (String.eqb_spec n name') as [->|]; [congruence|apply Hle]. }
    destruct (all_some (fun '(n, t) => option_map (pair n) (py_meaning a (add_name name' (RStruct name') env) t)) members) as [ms|] eqn:Em; [|discriminate].
    destruct (py_structs a (add_name name' (RStruct name') env) ss) as [[e ds'']|] eqn:E; [|discriminate]. inversion Hp; subst.
    destruct (IH _ _ _ Hle' E) as [H1 ->]. split; [exact H1|]. do 2 f_equal. apply Hm. revert Em. apply all_some_le.
    apply Forall_forall. intros [n t] _ [n' q]. destruct (py_meaning a _ t) as [q'|] eqn:Eq; [|discriminate]. rewrite (py_meaning_le _ _ _ _ Hle' _ Eq). exact (fun H => H).
  Qed.

  Lemma functions_right fs gs : Forall2 function_right fs gs -> forall env gs', le_env env G -> all_some (py_function a env) fs = Some gs' -> gs' = gs.
  Proof.
    intros H env gs' Hle Hp. apply all_some_Forall2 in Hp. revert gs' Hp. induction H as [|f g fs gs Hf H IH]; intros gs' Hp; inversion Hp; subst; [reflexivity|].
    f_equal; [|apply IH; assumption]. apply Hf. destruct f as [name [args result]]. unfold py_function in *.
    destruct (all_some (py_meaning a env) args) as [rs|] eqn:E; [|discriminate].
    destruct (result_meaning a env result) as [r|] eqn:E'; [|discriminate].
    rewrite (all_some_le (py_meaning a env) (py_meaning a G) args rs); [|apply Forall_forall; intros ? _; apply py_meaning_le; exact Hle|exact E].
    assert (E'' : result_meaning a G result = Some r).
    { destruct result; [exact E'|]. cbn [result_meaning] in *. eapply py_meaning_le; eauto. }
    rewrite E''. assumption.
  Qed.
End Header.

Lemma declarations_right a header m d d' : simple_header header -> generate header = Some m ->
  c_declared a header = Some d -> py_declared a m = Some d' -> d' = d.
Proof.
  intros (Hn & Hu & Hw & Ht) Hg Hc Hp. unfold c_declared in Hc. set (S := struct_names header) in *. set (E := enum_names header) in *.
  assert (Hf : fresh (fun _ => None) header) by (split; [exact Hu|reflexivity]).
  set (G := final a S E (fun _ => None) header).
  assert (Hd := final_decl a S E header _ _ Hf Hc). fold G in Hd.
  assert (HG : forall name r, G name = Some r -> eqs_name name = true).
  { intros name r H. apply final_dom in H as [H|H]; [discriminate|]. apply in_map_iff in H as (x & <- & Hx).
    rewrite Forall_forall in Hn. apply Hn. exact Hx. }
  assert (HS : forall name, In name S -> eqs_name name = true /\ G name = Some (RStruct name)).
  { intros name H. apply in_flat_map in H as (x & Hx & H). destruct x as [n t|n l|n l|n res l]; try destruct H as [|[]]; try destruct H; subst.
    assert (H1 := Hd _ Hx). cbn in H1. split; [eapply HG; eauto|exact H1]. }
  assert (HE : forall name, In name E -> eqs_name name = true /\ G name = Some (REnum name)).
  { intros name H. apply in_flat_map in H as (x & Hx & H). destruct x as [n t|n l|n l|n res l]; try destruct H as [|[]]; try destruct H; subst.
    assert (H1 := Hd _ Hx). cbn in H1. split; [eapply HG; eauto|exact H1]. }
  assert (HP : plain G) by (apply final_plain; [discriminate|exact Hw]).
  assert (HT : forall r, G "eqs_status_t" = Some r -> r = RInt true 4).
  { intros r H. assert (H' := H). apply final_dom in H' as [H'|H']; [discriminate|]. apply in_map_iff in H' as (x & Ex & Hx).
    assert (Hx' := Ht x Hx Ex). subst x. destruct (Hd _ Hx) as (q & H1 & H2). cbn in H2. congruence. }
  destruct (read_right a S E G HG HS HE HP HT header _ _ _ Hf Hn Hw (fun _ _ H => H) Hc Hg) as (H1 & H2 & H3).
  unfold py_declared in Hp. destruct (py_types a (fun _ => None) (pm_types m)) as [e1|] eqn:E1; [|discriminate].
  assert (L0 : le_env (fun _ => None) G) by (intros ? ? H; discriminate H).
  assert (L1 := types_right a G _ H1 _ _ L0 E1).
  destruct (py_structs a e1 (pm_structs m)) as [[e2 ds]|] eqn:E2; [|discriminate].
  destruct (structs_right a G _ _ H2 _ _ _ L1 E2) as [L2 ->].
  destruct (all_some (py_function a e2) (pm_functions m)) as [fs|] eqn:E3; [|discriminate].
  rewrite (functions_right a G _ _ H3 _ _ L2 E3) in Hp. inversion Hp. destruct d; reflexivity.
Qed.
