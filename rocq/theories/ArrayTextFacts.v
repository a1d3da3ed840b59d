(* Lemmas about the text of arrays *)
From Coq Require Import NArith Hexadecimal HexadecimalString HexadecimalN.
From Verif Require Import Base BaseFacts Array Origin Labels NpyFacts PathFacts PyPrintFacts IteratorsFacts ArrayText SpecArrayText.
Local Open Scope string_scope.
Local Open Scope list_scope.
Local Open Scope nat_scope.

(** * Names of origins *)

Lemma find_origin_some names : forall i name k, find_origin i names name = Some k -> i <= k /\ nth_error names (k - i) = Some name.
Proof.
  induction names as [|x names IH]; intros i name k H; [discriminate|]. cbn in H. destruct (String.eqb_spec x name) as [->|_].
  - injection H as <-. rewrite Nat.sub_diag. auto.
  - apply IH in H as [H1 H2]. split; [lia|]. replace (k - i) with (S (k - (i + 1))) by lia. exact H2.
Qed.

Lemma register_name r name : nth_error (fst (register_data_origin r name)) (snd (register_data_origin r name)) = Some name.
Proof.
  unfold register_data_origin. destruct (find_origin 0 r name) as [k|] eqn:E; cbn [fst snd].
  - apply find_origin_some in E as [_ E]. rewrite Nat.sub_0_r in E. exact E.
  - rewrite app_length. cbn. replace (length r + 1 - 1) with (length r) by lia. rewrite nth_error_app2 by lia. rewrite Nat.sub_diag. reflexivity.
Qed.

Lemma register_keeps r name i x : nth_error r i = Some x -> nth_error (fst (register_data_origin r name)) i = Some x.
Proof.
  intros H. unfold register_data_origin. destruct (find_origin 0 r name); cbn [fst]; [exact H|].
  rewrite nth_error_app1; [exact H|]. apply nth_error_Some. congruence.
Qed.

Lemma get_name r id name : get_data_origin r id = Ok name <-> nth_error r id = Some name \/ nth_error r id = None /\ nth_error r 0 = Some name.
Proof.
  unfold get_data_origin, index_slice. destruct (Nat.ltb_spec id (length r)) as [H|H].
  - destruct (nth_error r id) as [x|] eqn:E; [|apply nth_error_None in E; lia]. split; [intros [= <-]; auto|]. intros [[= <-]|[E' _]]; [reflexivity|discriminate E'].
  - apply nth_error_None in H. rewrite H. destruct (nth_error r 0) as [x|]; (split; [intros H'|intros [H'|[_ H']]]); try discriminate H'.
    + injection H' as <-. auto.
    + injection H' as <-. reflexivity.
Qed.

Lemma origin_kind a k : array_origin a = Ok k -> k = a_kind a.
Proof. unfold array_origin, call. destruct (a_kind a); try (intros [= <-]; reflexivity). destruct (a_callbacks a OpOrigin); try discriminate; [intros [= <-]; reflexivity|]. destruct (_ =? 0)%Z; [intros [= <-]; reflexivity|discriminate]. Qed.

Lemma origin_field_named r a o name : snd (origin_field r a) = Ok o -> (o = Some name <-> origin_named r a name).
Proof.
  unfold origin_field. destruct (array_origin a) as [k|e|m|u] eqn:E; cbn [result_ok]; try discriminate.
  - pose proof (origin_kind _ _ E) as ->. unfold origin_named. destruct (a_kind a) as [| |id] eqn:K; cbn [origin_identifier].
    + pose proof (register_name r "rust.ndarray") as R. destruct (register_data_origin r "rust.ndarray") as [r' id]. cbn [fst snd] in *.
      rewrite (proj2 (get_name r' id _) (or_introl R)). cbn [bind]. intros [= <-]. split; [intros [= <-]; reflexivity|intros ->; reflexivity].
    + pose proof (register_name r "rust.EmptyArray") as R. destruct (register_data_origin r "rust.EmptyArray") as [r' id]. cbn [fst snd] in *.
      rewrite (proj2 (get_name r' id _) (or_introl R)). cbn [bind]. intros [= <-]. split; [intros [= <-]; reflexivity|intros ->; reflexivity].
    + cbn [snd]. destruct (get_data_origin r id) as [x|e|m|u] eqn:G; try discriminate. cbn [bind]. intros [= <-]. rewrite <- get_name, G. split; [intros [= <-]; split; [exact E|reflexivity]|intros [_ [= <-]]; reflexivity].
  - cbn [snd]. intros [= <-]. split; [discriminate|]. unfold origin_named. unfold array_origin, call in *. destruct (a_kind a); try discriminate E. rewrite E. intros [H _]. discriminate H.
Qed.

Lemma origin_field_keeps r a i x : nth_error r i = Some x -> nth_error (fst (origin_field r a)) i = Some x.
Proof.
  intros H. unfold origin_field. destruct (result_ok (array_origin a)) as [[k|]|e|m|u]; try exact H.
  destruct k; cbn [origin_identifier]; [|
    |exact H];
    match goal with |- context [register_data_origin r ?n] => pose proof (register_keeps r n i x H) as R; destruct (register_data_origin r n); exact R end.
Qed.

(** * The text of names *)

Lemma find_escape_in c s l : find_escape c l = Some s -> In (c, s) l.
Proof. induction l as [|[d t] l IH]; cbn; [discriminate|]. destruct (Ascii.eqb_spec c d) as [->|_]; [intros [= ->]; auto|auto]. Qed.

Lemma find_escape_not c l : find_escape c l = None -> ~ In c (map fst l).
Proof. induction l as [|[d t] l IH]; cbn; [auto|]. destruct (Ascii.eqb_spec c d) as [->|n]; [discriminate|]. intros H [->|H']; [congruence|]. exact (IH H H'). Qed.

Definition starts (s : string) : bool := match s with String c _ => Ascii.eqb c backslash | "" => false end.

Lemma escapes_start : forallb (fun ds => starts (snd ds)) escapes = true.
Proof. vm_compute. reflexivity. Qed.

Lemma escapes_differ : forallb (fun ds1 => forallb (fun ds2 => implb (String.prefix (snd ds1) (snd ds2)) (Ascii.eqb (fst ds1) (fst ds2))) escapes) escapes = true.
Proof. vm_compute. reflexivity. Qed.

Lemma append_prefix a : forall b x y, a +++ x = b +++ y -> String.prefix a b = true \/ String.prefix b a = true.
Proof.
  induction a as [|c a IH]; intros [|d b] x y H; [left; reflexivity|left; reflexivity|right; reflexivity|]. cbn in H. injection H as <- H. cbn. destruct (ascii_dec c c); [|congruence]. exact (IH _ _ _ H).
Qed.

Lemma append_cancel a x y : a +++ x = a +++ y -> x = y.
Proof. induction a as [|c a IH]; cbn; [auto|]. intros [= H]. auto. Qed.

Lemma in_escapes_start c s : In (c, s) escapes -> exists t, s = String backslash t.
Proof.
  intros H. pose proof escapes_start as E. rewrite forallb_forall in E. specialize (E _ H). cbn [snd] in E. destruct s as [|d t]; [discriminate E|]. apply Ascii.eqb_eq in E as ->. eauto.
Qed.

Lemma not_special c : find_escape c escapes = None -> c <> quote /\ c <> backslash.
Proof. intros H. apply find_escape_not in H. split; intros ->; apply H; [left|right; left]; reflexivity. Qed.

Lemma escape_char_cut c c' x x' : escape_char c +++ x = escape_char c' +++ x' -> c = c' /\ x = x'.
Proof.
  unfold escape_char. destruct (find_escape c escapes) as [s|] eqn:E; destruct (find_escape c' escapes) as [s'|] eqn:E'; intros H.
  - apply find_escape_in in E, E'. assert (Hc : c = c').
    { pose proof escapes_differ as D. rewrite forallb_forall in D. destruct (append_prefix _ _ _ _ H) as [P|P].
      - specialize (D _ E). rewrite forallb_forall in D. specialize (D _ E'). cbn [fst snd] in D. rewrite P in D. apply Ascii.eqb_eq in D. exact D.
      - specialize (D _ E'). rewrite forallb_forall in D. specialize (D _ E). cbn [fst snd] in D. rewrite P in D. apply Ascii.eqb_eq in D. symmetry. exact D. }
    split; [exact Hc|]. subst c'. assert (Hs : s = s').
    { assert (Hn : forallb (fun ds1 => forallb (fun ds2 => implb (Ascii.eqb (fst ds1) (fst ds2)) (String.eqb (snd ds1) (snd ds2))) escapes) escapes = true) by (vm_compute; reflexivity).
      rewrite forallb_forall in Hn. specialize (Hn _ E). rewrite forallb_forall in Hn. specialize (Hn _ E'). cbn [fst snd] in Hn. rewrite Ascii.eqb_refl in Hn. apply String.eqb_eq in Hn. exact Hn. }
    subst s'. exact (append_cancel _ _ _ H).
  - apply find_escape_in, in_escapes_start in E as (t & ->). apply not_special in E' as [_ E']. cbn in H. injection H as H _. congruence.
  - apply find_escape_in, in_escapes_start in E' as (t & ->). apply not_special in E as [_ E]. cbn in H. injection H as H _. congruence.
  - cbn in H. injection H as -> ->. auto.
Qed.

Lemma escape_char_head c : exists d t, escape_char c = String d t /\ d <> quote.
Proof.
  unfold escape_char. destruct (find_escape c escapes) as [s|] eqn:E.
  - apply find_escape_in, in_escapes_start in E as (t & ->). exists backslash, t. split; [reflexivity|discriminate].
  - exists c, "". split; [reflexivity|]. apply not_special. exact E.
Qed.

Lemma escape_cut s : forall s' x x', escape s +++ String quote x = escape s' +++ String quote x' -> s = s' /\ x = x'.
Proof.
  induction s as [|c s IH]; intros [|c' s'] x x' H; cbn [escape] in H.
  - cbn in H. injection H as ->. auto.
  - destruct (escape_char_head c') as (d & t & E & N). rewrite E in H. cbn in H. injection H as H _. congruence.
  - destruct (escape_char_head c) as (d & t & E & N). rewrite E in H. cbn in H. injection H as H _. congruence.
  - rewrite !append_assoc in H. apply escape_char_cut in H as [-> H]. apply IH in H as [-> ->]. auto.
Qed.

(** * The text of numbers *)

Lemma hex_free d : free "," (HexadecimalString.NilEmpty.string_of_uint d).
Proof. induction d; cbn [HexadecimalString.NilEmpty.string_of_uint]; [apply free_nil|..]; (apply free_cons; split; [discriminate|exact IHd]). Qed.

Lemma pointer_cut p q x y : pointer_text p +++ String "," x = pointer_text q +++ String "," y -> p = q /\ x = y.
Proof.
  intros H. apply cut_first in H as [H ->]; [|apply (proj2 (free_app _ "0x" _)); split; [|apply hex_free]; repeat (apply free_cons; split; [discriminate|]); apply free_nil..].
  split; [|reflexivity]. unfold pointer_text in H. apply append_cancel in H. apply (f_equal HexadecimalString.NilEmpty.uint_of_string) in H.
  rewrite !HexadecimalString.NilEmpty.usu in H. injection H as H. rewrite <- (HexadecimalN.Unsigned.of_to p), H. apply HexadecimalN.Unsigned.of_to.
Qed.

Lemma nat_free c n : is_ascii_digit c = false -> free c (string_of_nat n).
Proof. intros H. exact (digits_no c _ (string_of_nat_digits n) H). Qed.

Lemma nat_nonempty n : string_of_nat n <> "".
Proof. intros H. destruct (string_of_nat_last n) as (m & c & E & _). rewrite H in E. destruct m; discriminate E. Qed.

Lemma shape_join l : forall l', join ", " (map string_of_nat l) = join ", " (map string_of_nat l') -> l = l'.
Proof.
  assert (F : forall n, free "," (string_of_nat n)) by (intros n; apply nat_free; reflexivity).
  assert (C : forall n a, String "," a = string_of_nat n -> False).
  { intros n a H. specialize (F n). rewrite <- H in F. apply free_cons in F as [F _]. congruence. }
  assert (D : forall n m a, string_of_nat n = string_of_nat m +++ String "," a -> False).
  { intros n m a H. specialize (F n). rewrite H in F. apply free_app in F as [_ F]. apply free_cons in F as [F _]. congruence. }
  assert (N : forall n a, string_of_nat n +++ a = "" -> False).
  { intros n a H. apply (nat_nonempty n). destruct (string_of_nat n); [reflexivity|discriminate H]. }
  induction l as [|n [|m l] IH]; intros [|n' [|m' l']] H; cbn [map join] in H; try reflexivity.
  - exfalso. exact (nat_nonempty n' (eq_sym H)).
  - exfalso. exact (N _ _ (eq_sym H)).
  - exfalso. exact (nat_nonempty n H).
  - apply string_of_nat_inj in H as ->. reflexivity.
  - exfalso. exact (D _ _ _ H).
  - exfalso. exact (N _ _ H).
  - exfalso. exact (D _ _ _ (eq_sym H)).
  - apply cut_first in H as [E H]; [|apply F..]. apply string_of_nat_inj in E as ->. f_equal. apply IH. cbn in H. injection H as H. exact H.
Qed.

Lemma shape_free l : free "]" (join ", " (map string_of_nat l)).
Proof.
  apply join_free; [repeat (apply free_cons; split; [discriminate|]); apply free_nil|]. apply Forall_forall. intros s Hs. apply in_map_iff in Hs as (n & <- & _). apply nat_free. reflexivity.
Qed.

(** * The whole text *)

Definition whole (p : N) (o : option string) (s : option (list nat)) : string :=
  "eqs_array_t { ptr: " +++ pointer_text p +++ ", origin: " +++ option_text (option_map string_text o)
    +++ ", shape: " +++ option_text (option_map shape_text s) +++ " }".

Lemma origin_cut o o' x x' : option_text (option_map string_text o) +++ x = option_text (option_map string_text o') +++ x' -> o = o' /\ x = x'.
Proof.
  destruct o as [s|], o' as [s'|]; cbn [option_map option_text]; intros H; try (cbn in H; discriminate H).
  - rewrite !append_assoc in H. apply append_cancel in H. unfold string_text in H. rewrite !append_assoc in H. cbn in H. injection H as H.
    apply escape_cut in H as [-> H]. injection H as ->. auto.
  - apply append_cancel in H. auto.
Qed.

Lemma shape_cut s s' : option_text (option_map shape_text s) +++ " }" = option_text (option_map shape_text s') +++ " }" -> s = s'.
Proof.
  destruct s as [l|], s' as [l'|]; cbn [option_map option_text]; intros H; try (cbn in H; discriminate H); [|reflexivity].
  unfold shape_text in H. rewrite !append_assoc in H. apply append_cancel, append_cancel in H. apply cut_first in H as [H _]; [|apply shape_free..]. f_equal. apply shape_join. exact H.
Qed.

Lemma whole_inj p o s p' o' s' : whole p o s = whole p' o' s' -> p = p' /\ o = o' /\ s = s'.
Proof.
  unfold whole. intros H. apply append_cancel in H. apply (pointer_cut p p') in H as [-> H]. cbn in H. injection H as H.
  apply origin_cut in H as [-> H]. injection H as H. apply shape_cut in H as ->. auto.
Qed.

Lemma array_text_ok r p a text : snd (array_text r p a) = Ok text -> p <> 0%N ->
  exists o s, snd (origin_field r a) = Ok o /\ result_ok (array_shape a) = Ok s /\ text = whole p o s.
Proof.
  unfold array_text. destruct (N.eqb_spec p 0) as [->|n]; [congruence|]. intros H _. destruct (origin_field r a) as [r' o]. cbn [snd] in *.
  destruct o as [o|e|m|u]; try discriminate H. cbn [bind] in H. destruct (result_ok (array_shape a)) as [s|e|m|u]; try discriminate H. cbn [bind] in H. injection H as <-. eauto.
Qed.

Lemma array_text_null r a : array_text r 0 a = (r, Ok "eqs_array_t { ptr: 0x0, origin: None, shape: None }").
Proof. reflexivity. Qed.

Lemma shape_shown a s shape : result_ok (array_shape a) = Ok s -> (array_shape a = Ok shape <-> s = Some shape).
Proof. destruct (array_shape a); cbn; try discriminate; intros [= <-]; split; try discriminate; intros [= ->]; reflexivity. Qed.

Lemma array_text_read r1 r2 p1 p2 a1 a2 text :
  snd (array_text r1 p1 a1) = Ok text -> snd (array_text r2 p2 a2) = Ok text ->
  p1 = p2 /\ (p1 <> 0%N -> (forall shape, array_shape a1 = Ok shape <-> array_shape a2 = Ok shape)
                           /\ (forall name, origin_named r1 a1 name <-> origin_named r2 a2 name)).
Proof.
  intros H1 H2.
  assert (E : forall r p a, snd (array_text r p a) = Ok text -> exists o s, text = whole p o s).
  { intros r p a H. destruct (N.eq_dec p 0) as [->|n]; [rewrite array_text_null in H; injection H as <-; exists None, None; reflexivity|]. destruct (array_text_ok _ _ _ _ H n) as (o & s & _ & _ & E). eauto. }
  destruct (E _ _ _ H1) as (o1 & s1 & E1). destruct (E _ _ _ H2) as (o2 & s2 & E2). rewrite E1 in E2. apply whole_inj in E2 as (<- & _ & _). split; [reflexivity|]. intros n.
  clear E o1 s1 E1 o2 s2. destruct (array_text_ok _ _ _ _ H1 n) as (o1 & s1 & O1 & S1 & E1). destruct (array_text_ok _ _ _ _ H2 n) as (o2 & s2 & O2 & S2 & E2).
  rewrite E1 in E2. apply whole_inj in E2 as (_ & <- & <-). split.
  - intros shape. rewrite (shape_shown _ _ _ S1), (shape_shown _ _ _ S2). reflexivity.
  - intros name. rewrite <- (origin_field_named _ _ _ name O1), <- (origin_field_named _ _ _ name O2). reflexivity.
Qed.

Lemma array_text_total r p a : r <> [] ->
  (p = 0%N \/ forall op, op = OpOrigin \/ op = OpShape -> forall o, a_kind a = ForeignArray o -> a_callbacks a op <> Missing) ->
  exists text, snd (array_text r p a) = Ok text.
Proof.
  intros Hr H. unfold array_text. destruct (N.eqb_spec p 0) as [->|n]; [cbn [snd]; eauto|]. destruct H as [H|H]; [congruence|].
  assert (Hs : exists s, result_ok (array_shape a) = Ok s).
  { unfold array_shape, call. pose proof (H OpShape (or_intror eq_refl)) as K. destruct (a_kind a) as [| |o]; [eexists; reflexivity..|]. specialize (K o eq_refl).
    destruct (a_callbacks a OpShape) as [| |z]; [eexists; reflexivity|congruence|]. destruct (z =? 0)%Z; eexists; reflexivity. }
  assert (Ho : exists o, snd (origin_field r a) = Ok o).
  { assert (Hk : exists k, result_ok (array_origin a) = Ok k).
    { unfold array_origin, call. pose proof (H OpOrigin (or_introl eq_refl)) as K. destruct (a_kind a) as [| |o]; [eexists; reflexivity..|]. specialize (K o eq_refl).
      destruct (a_callbacks a OpOrigin) as [| |z]; [eexists; reflexivity|congruence|]. destruct (z =? 0)%Z; eexists; reflexivity. }
    destruct Hk as (k & Hk). unfold origin_field. rewrite Hk. destruct k as [k|]; [|cbn; eauto].
    assert (G : forall q id, q <> [] -> exists name, get_data_origin q id = Ok name).
    { intros q id Hq. destruct (nth_error q id) as [x|] eqn:E; [exists x; apply get_name; auto|]. destruct q as [|x q]; [congruence|]. exists x. apply get_name. auto. }
    destruct k as [| |id]; cbn [origin_identifier].
    - pose proof (register_name r "rust.ndarray") as R. destruct (register_data_origin r "rust.ndarray") as [r' id]. cbn [fst snd] in *. rewrite (proj2 (get_name _ _ _) (or_introl R)). cbn. eauto.
    - pose proof (register_name r "rust.EmptyArray") as R. destruct (register_data_origin r "rust.EmptyArray") as [r' id]. cbn [fst snd] in *. rewrite (proj2 (get_name _ _ _) (or_introl R)). cbn. eauto.
    - cbn [snd]. destruct (G r id Hr) as (x & ->). cbn. eauto. }
  destruct Hs as (s & Hs), Ho as (o & Ho). destruct (origin_field r a) as [r' o']. cbn [snd] in *. rewrite Ho, Hs. cbn [bind]. eauto.
Qed.

Lemma array_text_keeps r p a i x : nth_error r i = Some x -> nth_error (fst (array_text r p a)) i = Some x.
Proof.
  intros H. unfold array_text. destruct (p =? 0)%N; [exact H|]. pose proof (origin_field_keeps r a i x H) as K. destruct (origin_field r a) as [r' o]. exact K.
Qed.

Lemma array_text_rust r p shape : p <> 0%N ->
  snd (array_text r p (rust_empty_array shape))
  = Ok ("eqs_array_t { ptr: " +++ pointer_text p +++ ", origin: Some(""rust.EmptyArray""), shape: Some([" +++ join ", " (map string_of_nat shape) +++ "]) }").
Proof.
  intros n. unfold array_text. destruct (N.eqb_spec p 0) as [->|_]; [congruence|]. unfold origin_field. cbn [array_origin call a_kind rust_empty_array result_ok origin_identifier].
  pose proof (register_name r "rust.EmptyArray") as R. destruct (register_data_origin r "rust.EmptyArray") as [r' id]. cbn [fst snd] in *. rewrite (proj2 (get_name _ _ _) (or_introl R)).
  cbn [bind array_shape call a_kind a_nd rust_empty_array nd_shape result_ok option_map option_text]. unfold shape_text. rewrite !append_assoc. reflexivity.
Qed.

Lemma array_text_panics r p a : r <> [] ->
  ((exists m, snd (array_text r p a) = Panic m)
   <-> p <> 0%N /\ exists o op, a_kind a = ForeignArray o /\ (op = OpOrigin \/ op = OpShape) /\ a_callbacks a op = Missing).
Proof.
  intros Hr. split.
  - intros (m & H). destruct (N.eq_dec p 0) as [->|n]; [rewrite array_text_null in H; discriminate H|]. split; [exact n|].
    destruct (a_kind a) as [| |o] eqn:K; [destruct (array_text_total r p a Hr) as (text & E); [right; intros op _ o E; congruence|congruence]..|]. exists o.
    destruct (a_callbacks a OpOrigin) as [| |z1] eqn:E1; [|exists OpOrigin; auto|];
      (destruct (a_callbacks a OpShape) as [| |z2] eqn:E2; [|exists OpShape; auto|]);
      (destruct (array_text_total r p a Hr) as (text & E); [right; intros op [->| ->] o' _; congruence|congruence]).
  - intros (n & o & op & K & Hop & Hm). unfold array_text. destruct (N.eqb_spec p 0) as [->|_]; [congruence|].
    assert (G : exists name, get_data_origin r o = Ok name).
    { destruct (nth_error r o) as [x|] eqn:E; [exists x; apply get_name; auto|]. destruct r as [|x q]; [congruence|]. exists x. apply get_name. auto. }
    destruct G as (name & G). unfold origin_field, array_origin, array_shape, call. rewrite K. destruct Hop as [->| ->].
    + rewrite Hm. cbn. eauto.
    + rewrite Hm. destruct (a_callbacks a OpOrigin) as [| |z]; [|cbn; eauto|destruct (z =? 0)%Z; [|cbn; eauto]]; cbn [result_ok origin_identifier snd]; rewrite G; cbn; eauto.
Qed.
