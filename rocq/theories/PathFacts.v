(* Lemmas about the paths used in archives *)
From Coq Require Import DecimalString Permutation.
From Coq Require DecimalNat.
From Verif Require Import Base BaseFacts Labels Array Block Tensor Spec SpecTensor LabelsFacts Npy SpecIo NpyFacts Io.
Local Open Scope string_scope.
Local Open Scope list_scope.
Local Open Scope nat_scope.

(** * Strings as lists of characters *)

Lemma bytes_of_inj s1 s2 : bytes_of s1 = bytes_of s2 -> s1 = s2.
Proof. intros H. rewrite <- (text_of_bytes_of s1), <- (text_of_bytes_of s2), H. reflexivity. Qed.

Lemma append_inv_head s a b : s +++ a = s +++ b -> a = b.
Proof. intros H. apply bytes_of_inj. apply (f_equal bytes_of) in H. rewrite !bytes_of_app in H. apply app_inv_head in H. assumption. Qed.

Lemma append_inv_tail s a b : a +++ s = b +++ s -> a = b.
Proof. intros H. apply bytes_of_inj. apply (f_equal bytes_of) in H. rewrite !bytes_of_app in H. apply app_inv_tail in H. assumption. Qed.

Lemma append_assoc a b c : (a +++ b) +++ c = a +++ (b +++ c).
Proof. apply bytes_of_inj. rewrite !bytes_of_app, app_assoc. reflexivity. Qed.

Lemma append_length a b : String.length (a +++ b) = String.length a + String.length b.
Proof. rewrite <- !bytes_of_length, bytes_of_app, app_length. reflexivity. Qed.

(* the text before and after the first or last occurrence of a character *)
Lemma split_first {A} (c : A) a1 r1 a2 r2 :
  ~ In c a1 -> ~ In c a2 -> a1 ++ c :: r1 = a2 ++ c :: r2 -> a1 = a2 /\ r1 = r2.
Proof.
  revert a2. induction a1 as [|x a1 IH]; intros [|y a2] H1 H2 H; simpl in *.
  - inversion H; auto.
  - inversion H; subst. tauto.
  - inversion H; subst. tauto.
  - inversion H; subst. destruct (IH a2) as [-> ->]; tauto.
Qed.

Lemma split_last {A} (c : A) a1 r1 a2 r2 :
  ~ In c r1 -> ~ In c r2 -> a1 ++ c :: r1 = a2 ++ c :: r2 -> a1 = a2 /\ r1 = r2.
Proof.
  intros H1 H2 H. apply (f_equal (@rev A)) in H. rewrite !rev_app_distr in H. simpl in H. rewrite <- !app_assoc in H. simpl in H.
  apply split_first in H; [|rewrite <- in_rev; assumption|rewrite <- in_rev; assumption].
  destruct H as [E1 E2]. split.
  - rewrite <- (rev_involutive a1), E2. apply rev_involutive.
  - rewrite <- (rev_involutive r1), E1. apply rev_involutive.
Qed.

(* two texts with different ends *)
Lemma different_ends {A} (a1 a2 e1 e2 : list A) :
  length e1 = length e2 -> e1 <> e2 -> a1 ++ e1 <> a2 ++ e2.
Proof.
  intros Hl He H. apply He. apply (f_equal (@rev A)) in H. rewrite !rev_app_distr in H.
  assert (E : rev e1 = rev e2).
  { rewrite <- (firstn_app_exact (length e1) (rev e1) (rev a1)) by apply rev_length.
    rewrite H. apply firstn_app_exact. rewrite rev_length. auto. }
  rewrite <- (rev_involutive e1), E. apply rev_involutive.
Qed.

Lemma split_different_ends {A} (x1 x2 m1 m2 t : list A) (c1 c2 : A) :
  c1 <> c2 -> x1 ++ (m1 ++ [c1]) ++ t <> x2 ++ (m2 ++ [c2]) ++ t.
Proof.
  intros Hc H. rewrite <- !app_assoc in H. rewrite !app_assoc in H. apply app_inv_tail in H.
  apply app_inj_tail in H as [_ H]. contradiction.
Qed.

(** * Numbers *)

Lemma string_of_nat_inj n m : string_of_nat n = string_of_nat m -> n = m.
Proof.
  unfold string_of_nat. intros H. apply (f_equal NilEmpty.uint_of_string) in H. rewrite !NilEmpty.usu in H.
  inversion H as [E]. rewrite <- (DecimalNat.Unsigned.of_to n), E. apply DecimalNat.Unsigned.of_to.
Qed.

Lemma string_of_nat_digits n : forallb is_ascii_digit (bytes_of (string_of_nat n)) = true.
Proof. apply uint_digits. Qed.

Lemma digits_no c s : forallb is_ascii_digit (bytes_of s) = true -> is_ascii_digit c = false -> ~ In c (bytes_of s).
Proof. intros H Hc Hin. apply (proj1 (forallb_forall _ _) H) in Hin. congruence. Qed.

Lemma string_of_nat_last n : exists m c, bytes_of (string_of_nat n) = m ++ [c] /\ is_ascii_digit c = true.
Proof.
  pose proof (string_of_nat_digits n) as H.
  destruct (bytes_of (string_of_nat n)) as [|x l] eqn:E using rev_ind.
  - exfalso. unfold string_of_nat in E.
    assert (Hn : Nat.to_uint n <> Decimal.Nil).
    { intros En. pose proof (DecimalNat.Unsigned.of_to n) as Hof. rewrite En in Hof. cbn in Hof. rewrite <- Hof in En. discriminate. }
    destruct (Nat.to_uint n); try contradiction; discriminate.
  - exists l, x. split; [reflexivity|]. rewrite forallb_app in H. apply andb_true_iff in H as [_ H]. simpl in H.
    apply andb_true_iff in H as [H _]. assumption.
Qed.

(** * The files of an archive *)

Inductive content := FileLabels (l : Labels) | FileData (a : eqs_array).
Inductive values_part := ValuesData | ValuesSamples | ValuesComponent (i : nat) | ValuesProperties.
Inductive gradient_part := GradientData | GradientSamples | GradientComponent (i : nat).
Inductive part :=
| KeysPart
| ValuesPart (block_i : nat) (p : values_part)
| GradientPart (block_i : nat) (parameter : string) (p : gradient_part).

Definition values_name (p : values_part) : string :=
  match p with
  | ValuesData => "/data.npy" | ValuesSamples => "/samples.npy"
  | ValuesComponent i => "/components/" +++ string_of_nat i +++ ".npy"
  | ValuesProperties => "/properties.npy"
  end.

Definition gradient_name (p : gradient_part) : string :=
  match p with
  | GradientData => "/data.npy" | GradientSamples => "/samples.npy"
  | GradientComponent i => "/components/" +++ string_of_nat i +++ ".npy"
  end.

Definition path_of (p : part) : string :=
  match p with
  | KeysPart => "keys.npy"
  | ValuesPart block_i p => values_directory block_i +++ values_name p
  | GradientPart block_i q p => gradient_directory block_i q +++ gradient_name p
  end.

(* the end of the names of components *)
Lemma component_end i :
  exists m c, bytes_of ("/components/" +++ string_of_nat i +++ ".npy") = (m ++ [c]) ++ bytes_of ".npy" /\ is_ascii_digit c = true.
Proof.
  destruct (string_of_nat_last i) as (m & c & E & Hc). exists (bytes_of "/components/" ++ m), c.
  rewrite !bytes_of_app, E, <- !app_assoc. auto.
Qed.

Lemma component_name_inj s1 s2 i j :
  s1 +++ "/components/" +++ string_of_nat i +++ ".npy" = s2 +++ "/components/" +++ string_of_nat j +++ ".npy" ->
  s1 = s2 /\ i = j.
Proof.
  intros H. apply (f_equal bytes_of) in H. rewrite !bytes_of_app in H. rewrite !app_assoc in H. apply app_inv_tail in H.
  change (bytes_of "/components/") with (bytes_of "/components" ++ ["/"%char]) in H.
  rewrite <- !app_assoc in H. cbn [app] in H. rewrite !app_assoc in H.
  apply split_last in H as [E1 E2]; [|apply digits_no; [apply string_of_nat_digits|reflexivity]..].
  apply app_inv_tail in E1. split; [apply bytes_of_inj; assumption|]. apply string_of_nat_inj, bytes_of_inj. assumption.
Qed.

Lemma gradient_name_inj q1 q2 p1 p2 : q1 +++ gradient_name p1 = q2 +++ gradient_name p2 -> q1 = q2 /\ p1 = p2.
Proof.
  assert (D : forall c, is_ascii_digit c = true -> forall c', is_ascii_digit c' = false -> c <> c') by (intros; congruence).
  assert (DC : forall q1 q2 i s m c, bytes_of s = (m ++ [c]) ++ bytes_of ".npy" -> is_ascii_digit c = false ->
             q1 +++ "/components/" +++ string_of_nat i +++ ".npy" <> q2 +++ s).
  { intros a b i s m c Hs Hc H. apply (f_equal bytes_of) in H. rewrite (bytes_of_app a), (bytes_of_app b) in H.
    destruct (component_end i) as (m' & c' & E & Hc'). rewrite E, Hs in H.
    revert H. apply split_different_ends. auto. }
  intros H. destruct p1 as [| |i], p2 as [| |j]; cbn [gradient_name] in H.
  - apply append_inv_tail in H. auto.
  - exfalso. apply (f_equal bytes_of) in H. rewrite !bytes_of_app in H. revert H.
    change (bytes_of "/data.npy") with ((bytes_of "/dat" ++ ["a"%char]) ++ bytes_of ".npy").
    change (bytes_of "/samples.npy") with ((bytes_of "/sample" ++ ["s"%char]) ++ bytes_of ".npy").
    apply split_different_ends. discriminate.
  - exfalso. symmetry in H. revert H. apply (DC _ _ _ _ (bytes_of "/dat") "a"%char); reflexivity.
  - exfalso. apply (f_equal bytes_of) in H. rewrite !bytes_of_app in H. revert H.
    change (bytes_of "/data.npy") with ((bytes_of "/dat" ++ ["a"%char]) ++ bytes_of ".npy").
    change (bytes_of "/samples.npy") with ((bytes_of "/sample" ++ ["s"%char]) ++ bytes_of ".npy").
    apply split_different_ends. discriminate.
  - apply append_inv_tail in H. auto.
  - exfalso. symmetry in H. revert H. apply (DC _ _ _ _ (bytes_of "/sample") "s"%char); reflexivity.
  - exfalso. revert H. apply (DC _ _ _ _ (bytes_of "/dat") "a"%char); reflexivity.
  - exfalso. revert H. apply (DC _ _ _ _ (bytes_of "/sample") "s"%char); reflexivity.
  - apply component_name_inj in H as [-> ->]. auto.
Qed.

Lemma values_name_inj p1 p2 : values_name p1 = values_name p2 -> p1 = p2.
Proof.
  intros H. destruct p1 as [| |i|], p2 as [| |j|]; try reflexivity; try discriminate.
  apply (component_name_inj "" "") in H as [_ ->]. reflexivity.
Qed.

(* the part of a path after the number of the block *)
Definition inside_block (p : part) : option (nat * string) :=
  match p with
  | KeysPart => None
  | ValuesPart i p => Some (i, "values" +++ values_name p)
  | GradientPart i q p => Some (i, "gradients/" +++ q +++ gradient_name p)
  end.

Lemma path_of_block p i s : inside_block p = Some (i, s) ->
  bytes_of (path_of p) = bytes_of "blocks/" ++ bytes_of (string_of_nat i) ++ "/"%char :: bytes_of s.
Proof.
  assert (G : match inside_block p with
              | Some (i, s) => bytes_of (path_of p) = bytes_of "blocks/" ++ bytes_of (string_of_nat i) ++ "/"%char :: bytes_of s
              | None => True
              end).
  { destruct p as [|j p|j q p]; cbn [inside_block path_of]; [exact I|..]; unfold values_directory, gradient_directory;
      rewrite !bytes_of_app, <- !app_assoc; reflexivity. }
  intros H. rewrite H in G. assumption.
Qed.

Lemma block_path_inj i s j r :
  bytes_of "blocks/" ++ bytes_of (string_of_nat i) ++ "/"%char :: bytes_of s
  = bytes_of "blocks/" ++ bytes_of (string_of_nat j) ++ "/"%char :: bytes_of r -> i = j /\ s = r.
Proof.
  intros H. apply app_inv_head in H. 
  apply split_first in H as [E1 E2]; [|apply digits_no; [apply string_of_nat_digits|reflexivity]..].
  split; [apply string_of_nat_inj, bytes_of_inj|apply bytes_of_inj]; assumption.
Qed.

Lemma path_of_inj p1 p2 : path_of p1 = path_of p2 -> p1 = p2.
Proof.
  intros H. apply (f_equal bytes_of) in H.
  destruct (inside_block p1) as [[i s]|] eqn:E1, (inside_block p2) as [[j r]|] eqn:E2.
  - rewrite (path_of_block _ _ _ E1), (path_of_block _ _ _ E2) in H. apply block_path_inj in H as [-> ->].
    destruct p1 as [|i1 p1|i1 q1 p1], p2 as [|i2 p2|i2 q2 p2]; cbn [inside_block] in *; try discriminate.
    + injection E1 as -> <-. injection E2 as -> E2. f_equal. symmetry. apply values_name_inj in E2. assumption.
    + exfalso. injection E1 as -> <-. injection E2 as -> E2. discriminate.
    + exfalso. injection E1 as -> <-. injection E2 as -> E2. discriminate.
    + injection E1 as -> <-. injection E2 as -> E2. apply gradient_name_inj in E2 as [-> ->]. reflexivity.
  - destruct p2; try discriminate. rewrite (path_of_block _ _ _ E1) in H. discriminate.
  - destruct p1; try discriminate. rewrite (path_of_block _ _ _ E2) in H. discriminate.
  - destruct p1, p2; try discriminate. reflexivity.
Qed.

(** * Recovering the gradient parameters *)

Lemma substring_app a b : substring (String.length a) (String.length b) (a +++ b) = b.
Proof.
  induction a as [|c a IH]; simpl; [|assumption]. induction b as [|c b IH]; [reflexivity|]. simpl. f_equal. assumption.
Qed.

Lemma substring_prefix a b : substring 0 (String.length a) (a +++ b) = a.
Proof. induction a as [|c a IH]; simpl; [destruct b; reflexivity|]. rewrite IH. reflexivity. Qed.

Lemma has_prefix_spec a s : has_prefix a s = true <-> exists r, s = a +++ r.
Proof.
  unfold has_prefix. revert s. induction a as [|c a IH]; intros s.
  - split; [|destruct s; reflexivity]. intros _. exists s. reflexivity.
  - destruct s as [|c' s]; simpl.
    + split; [discriminate|]. intros [r H]. discriminate.
    + destruct (ascii_dec c c') as [<-|Hc].
      * rewrite IH. split; intros [r H]; exists r; [rewrite H; reflexivity|]. injection H as H. assumption.
      * split; [discriminate|]. intros [r H]. injection H as H1 _. congruence.
Qed.

Lemma has_suffix_spec a s : has_suffix a s = true <-> exists r, s = r +++ a.
Proof.
  unfold has_suffix. rewrite andb_true_iff, Nat.leb_le, String.eqb_eq. split.
  - intros [Hl He]. exists (substring 0 (String.length s - String.length a) s).
    rewrite <- He at 2. clear He. apply bytes_of_inj. rewrite bytes_of_app.
    assert (G : forall n m t, n + m = String.length t -> bytes_of t = bytes_of (substring 0 n t) ++ bytes_of (substring n m t)).
    { clear. induction n as [|n IH]; intros m t Ht.
      - destruct t as [|c t]; [destruct m; reflexivity|]. simpl (bytes_of (substring 0 0 _)). cbn [app].
        simpl in Ht. subst m. f_equal. clear. revert c. induction t as [|c' t IH]; intros c; [reflexivity|]. simpl in *. f_equal. apply IH.
      - destruct t as [|c t]; [discriminate|]. simpl in Ht. injection Ht as Ht. simpl. f_equal. apply IH. assumption. }
    apply G. lia.
  - intros [r ->]. rewrite append_length. split; [lia|].
    replace (String.length r + String.length a - String.length a) with (String.length r) by lia. apply substring_app.
Qed.

(* what is kept of each name *)
Definition parameter_of (p : part) : list string :=
  match p with
  | GradientPart 0 q GradientData => [q]
  | _ => []
  end.

Lemma recognized p :
  has_prefix "blocks/0/gradients/" (path_of p) && has_suffix "/data.npy" (path_of p) = true ->
  exists q, p = GradientPart 0 q GradientData.
Proof.
  rewrite andb_true_iff, has_prefix_spec, has_suffix_spec. intros [[r Hr] [s Hs]].
  pose proof (f_equal bytes_of Hr) as Hb.
  destruct (inside_block p) as [[i x]|] eqn:E.
  2:{ destruct p; try discriminate. }
  rewrite (path_of_block _ _ _ E) in Hb.
  assert (Hb' : bytes_of ("blocks/0/gradients/" +++ r) = bytes_of "blocks/" ++ bytes_of (string_of_nat 0) ++ "/"%char :: bytes_of ("gradients/" +++ r)) by reflexivity.
  rewrite Hb' in Hb. apply block_path_inj in Hb as [-> ->].
  destruct p as [|i p|i q p]; [discriminate|discriminate|].
  injection E as -> E. exists q. f_equal.
  cbn [path_of] in Hs. apply (gradient_name_inj _ _ p GradientData) in Hs as [_ ->]. reflexivity.
Qed.

Lemma recognized_data q :
  has_prefix "blocks/0/gradients/" (path_of (GradientPart 0 q GradientData))
  && has_suffix "/data.npy" (path_of (GradientPart 0 q GradientData)) = true.
Proof.
  rewrite andb_true_iff, has_prefix_spec, has_suffix_spec. split.
  - exists (q +++ "/data.npy"). reflexivity.
  - exists (gradient_directory 0 q). reflexivity.
Qed.

Lemma gradient_parameters_saved ps : gradient_parameters (map path_of ps) = Ok (flat_map parameter_of ps).
Proof.
  induction ps as [|p ps IH]; [reflexivity|]. cbn [map gradient_parameters flat_map].
  destruct (has_prefix "blocks/0/gradients/" (path_of p) && has_suffix "/data.npy" (path_of p)) eqn:E.
  - destruct (recognized p E) as [q ->].
    set (name := path_of (GradientPart 0 q GradientData)).
    assert (Ename : name = "blocks/0/gradients/" +++ (q +++ "/data.npy")) by reflexivity.
    assert (El : String.length name - 19 = String.length (q +++ "/data.npy")).
    { rewrite Ename, append_length. change (String.length "blocks/0/gradients/") with 19. lia. }
    rewrite El. rewrite Ename. change 19 with (String.length "blocks/0/gradients/"). rewrite substring_app.
    rewrite append_length. change (String.length "/data.npy") with 9.
    destruct (Nat.ltb_spec (String.length q + 9) 9); [lia|]. replace (String.length q + 9 - 9) with (String.length q) by lia.
    rewrite substring_prefix. cbn [bind]. rewrite IH. reflexivity.
  - cbn [bind]. rewrite IH. cbn [bind]. f_equal.
    destruct p as [|i p|[|i] q [| |j]]; try reflexivity. rewrite recognized_data in E. discriminate.
Qed.
