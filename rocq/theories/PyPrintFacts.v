(* Lemmas about printed texts *)
From Coq Require Import DecimalString.
From Coq Require DecimalZ.
From Verif Require Import Base BaseFacts Labels Array Block Tensor Spec SpecTensor LabelsFacts PathFacts PyPrint SpecPyPrint.
Local Open Scope string_scope.
Local Open Scope list_scope.
Local Open Scope nat_scope.

(** * Strings *)

(* the character [c] is not in [s] *)
Definition free (c : ascii) (s : string) : Prop := ~ In c (list_ascii_of_string s).

Lemma chars_app a b : list_ascii_of_string (a +++ b) = list_ascii_of_string a ++ list_ascii_of_string b.
Proof. induction a; cbn; congruence. Qed.

Lemma free_app c a b : free c (a +++ b) <-> free c a /\ free c b.
Proof. unfold free. rewrite chars_app, in_app_iff. tauto. Qed.

Lemma free_cons c a s : free c (String a s) <-> a <> c /\ free c s.
Proof. unfold free. cbn. split; intros H; [|intuition]. split; [intros ->|]; intuition. Qed.

Lemma free_nil c : free c "".
Proof. intros []. Qed.

Lemma append_nil_r s : s +++ "" = s.
Proof. induction s; cbn; congruence. Qed.

Lemma free_spaces c n : c <> " "%char -> free c (spaces n).
Proof. intros Hc. induction n; cbn; [apply free_nil|]. apply free_cons. split; congruence. Qed.

Lemma spaces_length n : String.length (spaces n) = n.
Proof. induction n; cbn; congruence. Qed.

Lemma substring_app a b : substring 0 (String.length a) (a +++ b) = a.
Proof. induction a; cbn; [destruct b; reflexivity|]. congruence. Qed.

Lemma but_last_app n a b : String.length b = n -> but_last n (a +++ b) = a.
Proof.
  intros Hb. unfold but_last. rewrite append_length, Hb, Nat.add_sub. apply substring_app.
Qed.

(** * Texts of numbers *)

Lemma string_of_Z_inj a b : string_of_Z a = string_of_Z b -> a = b.
Proof.
  unfold string_of_Z. intros H. apply (f_equal NilEmpty.int_of_string) in H. rewrite !NilEmpty.isi in H.
  inversion H as [E]. rewrite <- (DecimalZ.of_to a), E. apply DecimalZ.of_to.
Qed.

Definition number_char (c : ascii) : bool := ((48 <=? nat_of_ascii c) && (nat_of_ascii c <=? 57)) || (nat_of_ascii c =? 45).

Lemma uint_chars d : forallb number_char (list_ascii_of_string (NilEmpty.string_of_uint d)) = true.
Proof. induction d; cbn; auto. Qed.

Lemma string_of_Z_chars z : forallb number_char (list_ascii_of_string (string_of_Z z)) = true.
Proof. unfold string_of_Z. destruct (Z.to_int z); cbn; apply uint_chars. Qed.

Lemma string_of_nat_chars n : forallb number_char (list_ascii_of_string (string_of_nat n)) = true.
Proof. apply uint_chars. Qed.

Lemma number_free c s : forallb number_char (list_ascii_of_string s) = true -> number_char c = false -> free c s.
Proof. intros H Hc Hin. rewrite forallb_forall in H. apply H in Hin. congruence. Qed.

Lemma string_of_Z_nonempty z : string_of_Z z <> "".
Proof.
  unfold string_of_Z. intros E. apply (f_equal NilEmpty.int_of_string) in E. rewrite NilEmpty.isi in E.
  inversion E as [E']. pose proof (DecimalZ.of_to z) as H. rewrite E' in H. cbn in H. subst z. discriminate.
Qed.

Lemma identifier_free c s : nat_of_ascii c < 48 -> identifier s -> free c s.
Proof.
  intros Hc (x & rest & E & Hx & Hrest) Hin. unfold codes in E. apply (in_map nat_of_ascii) in Hin. rewrite E in Hin.
  unfold is_letter_code, is_digit_code, is_underscore_code in *. destruct Hin as [E'|Hin]; [lia|].
  rewrite Forall_forall in Hrest. apply Hrest in Hin. lia.
Qed.

(** * Pieces, lines and words *)

Lemma pieces_free c s : free c s -> pieces c s = [s].
Proof.
  induction s as [|a s IH]; cbn; [reflexivity|]. rewrite free_cons. intros [Ha Hs].
  rewrite (proj2 (Ascii.eqb_neq _ _) Ha), (IH Hs). reflexivity.
Qed.

Lemma pieces_cut c a b : free c a -> pieces c (a +++ String c b) = a :: pieces c b.
Proof.
  induction a as [|x a IH]; cbn.
  - intros _. rewrite Ascii.eqb_refl. reflexivity.
  - rewrite free_cons. intros [Hx Ha]. rewrite (proj2 (Ascii.eqb_neq _ _) Hx), (IH Ha). reflexivity.
Qed.

Lemma lines_join l : l <> [] -> Forall (free line_end) l -> lines (join newline l) = l.
Proof.
  induction l as [|a l IH]; intros Hne Hl; [congruence|]. inversion Hl as [|? ? Ha Hl']; subst. destruct l as [|b l].
  - apply pieces_free. assumption.
  - change (join newline (a :: b :: l)) with (a +++ String line_end (join newline (b :: l))).
    unfold lines. rewrite pieces_cut by assumption. f_equal. apply IH; [discriminate|assumption].
Qed.

Lemma words_blank s : words (String " " s) = words s.
Proof. reflexivity. Qed.

Lemma words_spaces n s : words (spaces n +++ s) = words s.
Proof. induction n; cbn; auto. Qed.

Lemma words_word w : w <> "" -> free " " w -> words w = [w].
Proof.
  intros Hw Hf. unfold words. rewrite (pieces_free _ _ Hf). cbn. destruct (String.eqb_spec w ""); [contradiction|reflexivity].
Qed.

Lemma words_cut w s : w <> "" -> free " " w -> words (w +++ String " " s) = w :: words s.
Proof.
  intros Hw Hf. unfold words. rewrite (pieces_cut _ _ _ Hf). cbn. destruct (String.eqb_spec w ""); [contradiction|reflexivity].
Qed.

(** * Entries *)

Fixpoint fits (prev : nat) (widths : list nat) (entry : list Z) : Prop :=
  match widths, entry with
  | w :: widths, v :: entry => String.length (string_of_Z v) < prev + w / 2 /\ fits (w / 2) widths entry
  | _, _ => True
  end.

Lemma number_word z : string_of_Z z <> "" /\ free " " (string_of_Z z).
Proof. split; [apply string_of_Z_nonempty|]. apply number_free; [apply string_of_Z_chars|reflexivity]. Qed.

Lemma append_nonempty a b : a <> "" -> a +++ b <> "".
Proof. destruct a; [congruence|discriminate]. Qed.

Lemma words_after entry : forall widths prev x,
  length widths = length entry -> x <> "" -> free " " x ->
  length (words (x +++ print_entry prev widths entry)) <= S (length entry)
  /\ (fits prev widths entry -> words (x +++ print_entry prev widths entry) = x :: map string_of_Z entry)
  /\ (length (words (x +++ print_entry prev widths entry)) = S (length entry) -> fits prev widths entry).
Proof.
  induction entry as [|v entry IH]; intros [|w widths] prev x Hl Hx Hf; try discriminate; cbn [print_entry fits].
  - rewrite append_nil_r, words_word by assumption. cbn. auto.
  - injection Hl as Hl. destruct (number_word v) as [Hv Hvf]. unfold make_padding, rjust.
    destruct (prev + w / 2 - String.length (string_of_Z v)) as [|k] eqn:Ek; cbn [spaces].
    + change ("" +++ string_of_Z v) with (string_of_Z v). rewrite <- append_assoc.
      destruct (IH widths (w / 2) (x +++ string_of_Z v) Hl) as (H1 & H2 & H3);
        [apply append_nonempty; assumption|apply free_app; auto|]. cbn [length].
      split; [lia|]. split; [intros [H _]; lia|]. intros H. lia.
    + destruct (IH widths (w / 2) (string_of_Z v) Hl Hv Hvf) as (H1 & H2 & H3).
      change (String " " (spaces k) +++ string_of_Z v) with (String " " (spaces k +++ string_of_Z v)).
      change (String " " (spaces k +++ string_of_Z v) +++ print_entry (w / 2) widths entry)
        with (String " " ((spaces k +++ string_of_Z v) +++ print_entry (w / 2) widths entry)).
      rewrite words_cut by assumption. rewrite append_assoc, words_spaces. cbn [length map].
      split; [lia|]. split; [intros [_ H]; rewrite (H2 H); reflexivity|]. intros H. split; [lia|]. apply H3. lia.
Qed.

Definition widths_of (names : list string) : list nat := map (fun n => String.length n + 3) names.

Lemma spaced_fits names : forall n entry v,
  spaced (n :: names) (v :: entry) <-> fits (half n) (widths_of names) entry.
Proof.
  induction names as [|m names IH]; intros n [|u entry] v; cbn; try tauto.
  specialize (IH m entry u). cbn in IH. unfold half. fold (half n) (half m). unfold half in IH |- *. rewrite <- IH. tauto.
Qed.

Lemma entry_shown names entry prev :
  names <> [] -> length names = length entry ->
  (spaced names entry <-> shows (print_entry prev (widths_of names) entry) entry).
Proof.
  intros Hne Hl. destruct names as [|n names]; [congruence|]. destruct entry as [|v entry]; [discriminate|]. injection Hl as Hl.
  rewrite spaced_fits. unfold shows. cbn [widths_of map print_entry]. fold (widths_of names). unfold make_padding, rjust.
  rewrite append_assoc, words_spaces. destruct (number_word v) as [Hv Hvf].
  destruct (words_after entry (widths_of names) ((String.length n + 3) / 2) (string_of_Z v)) as (H1 & H2 & H3); auto.
  { unfold widths_of. rewrite map_length. assumption. }
  split; [exact H2|]. intros H. apply H3. rewrite H. cbn. rewrite map_length. reflexivity.
Qed.

Lemma entry_one_line prev widths entry : free line_end (print_entry prev widths entry).
Proof.
  revert prev widths. induction entry as [|v entry IH]; intros prev [|w widths]; cbn; try apply free_nil.
  unfold make_padding, rjust. rewrite !free_app. repeat split; [apply free_spaces; discriminate| |apply IH].
  apply number_free; [apply string_of_Z_chars|reflexivity].
Qed.

(** * All the lines *)

(* every line, with its end *)
Definition unlines (l : list string) : string := fold_right (fun a s => a +++ newline +++ s) "" l.

Lemma unlines_app a b : unlines (a ++ b) = unlines a +++ unlines b.
Proof. induction a as [|x a IH]; cbn [unlines fold_right app]; [reflexivity|]. unfold unlines in IH. rewrite IH, !append_assoc. reflexivity. Qed.

Lemma unlines_join l : l <> [] -> unlines l = join newline l +++ newline.
Proof.
  induction l as [|a l IH]; intros Hne; [congruence|]. destruct l as [|b l].
  - reflexivity.
  - change (unlines (a :: b :: l)) with (a +++ newline +++ unlines (b :: l)). rewrite IH by discriminate.
    change (join newline (a :: b :: l)) with (a +++ newline +++ join newline (b :: l)). rewrite !append_assoc. reflexivity.
Qed.

Lemma but_last_unlines l : l <> [] -> but_last 1 (unlines l) = join newline l.
Proof. intros Hl. rewrite unlines_join by assumption. apply but_last_app. reflexivity. Qed.

Lemma print_entries_lines prev widths entries :
  print_entries prev widths entries = unlines (map (print_entry prev widths) entries).
Proof. induction entries as [|e entries IH]; cbn [print_entries map unlines fold_right]; [reflexivity|]. rewrite IH. reflexivity. Qed.

Lemma print_names_join names : names <> [] ->
  print_names names = join " " (map (fun n => "'" +++ n +++ "'") names) +++ " ".
Proof.
  induction names as [|n names IH]; intros Hne; [congruence|]. destruct names as [|m names].
  - cbn [print_names map join]. rewrite !append_assoc. reflexivity.
  - change (print_names (n :: m :: names)) with ("'" +++ n +++ "' " +++ print_names (m :: names)).
    rewrite IH by discriminate. change (map (fun n => "'" +++ n +++ "'") (n :: m :: names))
      with (("'" +++ n +++ "'") :: map (fun n => "'" +++ n +++ "'") (m :: names)).
    set (r := map _ (m :: names)). change (join " " (("'" +++ n +++ "'") :: r)) with (("'" +++ n +++ "'") +++ (" " +++ join " " r)).
    rewrite !append_assoc. reflexivity.
Qed.

Definition dots (names : list string) : string :=
  match names with
  | [] => "..."
  | n :: _ => spaces (7 + half n - 4) +++ "..."
  end.

Lemma join_cons a l : l <> [] -> join newline (a :: l) = a +++ newline +++ join newline l.
Proof. destruct l; [congruence|reflexivity]. Qed.

Lemma printed_header names (rows : list (list Z)) : names <> [] ->
  (if 0 <? length rows then but_last 1 ("keys" +++ ": [" +++ print_names names) else "keys" +++ ": [" +++ print_names names)
    +++ "]" +++ newline
  = unlines [header_line names (length rows)].
Proof.
  intros Hne. change ("keys" +++ ": [" +++ print_names names) with ("keys: [" +++ print_names names).
  rewrite print_names_join by assumption. unfold header_line, names_line, unlines. cbn [fold_right]. rewrite append_nil_r.
  set (j := join " " _). destruct rows as [|r rows]; cbn [length Nat.ltb Nat.leb Nat.eqb].
  - rewrite !append_assoc. reflexivity.
  - rewrite <- (append_assoc "keys: [" j " "), but_last_app by reflexivity. rewrite !append_assoc. reflexivity.
Qed.

Lemma print_labels_all names rows limit : names <> [] -> length rows <= limit ->
  print_labels names rows "keys" limit
  = Ok (join newline (header_line names (length rows) :: map (print_entry 7 (widths_of names)) rows)).
Proof.
  intros Hne Hl. unfold print_labels. replace (length rows <=? (if limit <? 6 then 6 else limit)) with true.
  2: { symmetry. apply Nat.leb_le. destruct (Nat.ltb_spec limit 6); lia. }
  change (String.length "keys" + 3) with 7. fold (widths_of names). rewrite printed_header by assumption.
  rewrite print_entries_lines, <- unlines_app. cbn [app]. rewrite but_last_unlines by discriminate. reflexivity.
Qed.

Lemma print_labels_some names rows limit : names <> [] -> 6 <= limit -> limit < length rows ->
  print_labels names rows "keys" limit
  = Ok (join newline (header_line names (length rows) :: map (print_entry 7 (widths_of names)) (firstn 3 rows)
      ++ [dots names] ++ map (print_entry 7 (widths_of names)) (skipn (length rows - 3) rows))).
Proof.
  intros Hne Hm Hl. unfold print_labels. destruct (Nat.ltb_spec limit 6); [lia|].
  destruct (Nat.leb_spec (length rows) limit); [lia|].
  change (String.length "keys" + 3) with 7. fold (widths_of names). rewrite printed_header by assumption.
  destruct names as [|n names]; [congruence|]. cbn [widths_of map]. fold (widths_of names).
  change (String.length n + 3 :: widths_of names) with (widths_of (n :: names)).
  rewrite !print_entries_lines. unfold last_entries.
  assert (E : rjust (7 + (String.length n + 3) / 2) ("..." +++ newline) = unlines [dots (n :: names)]).
  { unfold rjust, unlines, dots. cbn [fold_right]. rewrite append_nil_r, append_assoc. reflexivity. }
  rewrite E, <- !unlines_app. rewrite but_last_unlines by discriminate. reflexivity.
Qed.

Lemma dots_words names : words (dots names) = ["..."].
Proof. unfold dots. destruct names; [reflexivity|]. rewrite words_spaces. reflexivity. Qed.

Lemma dots_free names : free line_end (dots names).
Proof.
  unfold dots. assert (H : free line_end "...") by (intros H; cbn in H; repeat (destruct H as [H|H]; [discriminate|]); destruct H).
  destruct names; [assumption|]. apply free_app. split; [apply free_spaces; discriminate|assumption].
Qed.

Lemma title_free n : free line_end (title n).
Proof.
  unfold title. rewrite !free_app. split; [|split].
  1, 3: intros H; cbn in H; repeat (destruct H as [H|H]; [discriminate|]); destruct H.
  apply number_free; [apply string_of_nat_chars|reflexivity].
Qed.

Lemma names_line_free c names : c = line_end -> Forall identifier names -> free c (names_line names).
Proof.
  intros -> Hn. unfold names_line. apply free_app. split.
  { intros H; cbn in H; repeat (destruct H as [H|H]; [discriminate|]); destruct H. }
  destruct names as [|n names]; [apply free_nil|]. revert n Hn. induction names as [|m names IH]; intros n Hn.
  - inversion Hn as [|? ? H1 _]; subst. cbn [map join]. rewrite !free_app.
    assert (Hq : free line_end "'") by (intros H; cbn in H; destruct H as [H|[]]; discriminate).
    split; [exact Hq|]. split; [apply identifier_free; [cbn; lia|exact H1]|exact Hq].
  - inversion Hn as [|? ? H1 H2]; subst. specialize (IH m H2).
    change (map (fun n => "'" +++ n +++ "'") (n :: m :: names))
      with (("'" +++ n +++ "'") :: map (fun n => "'" +++ n +++ "'") (m :: names)).
    set (r := map _ (m :: names)) in *. change (join " " (("'" +++ n +++ "'") :: r)) with (("'" +++ n +++ "'") +++ (" " +++ join " " r)).
    rewrite !free_app.
    assert (Hq : free line_end "'") by (intros H; cbn in H; destruct H as [H|[]]; discriminate).
    assert (Hb : free line_end " ") by (intros H; cbn in H; destruct H as [H|[]]; discriminate).
    repeat split; try assumption. apply identifier_free; [cbn; lia|exact H1].
Qed.

Lemma header_free names n : Forall identifier names -> free line_end (header_line names n).
Proof.
  intros Hn. unfold header_line. apply free_app. split; [apply names_line_free; auto|].
  destruct (n =? 0); intros H; cbn in H; repeat (destruct H as [H|H]; [discriminate|]); destruct H.
Qed.

(** * The text of tensor maps *)

Definition names_of (t : TensorMap) : list string := labels_names (tm_keys t).
Definition entries (t : TensorMap) : list (list Z) := rows (tm_keys t).

Lemma keys_facts t : wf_tensor t ->
  names_of t <> [] /\ Forall identifier (names_of t) /\ Forall (fun e => length (names_of t) = length e) (entries t)
  /\ labels_iter (tm_keys t) = Ok (entries t).
Proof.
  intros ([Hw Hne] & _). split; [exact Hne|]. split; [|split].
  - destruct (proj1 (wf_labels_is_labels _) Hw) as ((H & _) & _). exact H.
  - destruct (proj1 (wf_labels_is_labels _) Hw) as (_ & (H & _) & _). eapply Forall_impl; [|exact H].
    cbv beta. intros e He. symmetry. exact He.
  - apply (labels_iter_ok _ _ Hw). auto.
Qed.

Lemma tensor_str_text t : wf_tensor t ->
  tensor_str t = Ok (join newline (title (length (entries t)) :: header_line (names_of t) (length (entries t))
    :: map (print_entry 7 (widths_of (names_of t))) (entries t))).
Proof.
  intros Ht. destruct (keys_facts t Ht) as (Hne & _ & _ & Hi). unfold tensor_str, tensor_text. rewrite Hi. cbn [bind].
  fold (names_of t). rewrite print_labels_all by (assumption || lia). cbn [bind]. rewrite (join_cons (title _)) by discriminate.
  unfold title. rewrite !append_assoc. reflexivity.
Qed.

Lemma body_free names l : Forall (free line_end) (map (print_entry 7 (widths_of names)) l).
Proof. apply Forall_map, Forall_forall. intros e _. apply entry_one_line. Qed.

Lemma body_shown names l : names <> [] -> Forall (fun e => length names = length e) l ->
  Forall2 (fun line entry => spaced names entry <-> shows line entry) (map (print_entry 7 (widths_of names)) l) l.
Proof.
  intros Hne Hl. induction Hl as [|e l He Hl IH]; cbn [map]; constructor; [|assumption]. apply entry_shown; assumption.
Qed.

Lemma tensor_str_lines t : wf_tensor t ->
  exists s body,
    tensor_str t = Ok s
    /\ lines s = title (length (entries t)) :: header_line (names_of t) (length (entries t)) :: body
    /\ Forall2 (fun line entry => spaced (names_of t) entry <-> shows line entry) body (entries t).
Proof.
  intros Ht. destruct (keys_facts t Ht) as (Hne & Hid & Hlen & _). eexists _, _. split; [apply tensor_str_text; assumption|].
  split; [apply lines_join; [discriminate|]|apply body_shown; assumption].
  repeat constructor; [apply title_free|apply header_free; assumption|apply body_free].
Qed.

Lemma tensor_repr_short t : wf_tensor t -> length (entries t) <= 10 -> tensor_repr t = tensor_str t.
Proof.
  intros Ht Hl. destruct (keys_facts t Ht) as (Hne & _ & _ & Hi). unfold tensor_repr, tensor_str, tensor_text. rewrite Hi. cbn [bind].
  fold (names_of t). rewrite !print_labels_all by (assumption || lia). reflexivity.
Qed.

Lemma Forall_firstn_skipn {A} (P : A -> Prop) n l : Forall P l -> Forall P (firstn n l) /\ Forall P (skipn n l).
Proof. intros H. rewrite <- (firstn_skipn n l) in H. apply Forall_app in H. exact H. Qed.

Lemma tensor_repr_lines t : wf_tensor t -> 10 < length (entries t) ->
  exists s first dots last,
    tensor_repr t = Ok s
    /\ lines s = title (length (entries t)) :: header_line (names_of t) (length (entries t)) :: first ++ dots :: last
    /\ words dots = ["..."]
    /\ Forall2 (fun line entry => spaced (names_of t) entry <-> shows line entry) first (firstn 3 (entries t))
    /\ Forall2 (fun line entry => spaced (names_of t) entry <-> shows line entry) last (skipn (length (entries t) - 3) (entries t)).
Proof.
  intros Ht Hl. destruct (keys_facts t Ht) as (Hne & Hid & Hlen & Hi).
  eexists _, _, _, _. split; [|split; [|split; [apply (dots_words (names_of t))|split; apply body_shown; try assumption; apply Forall_firstn_skipn; assumption]]].
  - unfold tensor_repr, tensor_text. rewrite Hi. cbn [bind]. fold (names_of t). rewrite print_labels_some by (assumption || lia).
    cbn [bind]. reflexivity.
  - rewrite <- !append_assoc. rewrite (append_assoc "TensorMap with "). fold (title (length (entries t))). rewrite append_assoc.
    rewrite <- join_cons by discriminate. apply lines_join; [discriminate|]. constructor; [apply title_free|].
    constructor; [apply header_free; assumption|]. apply Forall_app. split; [apply body_free|].
    constructor; [apply dots_free|apply body_free].
Qed.

(** * Tensor maps with the same text *)

Lemma identifiers_free names : Forall identifier names -> Forall (free quote_mark) names.
Proof. apply Forall_impl. intros n. apply identifier_free. cbn. lia. Qed.

Lemma cut_first c a r b q : free c a -> free c b -> a +++ String c r = b +++ String c q -> a = b /\ r = q.
Proof.
  intros Ha Hb H. pose proof (pieces_cut c a r Ha) as P. revert b Hb H P. induction a as [|x a IH]; intros [|y b] Hb H P.
  - inversion H; auto.
  - cbn in H. inversion H; subst. apply free_cons in Hb. tauto.
  - cbn in H. inversion H; subst. apply free_cons in Ha. tauto.
  - cbn in H. inversion H; subst. apply free_cons in Ha as [_ Ha]. apply free_cons in Hb as [_ Hb].
    destruct (IH Ha b Hb ltac:(assumption)) as [-> ->]; [apply pieces_cut; assumption|]. auto.
Qed.

Lemma print_names_inj a : forall b, Forall (free quote_mark) a -> Forall (free quote_mark) b -> print_names a = print_names b -> a = b.
Proof.
  induction a as [|x a IH]; intros [|y b] Ha Hb H; try reflexivity; try discriminate.
  inversion Ha; inversion Hb; subst. cbn [print_names] in H. cbn in H. injection H as H.
  change (x +++ String quote_mark (String " " (print_names a)) = y +++ String quote_mark (String " " (print_names b))) in H.
  apply cut_first in H as [-> H]; try assumption. injection H as H. f_equal. apply IH; assumption.
Qed.

Lemma names_line_inj a b : a <> [] -> b <> [] -> Forall identifier a -> Forall identifier b -> names_line a = names_line b -> a = b.
Proof.
  intros Ha Hb Ia Ib H. apply print_names_inj; try (apply identifiers_free; assumption).
  rewrite !print_names_join by assumption. unfold names_line in H. apply append_inv_head in H. rewrite H. reflexivity.
Qed.

Lemma title_inj n m : title n = title m -> n = m.
Proof. intros H. apply append_inv_head, append_inv_tail in H. apply string_of_nat_inj. assumption. Qed.

Lemma shown_same l : forall names1 names2 r1 r2,
  Forall2 (fun line entry => spaced names1 entry <-> shows line entry) l r1 ->
  Forall2 (fun line entry => spaced names2 entry <-> shows line entry) l r2 ->
  Forall (spaced names1) r1 -> Forall (spaced names2) r2 -> r1 = r2.
Proof.
  induction l as [|a l IH]; intros names1 names2 r1 r2 F1 F2 S1 S2; inversion F1; inversion F2; subst; [reflexivity|].
  inversion S1; inversion S2; subst. f_equal; [|eapply IH; eassumption].
  match goal with H1 : spaced _ ?x <-> _, H2 : spaced _ ?y <-> _ |- ?x = ?y =>
    apply proj1 in H1; apply proj1 in H2; specialize (H1 ltac:(assumption)); specialize (H2 ltac:(assumption));
    unfold shows in H1, H2; rewrite H1 in H2; clear -H2; revert y H2; induction x as [|u x IHx]; intros [|w y] E; try discriminate; [reflexivity|]
  end.
  injection E as E1 E2. apply string_of_Z_inj in E1 as ->. f_equal. apply IHx. assumption.
Qed.

Lemma same_text t1 t2 : wf_tensor t1 -> wf_tensor t2 ->
  Forall (spaced (names_of t1)) (entries t1) -> Forall (spaced (names_of t2)) (entries t2) ->
  tensor_str t1 = tensor_str t2 -> names_of t1 = names_of t2 /\ entries t1 = entries t2.
Proof.
  intros H1 H2 S1 S2 E.
  destruct (tensor_str_lines t1 H1) as (s1 & b1 & E1 & L1 & F1). destruct (tensor_str_lines t2 H2) as (s2 & b2 & E2 & L2 & F2).
  rewrite E1, E2 in E. injection E as ->. rewrite L1 in L2. pose proof (f_equal (hd "") L2) as Et. cbn [hd] in Et. apply title_inj in Et.
  pose proof (f_equal (fun l => hd "" (tl l)) L2) as Eh. pose proof (f_equal (fun l => tl (tl l)) L2) as Eb. cbn [hd tl] in Eh, Eb. subst b2.
  split; [|eapply shown_same; eassumption].
  destruct (keys_facts t1 H1) as (N1 & I1 & _). destruct (keys_facts t2 H2) as (N2 & I2 & _).
  apply names_line_inj; try assumption. unfold header_line in Eh. rewrite Et in Eh. apply append_inv_tail in Eh. exact Eh.
Qed.

(** * Alignment *)

Lemma ends_word pos b w s : w <> "" -> free " " w -> ends_from pos b (w +++ s) = ends_from (pos + String.length w) true s.
Proof.
  revert pos b. induction w as [|a w IH]; intros pos b Hne Hf; [congruence|]. apply free_cons in Hf as [Ha Hf].
  cbn [String.append ends_from String.length]. rewrite (proj2 (Ascii.eqb_neq _ _) Ha). destruct w as [|c w].
  - cbn. rewrite Nat.add_1_r. reflexivity.
  - rewrite IH by (discriminate || assumption). f_equal. lia.
Qed.

Lemma ends_spaces pos n s : ends_from pos false (spaces n +++ s) = ends_from (pos + n) false s.
Proof.
  revert pos. induction n as [|n IH]; intros pos; [cbn; f_equal; lia|]. cbn. rewrite IH. f_equal. lia.
Qed.

Lemma ends_blank pos n s : ends_from pos true (spaces (S n) +++ s) = pos :: ends_from (pos + S n) false s.
Proof. cbn. rewrite ends_spaces. do 2 f_equal. lia. Qed.

(* where the values end *)
Fixpoint stops (pos prev : nat) (names : list string) : list nat :=
  match names with
  | [] => []
  | n :: names => (pos + prev + half n) :: stops (pos + prev + half n) (half n) names
  end.

Lemma entry_ends entry : forall names prev pos, length names = length entry -> fits prev (widths_of names) entry ->
  ends_from pos true (print_entry prev (widths_of names) entry) = pos :: stops pos prev names.
Proof.
  induction entry as [|v entry IH]; intros [|n names] prev pos Hl Hf; try discriminate; [reflexivity|].
  injection Hl as Hl. cbn [widths_of map fits] in Hf. destruct Hf as [Hv Hf]. cbn [widths_of map print_entry stops]. fold (widths_of names) in *.
  change ((String.length n + 3) / 2) with (half n) in *. unfold make_padding, rjust. change ((String.length n + 3) / 2) with (half n).
  destruct (prev + half n - String.length (string_of_Z v)) as [|k] eqn:Ek; [lia|].
  rewrite append_assoc, ends_blank. destruct (number_word v) as [Nv Fv]. rewrite ends_word by assumption.
  rewrite IH by assumption. replace (pos + S k + String.length (string_of_Z v)) with (pos + prev + half n) by lia. reflexivity.
Qed.

Lemma line_ends names entry : names <> [] -> length names = length entry -> spaced names entry -> starts_inside names entry ->
  word_ends (print_entry 7 (widths_of names) entry) = stops 0 7 names.
Proof.
  intros Hne Hl Hs Hi. destruct names as [|n names]; [congruence|]. destruct entry as [|v entry]; [discriminate|]. injection Hl as Hl.
  apply spaced_fits in Hs. cbn [starts_inside] in Hi. unfold word_ends. cbn [widths_of map print_entry stops]. fold (widths_of names).
  unfold make_padding, rjust. change ((String.length n + 3) / 2) with (half n).
  rewrite append_assoc, ends_spaces. destruct (number_word v) as [Nv Fv]. rewrite ends_word by assumption.
  rewrite entry_ends by assumption.
  replace (0 + (7 + half n - String.length (string_of_Z v)) + String.length (string_of_Z v)) with (0 + 7 + half n) by lia. reflexivity.
Qed.

Fixpoint spans (start : nat) (names : list string) : list (nat * nat) :=
  match names with
  | [] => []
  | n :: names => (start, start + String.length n + 1) :: spans (start + String.length n + 3) names
  end.

Lemma quotes_free pos w s : free quote_mark w -> quotes_from pos (w +++ s) = quotes_from (pos + String.length w) s.
Proof.
  revert pos. induction w as [|a w IH]; intros pos Hf; [cbn; f_equal; lia|]. apply free_cons in Hf as [Ha Hf].
  cbn [String.append quotes_from String.length]. rewrite (proj2 (Ascii.eqb_neq _ _) Ha), IH by assumption. f_equal. lia.
Qed.

Lemma quoted_names names : forall pos rest, Forall (free quote_mark) names -> free quote_mark rest ->
  in_pairs (quotes_from pos (print_names names +++ rest)) = spans pos names.
Proof.
  induction names as [|n names IH]; intros pos rest Hn Hr.
  - cbn. rewrite <- (append_nil_r rest), quotes_free by assumption. reflexivity.
  - inversion Hn as [|? ? H1 H2]; subst. cbn [print_names spans].
    change (("'" +++ n +++ "' " +++ print_names names) +++ rest) with (String quote_mark ((n +++ "' " +++ print_names names) +++ rest)).
    rewrite !append_assoc. cbn [quotes_from]. change ((quote_mark =? quote_mark)%char) with true. cbv iota.
    rewrite quotes_free by assumption. change ("' " +++ print_names names +++ rest) with (String quote_mark (String " " (print_names names +++ rest))).
    cbn [quotes_from]. change ((quote_mark =? quote_mark)%char) with true. change ((" " =? quote_mark)%char) with false. cbv iota.
    cbn [in_pairs]. rewrite IH by assumption. f_equal; f_equal; lia.
Qed.

Lemma header_spans names n : names <> [] -> Forall identifier names -> n <> 0 ->
  quoted_at (header_line names n) = spans 7 names.
Proof.
  intros Hne Hid Hn. unfold quoted_at, header_line, names_line. rewrite (proj2 (Nat.eqb_neq _ _) Hn).
  assert (E : quotes_from 0 (("keys: [" +++ join " " (map (fun n => "'" +++ n +++ "'") names)) +++ "]")
    = quotes_from 0 (("keys: [" +++ join " " (map (fun n => "'" +++ n +++ "'") names)) +++ " ")).
  { set (h := "keys: [" +++ _). generalize 0 as pos. induction h as [|a h IH]; intros pos; [reflexivity|]. cbn. rewrite IH. reflexivity. }
  rewrite E, append_assoc, <- print_names_join by assumption.
  rewrite quotes_free by (intros H; cbn in H; repeat (destruct H as [H|H]; [discriminate|]); destruct H).
  rewrite <- (append_nil_r (print_names names)). apply quoted_names; [apply identifiers_free; assumption|apply free_nil].
Qed.

Lemma aligned_iff names : forall pos prev c,
  Forall2 (fun span stop => fst span < stop <= snd span + 1) (spans (pos + prev + c) names) (stops pos prev names)
  <-> (forall j name, nth_error names j = Some name -> c + even_names (firstn j names) < half name).
Proof.
  induction names as [|n names IH]; intros pos prev c; cbn [spans stops].
  - split; [intros _ [|j] name; discriminate|constructor].
  - set (e := if Nat.even (String.length n) then 1 else 0).
    assert (Hh : half n + half n + e = String.length n + 3).
    { unfold half, e. destruct (Nat.even (String.length n)) eqn:E.
      - apply Nat.even_spec in E as [k ->]. replace (2 * k + 3) with (1 + (k + 1) * 2) by lia. rewrite Nat.div_add by discriminate. cbn. lia.
      - assert (O : Nat.odd (String.length n) = true) by (unfold Nat.odd; rewrite E; reflexivity).
        apply Nat.odd_spec in O as [k ->]. replace (2 * k + 1 + 3) with ((k + 2) * 2) by lia. rewrite Nat.div_mul by discriminate. lia. }
    replace (pos + prev + c + String.length n + 3) with (pos + prev + half n + half n + (c + e)) by lia.
    specialize (IH (pos + prev + half n) (half n) (c + e)). split.
    + intros H. inversion H as [|? ? ? ? H1 H2]; subst. cbn [fst snd] in H1. intros [|j] name Hj; cbn in Hj.
      * injection Hj as <-. change (even_names (firstn 0 (n :: names))) with 0. lia.
      * clear H. pose proof (proj1 IH H2 j name Hj) as H. cbn [firstn]. unfold even_names in *. cbn [filter]. unfold e in H.
        destruct (Nat.even (String.length n)); cbn [length]; lia.
    + intros H. constructor.
      * cbn [fst snd]. specialize (H 0 n eq_refl). change (even_names (firstn 0 (n :: names))) with 0 in H. lia.
      * apply IH. intros j name Hj. specialize (H (S j) name Hj). cbn [firstn] in H. unfold even_names in *. cbn [filter] in H. unfold e.
        destruct (Nat.even (String.length n)); cbn [length] in H; lia.
Qed.

Lemma tensor_str_aligned t : wf_tensor t ->
  exists s header body,
    tensor_str t = Ok s
    /\ lines s = title (length (entries t)) :: header :: body
    /\ Forall2 (fun line entry => spaced (names_of t) entry -> starts_inside (names_of t) entry ->
         (aligned header line <-> wide_names (names_of t))) body (entries t).
Proof.
  intros Ht. destruct (keys_facts t Ht) as (Hne & Hid & Hlen & _). eexists _, _, _. split; [apply tensor_str_text; assumption|].
  split; [apply lines_join; [discriminate|]|].
  { repeat constructor; [apply title_free|apply header_free; assumption|apply body_free]. }
  assert (Hs : entries t <> [] -> quoted_at (header_line (names_of t) (length (entries t))) = spans 7 (names_of t)).
  { intros H. apply header_spans; try assumption. destruct (entries t); [congruence|discriminate]. }
  revert Hs. generalize (header_line (names_of t) (length (entries t))) as header. intros header.
  induction Hlen as [|e l He Hlen IH]; intros Hs; cbn [map]; constructor.
  - intros S I. unfold aligned. rewrite Hs by discriminate. rewrite (line_ends _ _ Hne He S I).
    apply (aligned_iff (names_of t) 0 7 0).
  - apply IH. intros _. apply Hs. discriminate.
Qed.

(** * The text of blocks *)

Lemma quoted_join l a : fold_right (fun n s => quoted n +++ ", " +++ s) "" l +++ quoted a
  = join ", " (map (fun n => "'" +++ n +++ "'") (l ++ [a])).
Proof.
  induction l as [|x l IH]; cbn [fold_right app map]; [reflexivity|].
  destruct (l ++ [a]) as [|y r] eqn:E; [destruct l; discriminate|]. cbn [map] in IH |- *. 
  change (join ", " (("'" +++ x +++ "'") :: ("'" +++ y +++ "'") :: map (fun n => "'" +++ n +++ "'") r))
    with (quoted x +++ (", " +++ join ", " (("'" +++ y +++ "'") :: map (fun n => "'" +++ n +++ "'") r))).
  rewrite <- IH, !append_assoc. reflexivity.
Qed.

Lemma print_all_names_text names : names <> [] ->
  print_all_names names = Ok (join ", " (map (fun n => "'" +++ n +++ "'") names)).
Proof.
  intros Hne. destruct (exists_last Hne) as (l & a & ->). unfold print_all_names. rewrite rev_app_distr. cbn [rev app].
  rewrite removelast_last, quoted_join. reflexivity.
Qed.

Lemma quoted_trailing l : l <> [] -> fold_right (fun n s => quoted n +++ ", " +++ s) "" l
  = join ", " (map (fun n => "'" +++ n +++ "'") l) +++ ", ".
Proof.
  intros Hne. destruct (exists_last Hne) as (r & a & ->). rewrite <- quoted_join.
  induction r as [|x r IH]; cbn [fold_right app]; [rewrite append_nil_r; reflexivity|].
  rewrite IH by (destruct r; discriminate). rewrite !append_assoc. reflexivity.
Qed.

Lemma component_names_nonempty (l : list Labels) :
  Forall (fun c => length (labels_names c) = 1) l -> l <> [] -> flat_map labels_names l <> [].
Proof.
  intros H Hne. destruct l as [|c l]; [congruence|]. inversion H as [|? ? H1 _]; subst. cbn. destruct (labels_names c); discriminate.
Qed.

Lemma components_text pre (l : list Labels) : Forall (fun c => length (labels_names c) = 1) l ->
  (if 0 <? length l then but_last 2 (pre +++ fold_right (fun n s => quoted n +++ ", " +++ s) "" (flat_map labels_names l))
   else pre +++ fold_right (fun n s => quoted n +++ ", " +++ s) "" (flat_map labels_names l))
  = pre +++ join ", " (map (fun n => "'" +++ n +++ "'") (flat_map labels_names l)).
Proof.
  intros H. destruct l as [|c l]; [reflexivity|]. cbn [length Nat.ltb Nat.leb].
  rewrite quoted_trailing by (apply component_names_nonempty; [assumption|discriminate]).
  rewrite <- append_assoc. apply but_last_app. reflexivity.
Qed.

Lemma wf_basic_names b : wf_basic b ->
  labels_names (bb_samples b) <> [] /\ labels_names (bb_properties b) <> []
  /\ Forall (fun c => length (labels_names c) = 1) (bb_components b).
Proof.
  intros (_ & Ha & _ & Hc & _). unfold axes in Ha. inversion Ha as [|? ? [_ H1] H2]; subst.
  apply Forall_app in H2 as [_ H2]. inversion H2 as [|? ? [_ H3] _]; subst. auto.
Qed.

Lemma block_repr_text b : wf_block b ->
  block_repr b = Ok (in_lines
    ["TensorBlock";
     "    samples: " +++ names_list (labels_names (bb_samples (tb_values b)));
     "    component: " +++ names_list (flat_map labels_names (bb_components (tb_values b)));
     "    properties: " +++ names_list (labels_names (bb_properties (tb_values b)));
     "    gradients: " +++ match tb_gradient_parameters b with [] => "no" | p => names_list p end]).
Proof.
  intros (Hv & _). destruct (wf_basic_names _ Hv) as (Hs & Hp & Hc). unfold block_repr.
  rewrite (print_all_names_text _ Hs). cbn [bind].
  match goal with |- context [but_last 2 ?txt] => replace txt with
     (("TensorBlock" +++ newline +++ "    samples: [" +++ join ", " (map (fun n => "'" +++ n +++ "'") (labels_names (bb_samples (tb_values b)))) +++ "]" +++ newline +++ "    component: [")
       +++ fold_right (fun n s => quoted n +++ ", " +++ s) "" (flat_map labels_names (bb_components (tb_values b)))) end.
  2: { rewrite !append_assoc. reflexivity. }
  rewrite components_text by assumption. rewrite (print_all_names_text _ Hp). cbn [bind].
  unfold in_lines. change (String line_end "") with newline. unfold names_list. cbn [join].
  destruct (tb_gradient_parameters b) as [|p ps].
  - rewrite !append_assoc. reflexivity.
  - rewrite print_all_names_text by discriminate. cbn [bind]. rewrite !append_assoc. reflexivity.
Qed.

Lemma gradient_repr_text parameter g : wf_basic g ->
  gradient_repr parameter g = Ok (in_lines
    ["Gradient TensorBlock ";
     "parameter: '" +++ parameter +++ "'";
     "samples: " +++ names_list (labels_names (bb_samples g));
     "component: " +++ names_list (flat_map labels_names (bb_components g));
     "properties: " +++ names_list (labels_names (bb_properties g))]).
Proof.
  intros Hv. destruct (wf_basic_names _ Hv) as (Hs & Hp & Hc). unfold gradient_repr.
  rewrite (print_all_names_text _ Hs). cbn [bind].
  match goal with |- context [but_last 2 ?txt] => replace txt with
     (("Gradient TensorBlock " +++ newline +++ "parameter: '" +++ parameter +++ "'" +++ newline +++ "samples: [" +++ join ", " (map (fun n => "'" +++ n +++ "'") (labels_names (bb_samples g))) +++ "]" +++ newline +++ "component: [")
       +++ fold_right (fun n s => quoted n +++ ", " +++ s) "" (flat_map labels_names (bb_components g))) end.
  2: { rewrite !append_assoc. reflexivity. }
  rewrite components_text by assumption. rewrite (print_all_names_text _ Hp). cbn [bind].
  unfold in_lines. change (String line_end "") with newline. unfold names_list. cbn [join].
  rewrite !append_assoc. reflexivity.
Qed.

(* what follows a name *)
Fixpoint more_names (names : list string) (rest : string) : string :=
  match names with
  | [] => "]" +++ rest
  | n :: names => ", '" +++ n +++ String quote_mark (more_names names rest)
  end.

Lemma names_list_cons n names rest :
  names_list (n :: names) +++ rest = "['" +++ n +++ String quote_mark (more_names names rest).
Proof.
  revert n. induction names as [|m names IH]; intros n.
  - unfold names_list. cbn [map join more_names]. rewrite !append_assoc. reflexivity.
  - specialize (IH m). unfold names_list in *. cbn [map] in *.
    change (join ", " (("'" +++ n +++ "'") :: ("'" +++ m +++ "'") :: map (fun n => "'" +++ n +++ "'") names))
      with (("'" +++ n +++ "'") +++ (", " +++ join ", " (("'" +++ m +++ "'") :: map (fun n => "'" +++ n +++ "'") names))).
    rewrite !append_assoc in *. cbn [more_names].
    change ("['" +++ m +++ String quote_mark (more_names names rest)) with ("[" +++ "'" +++ m +++ String quote_mark (more_names names rest)) in IH.
    apply append_inv_head in IH. rewrite IH. reflexivity.
Qed.

Lemma more_names_inj a : forall b r q, Forall unquoted a -> Forall unquoted b -> more_names a r = more_names b q -> a = b /\ r = q.
Proof.
  induction a as [|x a IH]; intros [|y b] r q Ha Hb H.
  - split; [reflexivity|]. injection H as H. exact H.
  - discriminate.
  - discriminate.
  - cbn [more_names] in H. change (String "," (String " " (String "'" (x +++ String quote_mark (more_names a r))))
      = String "," (String " " (String "'" (y +++ String quote_mark (more_names b q))))) in H. injection H as H.
    inversion Ha; inversion Hb; subst. apply cut_first in H as [-> H]; try assumption.
    apply IH in H as [-> ->]; auto.
Qed.

Lemma names_list_inj a b r q : Forall unquoted a -> Forall unquoted b -> names_list a +++ r = names_list b +++ q -> a = b /\ r = q.
Proof.
  intros Ha Hb H. destruct a as [|x a], b as [|y b].
  - split; [reflexivity|]. injection H as H. exact H.
  - rewrite names_list_cons in H. discriminate.
  - rewrite names_list_cons in H. discriminate.
  - rewrite !names_list_cons in H.
    change (String "[" (String "'" (x +++ String quote_mark (more_names a r))) = String "[" (String "'" (y +++ String quote_mark (more_names b q)))) in H.
    injection H as H. inversion Ha; inversion Hb; subst. apply cut_first in H as [-> H]; try assumption.
    apply more_names_inj in H as [-> ->]; auto.
Qed.

Lemma wf_unquoted l : wf_labels l -> Forall unquoted (labels_names l).
Proof.
  intros Hw. destruct (proj1 (wf_labels_is_labels _) Hw) as ((H & _) & _). apply identifiers_free. exact H.
Qed.

Lemma wf_basic_unquoted b : wf_basic b ->
  Forall unquoted (labels_names (bb_samples b)) /\ Forall unquoted (flat_map labels_names (bb_components b))
  /\ Forall unquoted (labels_names (bb_properties b)).
Proof.
  intros (_ & Ha & _). unfold axes in Ha. inversion Ha as [|? ? [H1 _] H2]; subst.
  apply Forall_app in H2 as [H2 H3]. inversion H3 as [|? ? [H4 _] _]; subst.
  split; [apply wf_unquoted; assumption|]. split; [|apply wf_unquoted; assumption].
  apply Forall_flat_map. eapply Forall_impl; [|exact H2]. intros l [Hl _]. apply wf_unquoted. assumption.
Qed.

Lemma single_names a : forall b,
  Forall (fun c => length (labels_names c) = 1) a -> Forall (fun c => length (labels_names c) = 1) b ->
  flat_map labels_names a = flat_map labels_names b -> map labels_names a = map labels_names b.
Proof.
  induction a as [|x a IH]; intros [|y b] Ha Hb H; [reflexivity| | |].
  - exfalso. apply (component_names_nonempty (y :: b) Hb); [discriminate|]. symmetry. exact H.
  - exfalso. apply (component_names_nonempty (x :: a) Ha); [discriminate|]. exact H.
  - inversion Ha as [|? ? K1 K2]; inversion Hb as [|? ? K3 K4]; subst. cbn in *.
    destruct (labels_names x) as [|u [|]]; try discriminate. destruct (labels_names y) as [|v [|]]; try discriminate.
    cbn in H. injection H as -> H. f_equal. apply IH; assumption.
Qed.

Lemma same_block_text b1 b2 : wf_block b1 -> wf_block b2 ->
  Forall unquoted (tb_gradient_parameters b1) -> Forall unquoted (tb_gradient_parameters b2) ->
  block_repr b1 = block_repr b2 ->
  labels_names (bb_samples (tb_values b1)) = labels_names (bb_samples (tb_values b2))
  /\ map labels_names (bb_components (tb_values b1)) = map labels_names (bb_components (tb_values b2))
  /\ labels_names (bb_properties (tb_values b1)) = labels_names (bb_properties (tb_values b2))
  /\ tb_gradient_parameters b1 = tb_gradient_parameters b2.
Proof.
  intros W1 W2 U1 U2 E. rewrite !block_repr_text in E by assumption.
  destruct W1 as (V1 & _). destruct W2 as (V2 & _).
  destruct (wf_basic_unquoted _ V1) as (A1 & A2 & A3). destruct (wf_basic_unquoted _ V2) as (B1 & B2 & B3).
  destruct (wf_basic_names _ V1) as (_ & _ & C1). destruct (wf_basic_names _ V2) as (_ & _ & C2).
  assert (H : forall a b : string, Ok a = Ok b -> a = b) by (intros a b Hab; injection Hab; auto). apply H in E. clear H.
  unfold in_lines in E. cbn [join] in E. rewrite !append_assoc in E. do 3 apply append_inv_head in E.
  apply names_list_inj in E as [ES E]; try assumption. do 2 apply append_inv_head in E.
  apply names_list_inj in E as [EC E]; try assumption. do 2 apply append_inv_head in E.
  apply names_list_inj in E as [EP E]; try assumption. do 2 apply append_inv_head in E.
  split; [assumption|]. split; [apply single_names; assumption|]. split; [assumption|].
  destruct (tb_gradient_parameters b1) as [|p ps], (tb_gradient_parameters b2) as [|q qs]; try reflexivity; try discriminate.
  rewrite <- (append_nil_r (names_list (p :: ps))), <- (append_nil_r (names_list (q :: qs))) in E.
  apply names_list_inj in E as [E _]; assumption.
Qed.

Lemma same_gradient_text p1 g1 p2 g2 : wf_basic g1 -> wf_basic g2 -> unquoted p1 -> unquoted p2 ->
  gradient_repr p1 g1 = gradient_repr p2 g2 ->
  p1 = p2 /\ labels_names (bb_samples g1) = labels_names (bb_samples g2)
  /\ map labels_names (bb_components g1) = map labels_names (bb_components g2)
  /\ labels_names (bb_properties g1) = labels_names (bb_properties g2).
Proof.
  intros V1 V2 U1 U2 E. rewrite !gradient_repr_text in E by assumption.
  destruct (wf_basic_unquoted _ V1) as (A1 & A2 & A3). destruct (wf_basic_unquoted _ V2) as (B1 & B2 & B3).
  destruct (wf_basic_names _ V1) as (_ & _ & C1). destruct (wf_basic_names _ V2) as (_ & _ & C2).
  assert (H : forall a b : string, Ok a = Ok b -> a = b) by (intros a b Hab; injection Hab; auto). apply H in E. clear H.
  unfold in_lines in E. cbn [join] in E. rewrite !append_assoc in E. do 3 apply append_inv_head in E.
  change (p1 +++ String quote_mark (String line_end ("samples: " +++ names_list (labels_names (bb_samples g1)) +++ String line_end "" +++ "component: "
     +++ names_list (flat_map labels_names (bb_components g1)) +++ String line_end "" +++ "properties: " +++ names_list (labels_names (bb_properties g1))))
    = p2 +++ String quote_mark (String line_end ("samples: " +++ names_list (labels_names (bb_samples g2)) +++ String line_end "" +++ "component: "
     +++ names_list (flat_map labels_names (bb_components g2)) +++ String line_end "" +++ "properties: " +++ names_list (labels_names (bb_properties g2))))) in E.
  apply cut_first in E as [-> E]; try assumption. split; [reflexivity|].
  assert (H : forall c a b, String c a = String c b -> a = b) by (intros c a b Hab; injection Hab; auto). apply H in E. clear H.
  apply append_inv_head in E. apply names_list_inj in E as [ES E]; try assumption. do 2 apply append_inv_head in E.
  apply names_list_inj in E as [EC E]; try assumption. do 2 apply append_inv_head in E.
  rewrite <- (append_nil_r (names_list (labels_names (bb_properties g1)))), <- (append_nil_r (names_list (labels_names (bb_properties g2)))) in E.
  apply names_list_inj in E as [E _]; try assumption. split; [assumption|]. split; [apply single_names; assumption|assumption].
Qed.
