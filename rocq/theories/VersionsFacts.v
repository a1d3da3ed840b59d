(* Facts about versions *)
From Verif Require Import Base BaseFacts Versions SpecVersions.
Local Open Scope string_scope.
Local Open Scope list_scope.
Local Open Scope nat_scope.

Lemma append_assoc a b c : ((a +++ b) +++ c = a +++ (b +++ c))%string.
Proof. induction a as [|x a IH]; cbn; [reflexivity|]. f_equal. exact IH. Qed.

Lemma append_nil_r a : (a +++ "" = a)%string.
Proof. induction a as [|x a IH]; cbn; [reflexivity|]. f_equal. exact IH. Qed.

Lemma append_length a b : String.length (a +++ b) = String.length a + String.length b.
Proof. induction a as [|x a IH]; cbn; [reflexivity|]. f_equal. exact IH. Qed.

Lemma substring_0_full a n : String.length a <= n -> substring 0 n a = a.
Proof. revert n. induction a as [|x a IH]; intros [|n] H; cbn in *; try reflexivity; [lia|]. f_equal. apply IH. lia. Qed.

Lemma substring_0_app a b : substring 0 (String.length a) (a +++ b) = a.
Proof. induction a as [|x a IH]; cbn; [destruct b; reflexivity|]. f_equal. exact IH. Qed.

Lemma substring_app a b n : substring (String.length a) n (a +++ b) = substring 0 n b.
Proof. induction a as [|x a IH]; cbn; [reflexivity|]. exact IH. Qed.

Lemma prefix_app a b : String.prefix a (a +++ b) = true.
Proof. induction a as [|x a IH]; cbn; [destruct b; reflexivity|]. destruct (ascii_dec x x); [exact IH|contradiction]. Qed.

(* text without spaces has no separator *)
Definition no_space (s : string) : Prop := Forall (fun c => c <> " "%char) (list_ascii_of_string s).

Lemma split_no_space fuel s word : no_space s -> String.length s < fuel -> split_word fuel " = " s word = [word +++ s].
Proof.
  revert s word. induction fuel as [|fuel IH]; intros s word Hs Hl; [lia|]. cbn [split_word]. destruct s as [|c s]; [rewrite append_nil_r; reflexivity|].
  inversion Hs as [|? ? Hc Hs']; subst. cbn [String.prefix]. destruct (ascii_dec " " c) as [E|_]; [contradiction Hc; auto|].
  rewrite IH; [|exact Hs'|cbn in Hl; lia]. rewrite append_assoc. reflexivity.
Qed.

Lemma split_line fuel name value word : no_space name -> no_space value -> String.length name + String.length value + 3 < fuel ->
  split_word fuel " = " (name +++ " = " +++ value) word = [word +++ name; value].
Proof.
  revert name word. induction fuel as [|fuel IH]; intros name word Hn Hv Hl; [lia|]. destruct name as [|c name].
  - cbn [split_word String.append]. rewrite append_nil_r.
    change (String " " (String "=" (String " " value))) with (" = " +++ value). rewrite prefix_app, substring_app, substring_0_full by (rewrite append_length; lia).
    rewrite split_no_space by (try assumption; cbn in Hl; lia). reflexivity.
  - inversion Hn as [|? ? Hc Hn']; subst. cbn [split_word String.append String.prefix]. destruct (ascii_dec " " c) as [E|_]; [contradiction Hc; auto|].
    change (String " " (String "=" (String " " value))) with (" = " +++ value).
    rewrite IH; [|exact Hn'|exact Hv|cbn in Hl; lia]. rewrite append_assoc. reflexivity.
Qed.

Lemma version_no_space v : version_text v -> no_space v.
Proof.
  apply Forall_impl. intros c H ->. unfold version_code in H. cbn in H. lia.
Qed.

Lemma no_space_app a b : no_space a -> no_space b -> no_space (a +++ b).
Proof.
  intros Ha Hb. unfold no_space in *. induction a as [|c a IH]; cbn [String.append list_ascii_of_string] in *; [exact Hb|].
  inversion Ha; subst. constructor; auto.
Qed.

Lemma prefix_line p line : Forall (fun c => c <> "010"%char) (list_ascii_of_string p) ->
  String.prefix p (line +++ end_of_line) = String.prefix p line.
Proof.
  revert line. induction p as [|c p IH]; intros line H; [destruct (line +++ end_of_line), line; reflexivity|].
  cbn [list_ascii_of_string] in H. inversion H as [|? ? Hc Hp]; subst. destruct line as [|d line]; cbn [String.append end_of_line String.prefix].
  - destruct (ascii_dec c "010"); [contradiction|reflexivity].
  - destruct (ascii_dec c d); [apply IH; exact Hp|reflexivity].
Qed.

Lemma cargo_version_first before v rest : first_version before -> version_text v ->
  cargo_version (with_ends (cargo_toml before v rest)) = Some v.
Proof.
  intros Hb Hv. unfold cargo_toml, with_ends. induction before as [|line before IH]; cbn [map app cargo_version].
  - rewrite !append_assoc. change ("version = " +++ quote +++ v +++ quote +++ end_of_line) with ("version" +++ " = " +++ (quote +++ v +++ quote +++ end_of_line)).
    rewrite prefix_app. unfold py_split. rewrite split_line.
    + unfold py_unquote. rewrite !append_length. change (substring 1 ?n (quote +++ ?s)) with (substring 0 n s). cbn [quote end_of_line String.length].
      replace (1 + (String.length v + (1 + 1)) - 3) with (String.length v) by lia. rewrite substring_0_app. reflexivity.
    + repeat constructor; discriminate.
    + repeat apply no_space_app; try (repeat constructor; discriminate). exact (version_no_space v Hv).
    + rewrite !append_length. cbn [String.length]. lia.
  - rewrite prefix_line by (repeat constructor; discriminate). rewrite (Hb line (or_introl eq_refl)). apply IH. intros l Hl. apply Hb. right. exact Hl.
Qed.

Lemma is_space_iff c : is_space c = true <-> space_code (nat_of_ascii c).
Proof.
  unfold is_space, space_code. rewrite existsb_exists. split.
  - intros (x & Hx & E). apply Ascii.eqb_eq in E. subst x. cbn [In] in Hx.
    repeat (destruct Hx as [<-|Hx]; [vm_compute; lia|]). destruct Hx.
  - intros H. exists c. split; [|apply Ascii.eqb_refl]. rewrite <- (ascii_nat_embedding c).
    assert (E : nat_of_ascii c = 32 \/ nat_of_ascii c = 9 \/ nat_of_ascii c = 10 \/ nat_of_ascii c = 11 \/ nat_of_ascii c = 12 \/ nat_of_ascii c = 13) by lia.
    destruct E as [E|[E|[E|[E|[E|E]]]]]; rewrite E; cbn; tauto.
Qed.

Lemma strip_left_word l : Forall (fun c => ~ space_code (nat_of_ascii c)) l -> strip_left l = l.
Proof.
  intros H. destruct l as [|c l]; [reflexivity|]. inversion H as [|? ? Hc _]; subst. cbn [strip_left].
  destruct (is_space c) eqn:E; [apply is_space_iff in E; contradiction|reflexivity].
Qed.

Lemma strip_left_spaces l : (forall c, In c l -> space_code (nat_of_ascii c)) -> strip_left l = [].
Proof.
  intros H. induction l as [|c l IH]; [reflexivity|]. cbn [strip_left]. rewrite (proj2 (is_space_iff c)) by (apply H; left; reflexivity).
  apply IH. intros d Hd. apply H. right. exact Hd.
Qed.

Lemma strip_left_some l c : In c l -> ~ space_code (nat_of_ascii c) -> In c (strip_left l).
Proof.
  intros H Hc. induction l as [|d l IH]; [destruct H|]. cbn [strip_left]. destruct (is_space d) eqn:E; [|exact H].
  destruct H as [->|H]; [apply is_space_iff in E; contradiction|exact (IH H)].
Qed.

Lemma text_app a b : list_ascii_of_string (a +++ b) = list_ascii_of_string a ++ list_ascii_of_string b.
Proof. induction a as [|c a IH]; cbn; [reflexivity|]. f_equal. exact IH. Qed.

Lemma py_strip_word t : word t -> py_strip (t +++ end_of_line) = t.
Proof.
  intros H. unfold py_strip. rewrite text_app. cbn [end_of_line list_ascii_of_string].
  destruct (list_ascii_of_string t) as [|c l] eqn:E.
  - destruct t; [reflexivity|discriminate E].
  - assert (Hl : strip_left ((c :: l) ++ ["010"%char]) = (c :: l) ++ ["010"%char]).
    { unfold word in H. rewrite E in H. inversion H as [|? ? Hc _]; subst. cbn [app strip_left].
      destruct (is_space c) eqn:Es; [apply is_space_iff in Es; contradiction|reflexivity]. }
    rewrite Hl, rev_app_distr. cbn [rev app]. cbn [strip_left]. change (is_space "010") with true. cbn iota.
    change (rev l ++ [c]) with (rev (c :: l)). rewrite strip_left_word.
    + rewrite rev_involutive, <- E. apply string_of_list_ascii_of_string.
    + unfold word in H. rewrite E in H. apply Forall_rev. exact H.
Qed.

Lemma py_strip_blank t : (forall c, In c (list_ascii_of_string t) -> space_code (nat_of_ascii c)) -> py_strip t = "".
Proof. intros H. unfold py_strip. rewrite (strip_left_spaces _ H). reflexivity. Qed.

Lemma py_strip_some t c : In c (list_ascii_of_string t) -> ~ space_code (nat_of_ascii c) -> py_strip t <> "".
Proof.
  intros H Hc E. unfold py_strip in E.
  assert (Hin : In c (rev (strip_left (rev (strip_left (list_ascii_of_string t)))))).
  { apply -> in_rev. apply strip_left_some; [|exact Hc]. apply -> in_rev. apply strip_left_some; assumption. }
  destruct (rev (strip_left (rev (strip_left (list_ascii_of_string t))))); [destruct Hin|discriminate E].
Qed.

Lemma counted_reference g reference : counted_from g reference -> git_reference g = reference.
Proof.
  intros H. unfold git_reference. destruct H as [tags tag Ht (c & Hc & Hs) Hd Hw|tags first Ht Hs Hr Hw|Ht]; rewrite Ht; [| |reflexivity].
  - pose proof (py_strip_some tags c Hc Hs) as Hn. apply String.eqb_neq in Hn. rewrite Hn, Hd. apply py_strip_word. exact Hw.
  - rewrite (py_strip_blank tags Hs). cbn [String.eqb]. rewrite Hr. apply py_strip_word. exact Hw.
Qed.

Lemma number_word n : number_text n -> word n.
Proof. intros [_ H]. revert H. apply Forall_impl. intros c Hc. unfold space_code. lia. Qed.

(* what Python shows *)
Lemma python_version_exact before v rest g count : first_version before -> version_text v -> commits_since g count ->
  python_version (with_ends (cargo_toml before v rest)) g
  = Some (match count with Some n => v +++ ".dev" +++ n | None => v end).
Proof.
  intros Hb Hv (reference & Hr & Hc). unfold python_version. rewrite cargo_version_first by assumption. rewrite (counted_reference g reference Hr).
  destruct count as [n|]; [|rewrite Hc; reflexivity]. destruct Hc as [Hn Hc]. rewrite Hc, py_strip_word by (apply number_word; exact Hn). reflexivity.
Qed.

(** * CMake *)

Lemma text_after_app a b : text_after a (a +++ b) = Some b.
Proof. induction a as [|c a IH]; cbn; [reflexivity|]. rewrite Ascii.eqb_refl. exact IH. Qed.

Lemma text_after_inv a s b : text_after a s = Some b -> s = a +++ b.
Proof.
  revert s. induction a as [|c a IH]; intros s H; cbn in H; [injection H as <-; reflexivity|].
  destruct s as [|d s]; [discriminate H|]. destruct (Ascii.eqb_spec c d) as [->|]; [|discriminate H]. cbn. f_equal. apply IH. exact H.
Qed.

Lemma is_digit_iff c : is_digit c = true <-> 48 <= nat_of_ascii c <= 57.
Proof. unfold is_digit. rewrite andb_true_iff, !Nat.leb_le. reflexivity. Qed.

Lemma digits_number d s : Forall (fun c => 48 <= nat_of_ascii c <= 57) (list_ascii_of_string d) ->
  match s with String c _ => is_digit c = false | EmptyString => True end ->
  digits (d +++ s) = (d, s).
Proof.
  intros Hd Hs. induction d as [|c d IH]; cbn [String.append digits].
  - destruct s as [|c s]; [reflexivity|]. cbn [digits]. rewrite Hs. reflexivity.
  - cbn [list_ascii_of_string] in Hd. inversion Hd as [|? ? Hc Hd']; subst. apply is_digit_iff in Hc. rewrite Hc, IH by exact Hd'. reflexivity.
Qed.

Lemma match_numeric v s : numeric_version v -> match_version ("version = " +++ quote +++ v +++ quote +++ s) = Some v.
Proof.
  intros (major & minor & patch & [H0 Hm] & [H1 Hn] & [H2 Hp] & ->). unfold match_version.
  rewrite <- append_assoc, text_after_app. rewrite !append_assoc. rewrite digits_number; [|exact Hm|reflexivity].
  rewrite text_after_app. rewrite digits_number; [|exact Hn|reflexivity]. rewrite text_after_app. rewrite digits_number; [|exact Hp|reflexivity].
  rewrite text_after_app. apply String.eqb_neq in H0, H1, H2. rewrite H0, H1, H2. reflexivity.
Qed.

Lemma match_version_is_in s v : match_version s = Some v -> is_in ("version = " +++ quote) s.
Proof.
  unfold match_version. destruct (text_after ("version = " +++ quote) s) as [b|] eqn:E; [|discriminate]. intros _.
  apply text_after_inv in E. exists "", b. exact E.
Qed.

Lemma replace_none s : ~ is_in ("version = " +++ quote) s -> replace_version s = None.
Proof.
  intros H. induction s as [|c s IH]; cbn [replace_version].
  - destruct (match_version "") eqn:E; [|reflexivity]. contradiction H. exact (match_version_is_in _ _ E).
  - destruct (match_version (String c s)) eqn:E; [contradiction H; exact (match_version_is_in _ _ E)|].
    rewrite IH; [reflexivity|]. intros (a & b & ->). apply H. exists (String c a), b. reflexivity.
Qed.

Lemma cmake_version_first before v rest : (forall line, In line before -> ~ is_in ("version = " +++ quote) line) -> numeric_version v ->
  cmake_version (cargo_toml before v rest) = Some v.
Proof.
  intros Hb Hv. unfold cargo_toml. induction before as [|line before IH]; cbn [app cmake_version].
  - assert (E : match_version ("version = " +++ quote +++ v +++ quote) = Some v).
    { pose proof (match_numeric v "" Hv) as E. rewrite (append_nil_r quote) in E. exact E. }
    change ("version = " +++ quote +++ v +++ quote) with (String "v" ("ersion = " +++ quote +++ v +++ quote)) in E |- *. cbn [replace_version]. rewrite E. reflexivity.
  - rewrite replace_none by (apply Hb; left; reflexivity). apply IH. intros l Hl. apply Hb. right. exact Hl.
Qed.

Lemma Forall_text (P : ascii -> Prop) a b : Forall P (list_ascii_of_string a) -> Forall P (list_ascii_of_string b) -> Forall P (list_ascii_of_string (a +++ b)).
Proof.
  intros Ha Hb. induction a as [|c a IH]; cbn [String.append list_ascii_of_string] in *; [exact Hb|]. inversion Ha; subst. constructor; auto.
Qed.

Lemma numeric_version_text v : numeric_version v -> version_text v.
Proof.
  intros (major & minor & patch & [_ Hm] & [_ Hn] & [_ Hp] & ->). unfold version_text.
  assert (H : forall d, Forall (fun c => 48 <= nat_of_ascii c <= 57) (list_ascii_of_string d) -> Forall (fun c => version_code (nat_of_ascii c)) (list_ascii_of_string d)).
  { intros d. apply Forall_impl. intros c Hc. left. exact Hc. }
  repeat apply Forall_text; auto; (constructor; [right; right; right; left; reflexivity|constructor]).
Qed.

Lemma versions_agree before v rest g : first_version before -> (forall line, In line before -> ~ is_in ("version = " +++ quote) line) ->
  numeric_version v -> commits_since g None ->
  cmake_version (cargo_toml before v rest) = Some v /\ python_version (with_ends (cargo_toml before v rest)) g = Some v.
Proof.
  intros Hf Hb Hv Hg. split; [exact (cmake_version_first _ _ _ Hb Hv)|].
  rewrite (python_version_exact before v rest g None Hf (numeric_version_text v Hv) Hg). reflexivity.
Qed.

(** * find_package *)

Lemma compare_three a b : compare_versions (parts a) (parts b) = Gt <-> ~ older_or_same a b.
Proof.
  destruct a as [[a0 a1] a2], b as [[b0 b1] b2]. unfold compare_versions. cbn [parts length Nat.max version_compare hd tl older_or_same].
  destruct (Nat.compare_spec a0 b0), (Nat.compare_spec a1 b1), (Nat.compare_spec a2 b2); subst; split; intros; try discriminate; try reflexivity; lia.
Qed.

Lemma compare_three_eq a b : compare_versions (parts a) (parts b) = Eq <-> a = b.
Proof.
  destruct a as [[a0 a1] a2], b as [[b0 b1] b2]. unfold compare_versions. cbn [parts length Nat.max version_compare hd tl].
  destruct (Nat.compare_spec a0 b0), (Nat.compare_spec a1 b1), (Nat.compare_spec a2 b2); subst; split; intros H'; try discriminate; try reflexivity;
    injection H'; intros; lia.
Qed.

Lemma same_size_iff a b : same_size a b <-> match a, b with Some a, Some b => negb (a =? b) | _, _ => false end = false.
Proof.
  unfold same_size. destruct a as [a|], b as [b|]; try tauto. rewrite negb_false_iff, Nat.eqb_eq. split; [|intros ->; auto].
  intros [H|[H|H]]; congruence.
Qed.

Lemma find_package_iff requested installed size installed_size :
  find_package false (parts requested) size (parts installed) installed_size = true
  <-> older_or_same requested installed /\ same_interface requested installed /\ same_size size installed_size.
Proof.
  unfold find_package. rewrite andb_true_iff, negb_true_iff, <- same_size_iff.
  assert (E : match parts requested with [] => true | _ => false end = false) by (destruct requested as [[? ?] ?]; reflexivity). rewrite E, orb_false_r. clear E.
  destruct (compare_versions (parts requested) (parts installed)) eqn:Ec.
  - apply compare_three_eq in Ec as ->. cbn [negb andb orb]. split; [|tauto]. intros [Hs _]. split; [|split; [|exact Hs]]; destruct installed as [[i0 i1] i2]; cbn; lia.
  - assert (Ho : older_or_same requested installed).
    { destruct requested as [[a0 a1] a2], installed as [[b0 b1] b2]. cbn. unfold compare_versions in Ec. cbn [parts length Nat.max version_compare hd tl] in Ec.
      destruct (Nat.compare_spec a0 b0), (Nat.compare_spec a1 b1), (Nat.compare_spec a2 b2); try discriminate Ec; lia. }
    cbn [negb andb orb]. split.
    + intros [Hs Hc]. split; [exact Ho|]. split; [|exact Hs]. destruct requested as [[a0 a1] a2], installed as [[b0 b1] b2]. cbn in *.
      destruct (Nat.eqb_spec b0 0); apply Nat.eqb_eq in Hc; lia.
    + intros (_ & Hi & Hs). split; [exact Hs|]. destruct requested as [[a0 a1] a2], installed as [[b0 b1] b2]. cbn in *.
      destruct (Nat.eqb_spec b0 0); apply Nat.eqb_eq; lia.
  - apply compare_three in Ec. cbn [negb andb orb]. split; [intros [_ H]; discriminate H|tauto].
Qed.

Lemma find_package_exact requested installed size installed_size :
  find_package true (parts requested) size (parts installed) installed_size = true
  <-> requested = installed /\ same_size size installed_size.
Proof.
  unfold find_package. rewrite andb_true_iff, negb_true_iff, <- same_size_iff.
  assert (E : match parts requested with [] => true | _ => false end = false) by (destruct requested as [[? ?] ?]; reflexivity). rewrite E, orb_false_r. clear E.
  rewrite <- compare_three_eq. destruct (compare_versions (parts requested) (parts installed)); cbn [negb andb orb]; split; intros []; split; auto; discriminate.
Qed.

(* fewer numbers: the others are 0 *)
Lemma find_package_short exact requested size installed installed_size : requested <> [] -> length requested <= 3 ->
  find_package exact requested size (parts installed) installed_size
  = find_package exact (parts (nth 0 requested 0, nth 1 requested 0, nth 2 requested 0)) size (parts installed) installed_size.
Proof.
  intros H0 H3. destruct installed as [[i0 i1] i2].
  destruct requested as [|a [|b [|c [|d r]]]]; [contradiction| | | |cbn in H3; lia]; reflexivity.
Qed.

Lemma find_package_any exact size installed installed_size :
  find_package exact [] size (parts installed) installed_size = true <-> same_size size installed_size.
Proof. unfold find_package. rewrite orb_true_r, andb_true_r, negb_true_iff, <- same_size_iff. reflexivity. Qed.
