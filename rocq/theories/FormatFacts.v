(* Lemmas about the format of the files *)
From Coq Require Import Permutation DecimalString.
From Coq Require DecimalNat.
From Verif Require Import Base BaseFacts Labels Array Block Tensor Spec SpecTensor LabelsFacts Npy SpecIo NpyFacts Io PathFacts IoFacts
  SpecFormat.
Local Open Scope string_scope.
Local Open Scope list_scope.
Local Open Scope nat_scope.

(** * Numbers *)

Definition digits_value (b : bytes) (z : Z) : Z :=
  fold_left (fun z c => (10 * z + Z.of_nat (nat_of_ascii c - 48))%Z) b z.

Lemma of_uint_acc_value d : forall acc,
  Z.pos (Pos.of_uint_acc d acc) = digits_value (bytes_of (NilEmpty.string_of_uint d)) (Z.pos acc).
Proof.
  induction d; intros acc; [reflexivity|..];
    cbn [Pos.of_uint_acc NilEmpty.string_of_uint bytes_of list_ascii_of_string]; unfold digits_value in *; cbn [fold_left];
    change (list_ascii_of_string ?s) with (bytes_of s); rewrite IHd; f_equal; cbn [nat_of_ascii]; try reflexivity;
    vm_compute (Z.of_nat _); lia.
Qed.

Lemma of_uint_value d : Z.of_uint d = digits_value (bytes_of (NilEmpty.string_of_uint d)) 0.
Proof.
  unfold Z.of_uint. induction d; [reflexivity|exact IHd|..];
    cbn [Pos.of_uint Z.of_N NilEmpty.string_of_uint bytes_of list_ascii_of_string]; rewrite of_uint_acc_value; reflexivity.
Qed.

Lemma nat_of_uint_acc_value d : forall acc,
  Z.of_nat (Nat.of_uint_acc d acc) = digits_value (bytes_of (NilEmpty.string_of_uint d)) (Z.of_nat acc).
Proof.
  induction d; intros acc; [reflexivity|..];
    cbn [Nat.of_uint_acc NilEmpty.string_of_uint bytes_of list_ascii_of_string]; unfold digits_value in *; cbn [fold_left];
    change (list_ascii_of_string ?s) with (bytes_of s); rewrite IHd; f_equal; rewrite Nat.tail_mul_spec;
    rewrite ?Nat2Z.inj_succ, Nat2Z.inj_mul; vm_compute (Z.of_nat (_ - 48)); vm_compute (Z.of_nat 10); lia.
Qed.

Lemma nat_of_uint_value d : Z.of_nat (Nat.of_uint d) = digits_value (bytes_of (NilEmpty.string_of_uint d)) 0.
Proof. apply (nat_of_uint_acc_value d 0). Qed.

(* every list of digits comes from a decimal number *)
Lemma digits_uint b : Forall (fun c => 48 <= nat_of_ascii c <= 57) b -> exists d, b = bytes_of (NilEmpty.string_of_uint d).
Proof.
  induction 1 as [|c b Hc _ [d ->]]; [exists Decimal.Nil; reflexivity|].
  assert (E : c = ascii_of_nat (nat_of_ascii c)) by (symmetry; apply ascii_nat_embedding).
  remember (nat_of_ascii c) as n.
  do 48 (destruct n as [|n]; [lia|]).
  destruct n as [|n]; [exists (Decimal.D0 d); rewrite E; reflexivity|].
  destruct n as [|n]; [exists (Decimal.D1 d); rewrite E; reflexivity|].
  destruct n as [|n]; [exists (Decimal.D2 d); rewrite E; reflexivity|].
  destruct n as [|n]; [exists (Decimal.D3 d); rewrite E; reflexivity|].
  destruct n as [|n]; [exists (Decimal.D4 d); rewrite E; reflexivity|].
  destruct n as [|n]; [exists (Decimal.D5 d); rewrite E; reflexivity|].
  destruct n as [|n]; [exists (Decimal.D6 d); rewrite E; reflexivity|].
  destruct n as [|n]; [exists (Decimal.D7 d); rewrite E; reflexivity|].
  destruct n as [|n]; [exists (Decimal.D8 d); rewrite E; reflexivity|].
  destruct n as [|n]; [exists (Decimal.D9 d); rewrite E; reflexivity|]. lia.
Qed.

Lemma decimal_uint b z : decimal b z <->
  exists d, b = bytes_of (NilEmpty.string_of_uint d) /\ (d = Decimal.zero \/ Decimal.nzhead d = d) /\ d <> Decimal.Nil /\ z = Z.of_uint d.
Proof.
  split.
  - intros (Hn & Hd & Hz & E). destruct (digits_uint b Hd) as [d ->]. exists d. split; [reflexivity|].
    split; [|split].
    + destruct d; try (right; reflexivity).
      left. specialize (Hz _ eq_refl). destruct d; try discriminate Hz. reflexivity.
    + intros ->. apply Hn. reflexivity.
    + rewrite of_uint_value. exact E.
  - intros (d & -> & Hz & Hn & ->). split; [|split; [|split]].
    + destruct d; try contradiction; discriminate.
    + apply Forall_forall. intros c Hc. apply digit_code. apply (proj1 (forallb_forall _ _) (uint_digits d) c Hc).
    + intros r E. destruct d; try discriminate E. destruct Hz as [Hz|Hz].
      * inversion Hz; subst. inversion E. reflexivity.
      * exfalso. exact (DecimalFacts.nzhead_nonzero _ _ Hz).
    + rewrite of_uint_value. reflexivity.
Qed.

Lemma decimal_string_of_Z z : (0 <= z)%Z -> decimal (bytes_of (string_of_Z z)) z.
Proof.
  intros Hz. apply decimal_uint. unfold string_of_Z. pose proof (DecimalZ.of_to z) as Ho.
  destruct z as [|p|p]; [| |lia].
  - exists Decimal.zero. repeat split; [left; reflexivity|discriminate].
  - cbn [Z.to_int] in *. exists (Pos.to_uint p). cbn [NilEmpty.string_of_int].
    split; [reflexivity|]. destruct (digits_of_Z (Z.pos p)) as (d & E & Hd & Hn). cbn [Z.to_int] in E.
    destruct E as [E|E]; inversion E; subst. split; [assumption|]. split; [assumption|]. symmetry. exact Ho.
Qed.

Lemma number_string_of_nat i n : number i n <-> n = string_of_nat i.
Proof.
  unfold number, string_of_nat. change (list_ascii_of_string n) with (bytes_of n). rewrite decimal_uint. split.
  - intros (d & E & Hz & Hn & Ei). apply bytes_of_inj in E. rewrite of_uint_value, <- nat_of_uint_value in Ei.
    apply Nat2Z.inj in Ei. rewrite E. f_equal. rewrite Ei, DecimalNat.Unsigned.to_of.
    destruct Hz as [->|Hz]; [reflexivity|]. unfold Decimal.unorm. rewrite Hz. destruct d; try contradiction; reflexivity.
  - intros ->. exists (Nat.to_uint i). split; [reflexivity|].
    assert (En : Nat.to_uint i = Decimal.unorm (Nat.to_uint i)).
    { rewrite <- DecimalNat.Unsigned.to_of, DecimalNat.Unsigned.of_to. reflexivity. }
    split; [|split].
    + rewrite En. unfold Decimal.unorm. destruct (Decimal.nzhead (Nat.to_uint i)) eqn:E; auto;
        right; rewrite <- E; apply DecimalFacts.nzhead_involutive.
    + rewrite En. apply DecimalFacts.unorm_nonnil.
    + rewrite of_uint_value, <- nat_of_uint_value, DecimalNat.Unsigned.of_to. reflexivity.
Qed.

Lemma parse_integer_decimal b z rest : decimal b z -> no_digit rest -> parse_integer (b ++ rest) = Some (z, rest).
Proof.
  intros H Hr. destruct (proj1 (decimal_uint b z) H) as (d & -> & Hz & Hn & ->).
  pose proof (uint_digits d) as Hdig. pose proof (parse_digits_uint d Hz Hn) as Hp.
  destruct (bytes_of (NilEmpty.string_of_uint d)) as [|c digits] eqn:Eb; [destruct d; try contradiction; discriminate|].
  unfold parse_integer. cbn [app]. simpl in Hdig. apply andb_true_iff in Hdig as [Hc Hdig].
  rewrite (digit_not_sign c Hc).
  change (c :: digits ++ rest) with ((c :: digits) ++ rest). rewrite take_digits_app; [|simpl; rewrite Hc; assumption|assumption].
  rewrite Hp. simpl. assert (Ascii.eqb c "-"%char = false) as -> by (apply orb_false_iff with (b2 := Ascii.eqb c "+"%char); apply digit_not_sign; assumption).
  reflexivity.
Qed.

Lemma decimal_head b z : decimal b z -> exists c r, b = c :: r /\ number_head c.
Proof.
  intros (Hn & Hd & _). destruct b as [|c r]; [contradiction|]. exists c, r. split; [reflexivity|].
  inversion Hd; subst. left. unfold is_ascii_digit. apply andb_true_iff. rewrite !Nat.leb_le. assumption.
Qed.

(** * Values *)

Lemma blank_spaces s : blank s -> forall c, In c s -> is_space c = true.
Proof.
  intros H c Hc. unfold blank in H. rewrite Forall_forall in H. specialize (H c Hc).
  rewrite <- (ascii_nat_embedding c). cbn [In] in H.
  destruct H as [<-|[<-|[<-|[<-|[<-|[]]]]]]; reflexivity.
Qed.

Lemma skip_blank s r : blank s -> skip_spaces (s ++ r) = skip_spaces r.
Proof.
  intros H. pose proof (blank_spaces s H) as Hs. clear H. induction s as [|c s IH]; [reflexivity|].
  cbn [app skip_spaces]. rewrite Hs by (left; reflexivity). apply IH. intros x Hx. apply Hs. right. assumption.
Qed.

Lemma parse_value_blank fuel s r : blank s -> parse_value fuel (s ++ r) = parse_value fuel r.
Proof. intros H. destruct fuel; [reflexivity|]. cbn [parse_value]. rewrite skip_blank by assumption. reflexivity. Qed.

Lemma parse_items_blank fuel c s r : blank s -> parse_items fuel c (s ++ r) = parse_items fuel c r.
Proof. intros H. destruct fuel; [reflexivity|]. cbn [parse_items]. rewrite skip_blank by assumption. reflexivity. Qed.

Lemma parse_entries_blank fuel s r : blank s -> parse_entries fuel (s ++ r) = parse_entries fuel r.
Proof. intros H. destruct fuel; [reflexivity|]. cbn [parse_entries]. rewrite skip_blank by assumption. reflexivity. Qed.

Lemma no_digit_blank s r : blank s -> no_digit r -> no_digit (s ++ r).
Proof.
  intros H Hr. destruct s as [|c s]; [assumption|]. cbn [app no_digit].
  pose proof (blank_spaces _ H c (or_introl eq_refl)) as Hc. destruct (is_ascii_digit c) eqn:E; [|reflexivity].
  exfalso. destruct (number_head_value c (or_introl E)) as [Hs _]. congruence.
Qed.

Lemma parse_string_plain q s rest :
  plain q s -> parse_string q (bytes_of s ++ q :: rest) = Some (bytes_of s, rest).
Proof.
  unfold plain. change (list_ascii_of_string s) with (bytes_of s). induction 1 as [|c b (_ & Hq & Hc) _ IH].
  - cbn [app parse_string]. rewrite Ascii.eqb_refl. reflexivity.
  - cbn [app parse_string].
    assert (N : forall x, In (nat_of_ascii x) [10; 13; 92] -> Ascii.eqb c x = false).
    { intros x Hx. apply Ascii.eqb_neq. intros ->. contradiction. }
    rewrite (proj2 (Ascii.eqb_neq c q) Hq). rewrite (N backslash), (N newline), (N carriage_return) by (cbn; auto).
    cbn [orb]. rewrite IH. reflexivity.
Qed.

Scheme spelling_ind' := Minimality for spelling Sort Prop
with items_ind' := Minimality for items Sort Prop
with entries_ind' := Minimality for entries Sort Prop.
Combined Scheme spelling_mutual from spelling_ind', items_ind', entries_ind'.

Definition reads_value (v : py_value) (b : bytes) : Prop :=
  (exists c r, b = c :: r /\ value_head c)
  /\ forall fuel rest, length b <= fuel -> no_digit rest -> parse_value fuel (b ++ rest) = Some (v, rest).

Definition reads_items (comma : bool) (l : list py_value) (b : bytes) : Prop :=
  forall closing fuel rest, is_closing closing -> length b < fuel ->
    parse_items fuel closing (b ++ closing :: rest) = Some (l, comma, rest).

Definition reads_entries (l : list (py_value * py_value)) (b : bytes) : Prop :=
  forall fuel rest, length b < fuel -> parse_entries fuel (b ++ "}"%char :: rest) = Some (l, rest).

Ltac plain_head := eexists; eexists; split; [reflexivity|repeat split; [discriminate| |]; discriminate].

Lemma parse_spelling :
  (forall v b, spelling v b -> reads_value v b)
  /\ (forall comma l b, items comma l b -> reads_items comma l b)
  /\ (forall l b, entries l b -> reads_entries l b).
Proof.
  apply spelling_mutual.
  - intros q s Hq Hs. split; [destruct Hq as [->| ->]; plain_head|]. intros fuel rest Hf Hr.
    destruct fuel as [|fuel]; [cbn in Hf; lia|]. cbn [app]. rewrite <- app_assoc. cbn [app].
    pose proof (parse_string_plain q s rest Hs) as Hp. unfold bytes_of in Hp.
    assert (Hsp : is_space q = false) by (destruct Hq as [->| ->]; reflexivity).
    assert (Hqq : (Ascii.eqb q quote || Ascii.eqb q """"%char)%bool = true) by (destruct Hq as [->| ->]; reflexivity).
    cbn [parse_value]. rewrite skip_head by exact Hsp. rewrite Hqq, Hp. unfold text_of.
    rewrite string_of_list_ascii_of_string. reflexivity.
  - intros b z Hd. destruct (decimal_head b z Hd) as (c & r & E & Hc). split.
    + exists c, r. split; [assumption|]. apply number_head_value. assumption.
    + intros fuel rest Hf Hr. pose proof (parse_integer_decimal b z rest Hd Hr) as Hp. rewrite E in *.
      destruct fuel as [|fuel]; [cbn in Hf; lia|]. cbn [app parse_value] in *.
      rewrite skip_head by (apply number_head_value; assumption).
      destruct (number_branch c (r ++ rest) Hc) as (-> & -> & -> & -> & -> & -> & ->). rewrite Hp. reflexivity.
  - split; [plain_head|]. intros [|fuel] rest Hf Hr; [cbn in Hf; lia|]. reflexivity.
  - split; [plain_head|]. intros [|fuel] rest Hf Hr; [cbn in Hf; lia|]. reflexivity.
  - split; [plain_head|]. intros [|fuel] rest Hf Hr; [cbn in Hf; lia|]. reflexivity.
  - intros comma l b _ IH Hl. split; [plain_head|]. intros [|fuel] rest Hf Hr; [cbn in Hf; lia|].
    cbn [length] in Hf. rewrite app_length in Hf. cbn [length] in Hf.
    cbn [app parse_value]. rewrite <- app_assoc. cbn [app]. rewrite skip_head by reflexivity.
    simpl (Ascii.eqb _ _). cbn iota. cbn [orb]. rewrite (IH ")"%char fuel rest) by (try (left; reflexivity); lia).
    destruct l as [|x [|y l]]; try reflexivity. rewrite Hl by reflexivity. reflexivity.
  - intros comma l b _ IH. split; [plain_head|]. intros [|fuel] rest Hf Hr; [cbn in Hf; lia|].
    cbn [length] in Hf. rewrite app_length in Hf. cbn [length] in Hf.
    cbn [app parse_value]. rewrite <- app_assoc. cbn [app]. rewrite skip_head by reflexivity.
    simpl (Ascii.eqb _ _). cbn iota. cbn [orb]. rewrite (IH "]"%char fuel rest) by (try (right; reflexivity); lia).
    reflexivity.
  - intros l b _ IH. split; [plain_head|]. intros [|fuel] rest Hf Hr; [cbn in Hf; lia|].
    cbn [length] in Hf. rewrite app_length in Hf. cbn [length] in Hf.
    cbn [app parse_value]. rewrite <- app_assoc. cbn [app]. rewrite skip_head by reflexivity.
    simpl (Ascii.eqb _ _). cbn iota. cbn [orb]. rewrite IH by lia. reflexivity.
  - intros s Hs closing fuel rest Hc Hf. rewrite parse_items_blank by assumption. apply parse_items_nil; [assumption|lia].
  - intros s1 v b s2 H1 _ [(c & r & E & Hh) IH] H2 closing fuel rest Hc Hf. rewrite !app_length in Hf.
    destruct (closing_facts closing Hc) as (C1 & C2 & C3 & C4).
    rewrite <- !app_assoc, parse_items_blank by assumption. destruct fuel as [|fuel]; [lia|].
    assert (Hr : no_digit (s2 ++ closing :: rest)) by (apply no_digit_blank; assumption).
    pose proof (IH fuel _ ltac:(lia) Hr) as Hp. rewrite E in Hp |- *. cbn [app] in Hp |- *. cbn [parse_items].
    rewrite skip_head by apply Hh. rewrite (C4 c Hh), Hp, skip_blank by assumption. rewrite skip_head by assumption.
    rewrite (proj2 (Ascii.eqb_neq closing ","%char) C3), Ascii.eqb_refl. reflexivity.
  - intros s1 v b s2 comma l x H1 _ [(c & r & E & Hh) IH] H2 _ IHl closing fuel rest Hc Hf.
    rewrite !app_length in Hf. cbn [length] in Hf.
    destruct (closing_facts closing Hc) as (C1 & C2 & C3 & C4).
    rewrite <- !app_assoc. cbn [app]. rewrite parse_items_blank by assumption. destruct fuel as [|fuel]; [lia|].
    assert (Hr : no_digit (s2 ++ ","%char :: x ++ closing :: rest)) by (apply no_digit_blank; [assumption|reflexivity]).
    pose proof (IH fuel _ ltac:(lia) Hr) as Hp.
    assert (Hb : 1 <= length b) by (rewrite E; cbn [length]; lia).
    rewrite E in Hp |- *. cbn [app] in Hp |- *. cbn [parse_items].
    rewrite skip_head by apply Hh. rewrite (C4 c Hh), Hp, skip_blank by assumption. rewrite skip_head by reflexivity.
    rewrite Ascii.eqb_refl. rewrite IHl; [reflexivity|assumption|lia].
  - intros s Hs fuel rest Hf. rewrite parse_entries_blank by assumption. destruct fuel as [|fuel]; [lia|]. reflexivity.
  - intros s1 k b s2 s3 v d s4 H1 _ [(c & r & E & Hh) IHk] H2 H3 _ [_ IHv] H4 fuel rest Hf.
    rewrite !app_length in Hf. cbn [length] in Hf. rewrite !app_length in Hf.
    rewrite <- !app_assoc. cbn [app]. rewrite <- !app_assoc. rewrite parse_entries_blank by assumption.
    destruct fuel as [|fuel]; [lia|].
    assert (Hr : no_digit (s2 ++ ":"%char :: s3 ++ d ++ s4 ++ "}"%char :: rest)) by (apply no_digit_blank; [assumption|reflexivity]).
    assert (Hr' : no_digit (s4 ++ "}"%char :: rest)) by (apply no_digit_blank; [assumption|reflexivity]).
    pose proof (IHk fuel _ ltac:(lia) Hr) as Hp. pose proof (IHv fuel _ ltac:(lia) Hr') as Hq.
    rewrite E in Hp |- *. cbn [app] in Hp |- *. cbn [parse_entries].
    rewrite skip_head by apply Hh. rewrite (brace_head c Hh), Hp, skip_blank by assumption. rewrite skip_head by reflexivity.
    rewrite Ascii.eqb_refl. cbn [negb]. rewrite parse_value_blank by assumption. rewrite Hq.
    rewrite skip_blank by assumption. reflexivity.
  - intros s1 k b s2 s3 v d s4 l x H1 _ [(c & r & E & Hh) IHk] H2 H3 _ [_ IHv] H4 _ IHl fuel rest Hf.
    rewrite !app_length in Hf. cbn [length] in Hf. rewrite !app_length in Hf. cbn [length] in Hf.
    rewrite <- !app_assoc. cbn [app]. rewrite <- !app_assoc. rewrite parse_entries_blank by assumption. cbn [app].
    destruct fuel as [|fuel]; [lia|].
    assert (Hr : no_digit (s2 ++ ":"%char :: s3 ++ d ++ s4 ++ ","%char :: x ++ "}"%char :: rest)) by (apply no_digit_blank; [assumption|reflexivity]).
    assert (Hr' : no_digit (s4 ++ ","%char :: x ++ "}"%char :: rest)) by (apply no_digit_blank; [assumption|reflexivity]).
    pose proof (IHk fuel _ ltac:(lia) Hr) as Hp. pose proof (IHv fuel _ ltac:(lia) Hr') as Hq.
    rewrite E in Hp |- *. cbn [app] in Hp |- *. cbn [parse_entries].
    rewrite skip_head by apply Hh. rewrite (brace_head c Hh), Hp, skip_blank by assumption. rewrite skip_head by reflexivity.
    rewrite Ascii.eqb_refl. cbn [negb]. rewrite parse_value_blank by assumption. rewrite Hq.
    rewrite skip_blank by assumption. rewrite skip_head by reflexivity. rewrite Ascii.eqb_refl.
    rewrite IHl by lia. reflexivity.
Qed.

Lemma parse_literal_spelling v b s : spelling v b -> blank s -> parse_literal (b ++ s) = Some v.
Proof.
  intros H Hs. destruct (proj1 parse_spelling v b H) as [_ Hp]. unfold parse_literal.
  rewrite Hp.
  - pose proof (skip_blank s [] Hs) as E. rewrite app_nil_r in E. rewrite E. reflexivity.
  - rewrite app_length. lia.
  - pose proof (no_digit_blank s [] Hs I) as E. rewrite app_nil_r in E. exact E.
Qed.

(** * Headers *)

Lemma blank_ascii s : blank s -> forallb is_ascii_byte s = true.
Proof.
  intros H. apply forallb_forall. intros c Hc. unfold blank in H. rewrite Forall_forall in H. specialize (H c Hc).
  apply is_ascii_byte_spec. cbn [In] in H. destruct H as [<-|[<-|[<-|[<-|[<-|[]]]]]]; lia.
Qed.

Lemma spelling_ascii :
  (forall v b, spelling v b -> forallb is_ascii_byte b = true)
  /\ (forall comma l b, items comma l b -> forallb is_ascii_byte b = true)
  /\ (forall l b, entries l b -> forallb is_ascii_byte b = true).
Proof.
  apply spelling_mutual; intros; cbn [forallb]; rewrite ?forallb_app; cbn [forallb]; rewrite ?forallb_app; cbn [forallb];
    repeat match goal with
    | H : blank _ |- _ => apply blank_ascii in H
    end;
    repeat match goal with
    | H : forallb is_ascii_byte _ = true |- _ => rewrite H; clear H
    end; try reflexivity.
  - assert (Hq : is_ascii_byte q = true) by (destruct H as [->| ->]; reflexivity). rewrite Hq. cbn [andb].
    rewrite andb_true_r. apply forallb_forall. intros c Hc. apply is_ascii_byte_spec. unfold plain in H0.
    rewrite Forall_forall in H0. apply (H0 c Hc).
  - apply forallb_forall. intros c Hc. apply is_ascii_byte_spec. destruct H as (_ & H & _).
    rewrite Forall_forall in H. specialize (H c Hc). cbn beta in H. lia.
Qed.

Lemma ascii_is_utf8 b : forallb is_ascii_byte b = true -> forall fuel, is_utf8 fuel b = true.
Proof.
  induction b as [|c b IH]; intros H [|fuel]; try reflexivity. cbn [forallb] in H. apply andb_true_iff in H as [Hc H].
  cbn [is_utf8]. assert (Hb : between 0 127 c = true).
  { unfold between. unfold is_ascii_byte in Hc. apply Z.ltb_lt in Hc. pose proof (byte_value_range c).
    apply andb_true_iff. rewrite !Z.leb_le. lia. }
  rewrite Hb. apply IH. assumption.
Qed.

Lemma permutation_three {A} (l : list A) a b c : Permutation l [a; b; c] ->
  l = [a; b; c] \/ l = [a; c; b] \/ l = [b; a; c] \/ l = [c; a; b] \/ l = [b; c; a] \/ l = [c; b; a].
Proof.
  intros H. destruct (Permutation_vs_cons_inv H) as (l1 & l2 & ->).
  apply Permutation_sym in H. apply Permutation_cons_app_inv in H. apply Permutation_length_2_inv in H.
  destruct l1 as [|x [|y [|z l1]]]; cbn [app] in *.
  - destruct H as [->| ->]; auto.
  - destruct H as [E|E]; inversion E; subst; auto 10.
  - destruct H as [E|E]; inversion E; subst; auto 10.
  - destruct H as [E|E]; discriminate E.
Qed.

Lemma header_any_order descr order shape l : usize_shape shape ->
  Permutation l [(PyString "descr", descr); (PyString "fortran_order", PyBoolean order);
                 (PyString "shape", PyTuple (map PyInteger shape))] ->
  header_of_py_value (PyDict l) = Ok (mk_header descr order shape).
Proof.
  intros Hs H. pose proof (shape_of_values_integers shape Hs) as E.
  assert (Ep : parse_shape (PyTuple (map PyInteger shape)) = Some shape) by exact E. clear E.
  unfold header_of_py_value.
  destruct (permutation_three _ _ _ _ H) as [->|[->|[->|[->|[->| ->]]]]]; cbn -[parse_shape]; rewrite Ep; reflexivity.
Qed.

Lemma little_endian_value b z : little_endian b z -> low_value b = z.
Proof.
  induction 1 as [|c b z _ IH]; [reflexivity|]. cbn [low_value]. rewrite IH. unfold byte_value, nat_of_ascii.
  rewrite N_nat_Z. reflexivity.
Qed.

Lemma npy_format_header h content f : usize_shape (h_shape h) -> npy_format h content f ->
  header_from_reader f = Ok (h, content).
Proof.
  destruct h as [descr order shape]. cbn [h_shape]. intros Hs (major & field & l & text & padding & -> & Hv & Hl & Hp & Ht & Hb).
  assert (Hvb : exists v, [ascii_of_nat major; ascii_of_nat 0] = version_bytes v /\ length field = header_len_num_bytes v).
  { destruct Hv as [[-> E]|[[->| ->] E]]; [exists V1_0|exists V2_0|exists V3_0]; split; try exact E; reflexivity. }
  destruct Hvb as (v & Ev & El). rewrite Ev.
  change (ascii_of_nat 147 :: list_ascii_of_string "NUMPY" ++ ?x) with (magic_string ++ x).
  change [ascii_of_nat 10] with [newline]. change (ascii_of_nat 10) with newline in Hl.
  unfold header_from_reader.
  rewrite read_exact_app by reflexivity. cbn [bind]. rewrite list_eqb_refl_ascii. cbn [negb].
  rewrite read_exact_app by (destruct v; reflexivity). cbn [bind]. rewrite version_round_trip. cbn [bind].
  unfold read_header_len. rewrite read_exact_app by (rewrite El; reflexivity). cbn [bind decode].
  rewrite (little_endian_value _ _ Hl). rewrite read_exact_app by reflexivity. cbn [bind].
  assert (Hph : parse_header v (text ++ padding ++ [newline]) = Ok (mk_header descr order shape)).
  { unfold parse_header. rewrite app_assoc, rev_app_distr. cbn [rev app]. rewrite Ascii.eqb_refl, rev_involutive.
    assert (Ha : forallb is_ascii_byte (text ++ padding) = true).
    { rewrite forallb_app, (proj1 spelling_ascii _ _ Ht), (blank_ascii _ Hb). reflexivity. }
    rewrite (parse_literal_spelling _ _ _ Ht Hb), (header_any_order descr order shape l Hs Hp).
    destruct v; rewrite ?Ha, ?(ascii_is_utf8 _ Ha); reflexivity. }
  rewrite Hph. reflexivity.
Qed.

Lemma npy_header descr shape content f : usize_shape shape -> npy_file descr shape content f ->
  header_from_reader f = Ok (mk_header descr false shape, content).
Proof. intros Hs Hf. apply npy_format_header; assumption. Qed.

(** * Content *)

Lemma stored_decode e n b z : stored e n b z -> decode e b = z.
Proof. intros [_ H]. destruct e; apply little_endian_value; exact H. Qed.

Lemma read_elements_stored {A} (dec : bytes -> A) n (numbers : list bytes) zs (l : list A) :
  n <> 0 -> Forall (fun b => length b = n) numbers -> length numbers = length l -> map dec numbers = l ->
  zs = Z.of_nat (length l) ->
  read_elements dec n zs (concat numbers) = Ok (l, []).
Proof.
  intros Hn Hw Hl Hd ->. unfold read_elements.
  assert (Hc : length (concat numbers) = length numbers * n).
  { clear - Hw. induction Hw as [|b numbers Hb _ IH]; [reflexivity|]. cbn [concat length]. rewrite app_length, IH, Hb. lia. }
  rewrite <- (app_nil_r (concat numbers)) at 1. rewrite read_exact_app by (rewrite Hc, Hl; lia). cbn [bind].
  rewrite chunks_exact_concat; [rewrite Hd; reflexivity|lia|assumption].
Qed.

Lemma data_file_reads d f : storable (nd_shape (a_nd d)) -> length (nd_data (a_nd d)) = elements (nd_shape (a_nd d)) ->
  data_file d f -> forall p, read_data p f = Ok (mk_nd (nd_shape (a_nd d)) (nd_data (a_nd d))).
Proof.
  intros Hs Hl (e & numbers & Hf & Hn) p.
  rewrite (read_data_header p e (nd_shape (a_nd d)) f (concat numbers) Hs).
  - rewrite (read_elements_stored (decode e) 8 numbers _ (nd_data (a_nd d))).
    + cbn [bind check_for_extra_bytes]. apply from_shape_vec_ok; assumption.
    + discriminate.
    + clear - Hn. induction Hn as [|b z l r [H _] _ IH]; constructor; assumption.
    + apply (Forall2_len _ _ _ Hn).
    + clear - Hn. induction Hn as [|b z l r H _ IH]; [reflexivity|]. cbn [map]. rewrite IH, (stored_decode _ _ _ _ H). reflexivity.
    + rewrite Hl. reflexivity.
  - apply npy_header; [apply storable_usize; assumption|]. exact Hf.
Qed.

Lemma to_signed_mod z : int32 z -> to_signed_32 (z mod 2 ^ 32) = z.
Proof.
  intros Hz. pose proof (decode_encode_i32 LittleEndian z Hz) as H. unfold decode_i32 in H. rewrite decode_encode in H.
  change (256 ^ Z.of_nat 4)%Z with (2 ^ 32)%Z in H. exact H.
Qed.

Lemma labels_file_reads l f : wf_labels l -> labels_names l <> [] -> labels_in_memory l -> labels_file l f ->
  forall p, exists l', read_labels p f = Ok l' /\ reread l l'.
Proof.
  intros Hw Hne Hm (e & numbers & Hf & Hn) p.
  pose proof (proj1 (wf_labels_is_labels l) Hw) as Hl. destruct Hl as (_ & _ & _ & _ & Ev & _).
  rewrite <- Ev in Hn.
  rewrite (read_labels_header p e l f (concat numbers) Hw Hne Hm).
  - rewrite (read_elements_stored (decode_i32 e) 4 numbers _ (l_values l)).
    + cbn [bind check_for_extra_bytes]. apply labels_rebuilt; assumption.
    + discriminate.
    + clear - Hn. revert Hn. generalize (map (fun z => (z mod 2 ^ 32)%Z) (l_values l)). intros zs Hn.
      induction Hn as [|b z r s [H _] _ IH]; constructor; assumption.
    + rewrite (Forall2_len _ _ _ Hn). apply map_length.
    + destruct Hm as [Hi _]. clear - Hn Hi. revert numbers Hn. induction (l_values l) as [|z r IH]; intros numbers Hn.
      * inversion Hn; subst. reflexivity.
      * inversion Hn as [|b ? bs ? H Hr]; subst. inversion Hi; subst. cbn [map]. rewrite (IH H3 bs Hr).
        unfold decode_i32. rewrite (stored_decode _ _ _ _ H), to_signed_mod by assumption. reflexivity.
    + reflexivity.
  - apply npy_header; [apply labels_shape; assumption|]. exact Hf.
Qed.

(** * What is written *)

Inductive simple : py_value -> Prop :=
| simple_string s : plain quote s -> simple (PyString s)
| simple_integer z : (0 <= z)%Z -> simple (PyInteger z)
| simple_tuple l : Forall simple l -> simple (PyTuple l)
| simple_list l : Forall simple l -> simple (PyList l)
| simple_dict l : Forall (fun kv => simple (fst kv) /\ simple (snd kv)) l -> simple (PyDict l)
| simple_boolean b : simple (PyBoolean b)
| simple_none : simple PyNone.

Lemma blank_nil : blank []. Proof. constructor. Qed.
Lemma blank_app s r : blank s -> blank r -> blank (s ++ r). Proof. intros H1 H2. apply Forall_app. split; assumption. Qed.
Lemma blank_space : blank [space]. Proof. apply Forall_cons; [|constructor]. do 4 right. left. reflexivity. Qed.

Lemma items_blank s comma l b : blank s -> items comma l b -> items comma l (s ++ b).
Proof.
  intros Hs H. inversion H; subst.
  - constructor. apply blank_app; assumption.
  - rewrite app_assoc. constructor; try assumption. apply blank_app; assumption.
  - rewrite app_assoc. constructor; try assumption. apply blank_app; assumption.
Qed.

Lemma entries_blank s l b : blank s -> entries l b -> entries l (s ++ b).
Proof.
  intros Hs H. inversion H; subst.
  - constructor. apply blank_app; assumption.
  - rewrite app_assoc. constructor; try assumption. apply blank_app; assumption.
  - rewrite app_assoc. constructor; try assumption. apply blank_app; assumption.
Qed.

Lemma escape_plain s : plain quote s -> flat_map escape (bytes_of s) = list_ascii_of_string s.
Proof.
  unfold plain, bytes_of. induction 1 as [|c b (_ & Hq & Hc) _ IH]; [reflexivity|]. cbn [flat_map]. rewrite IH.
  assert (N : forall x, In (nat_of_ascii x) [10; 13; 92] -> Ascii.eqb c x = false).
  { intros x Hx. apply Ascii.eqb_neq. intros ->. contradiction. }
  unfold escape. rewrite (N backslash), (N newline), (N carriage_return) by (cbn; auto).
  rewrite (proj2 (Ascii.eqb_neq c quote) Hq). reflexivity.
Qed.

Lemma items_separated l : Forall (fun v => spelling v (write_ascii v)) l -> l <> [] ->
  items false l (separated (map write_ascii l)).
Proof.
  induction 1 as [|v l Hv Hl IH]; intros Hn; [contradiction|]. destruct l as [|w l].
  - cbn [map separated]. rewrite <- (app_nil_r (write_ascii v)).
    apply (items_last [] v (write_ascii v) []); [apply blank_nil|assumption|apply blank_nil].
  - change (map write_ascii (v :: w :: l)) with (write_ascii v :: map write_ascii (w :: l)).
    change (separated (write_ascii v :: map write_ascii (w :: l)))
      with (write_ascii v ++ ","%char :: ([space] ++ separated (map write_ascii (w :: l)))).
    apply (items_more [] v (write_ascii v) []); [apply blank_nil|assumption|apply blank_nil|].
    apply items_blank; [apply blank_space|]. apply IH. discriminate.
Qed.

Lemma entries_separated l : Forall (fun kv => spelling (fst kv) (write_ascii (fst kv)) /\ spelling (snd kv) (write_ascii (snd kv))) l ->
  l <> [] -> entries l (separated (map write_entry l)).
Proof.
  induction 1 as [|[k v] l [Hk Hv] Hl IH]; intros Hn; [contradiction|]. cbn [fst snd] in *. destruct l as [|w l].
  - cbn [map separated]. unfold write_entry. cbn [fst snd]. rewrite <- (app_nil_r (write_ascii v)).
    apply (entries_last [] k (write_ascii k) [] [space] v (write_ascii v) []); try assumption; try apply blank_nil. apply blank_space.
  - change (map write_entry ((k, v) :: w :: l)) with (write_entry (k, v) :: map write_entry (w :: l)).
    change (separated (write_entry (k, v) :: map write_entry (w :: l)))
      with ((write_ascii k ++ ":"%char :: [space] ++ write_ascii v) ++ ","%char :: ([space] ++ separated (map write_entry (w :: l)))).
    rewrite <- ?app_assoc. cbn [app]. rewrite <- ?app_assoc. cbn [app].
    apply (entries_more [] k (write_ascii k) [] [space] v (write_ascii v) []); try assumption; try apply blank_nil; [apply blank_space|].
    change (space :: separated (map write_entry (w :: l))) with ([space] ++ separated (map write_entry (w :: l))).
    apply entries_blank; [apply blank_space|]. apply IH. discriminate.
Qed.

Lemma spelling_write v : simple v -> spelling v (write_ascii v).
Proof.
  induction v as [s|z|l IH|l IH|l IH|b|] using py_value_induction; intros H.
  - inversion H; subst. cbn [write_ascii app]. rewrite escape_plain by assumption. apply sp_string; [left; reflexivity|assumption].
  - inversion H; subst. apply sp_integer, decimal_string_of_Z. assumption.
  - inversion H as [| |? Hs| | | |]; subst.
    assert (Hall : Forall (fun v => spelling v (write_ascii v)) l).
    { rewrite Forall_forall in *. intros x Hx. apply IH; auto. }
    destruct l as [|x [|y l]].
    + apply (sp_tuple true [] []); [apply items_none, blank_nil|reflexivity].
    + change (write_ascii (PyTuple [x])) with ("("%char :: (write_ascii x ++ [","%char; ")"%char])).
      change [","%char; ")"%char] with ([","%char] ++ [")"%char]). rewrite app_assoc.
      apply (sp_tuple true); [|reflexivity]. inversion Hall; subst.
      apply (items_more [] x (write_ascii x) [] true [] []); try assumption; try apply blank_nil. apply items_none, blank_nil.
    + change (write_ascii (PyTuple (x :: y :: l))) with ("("%char :: (separated (map write_ascii (x :: y :: l)) ++ [")"%char])).
      apply (sp_tuple false); [|intros E; discriminate E]. apply items_separated; [assumption|discriminate].
  - inversion H as [| | |? Hs| | |]; subst.
    assert (Hall : Forall (fun v => spelling v (write_ascii v)) l).
    { rewrite Forall_forall in *. intros x Hx. apply IH; auto. }
    destruct l as [|x l].
    + apply (sp_list true [] []). apply items_none, blank_nil.
    + change (write_ascii (PyList (x :: l))) with ("["%char :: (separated (map write_ascii (x :: l)) ++ ["]"%char])).
      apply (sp_list false). apply items_separated; [assumption|discriminate].
  - inversion H as [| | | |? Hs| |]; subst.
    assert (Hall : Forall (fun kv => spelling (fst kv) (write_ascii (fst kv)) /\ spelling (snd kv) (write_ascii (snd kv))) l).
    { rewrite Forall_forall in *. intros x Hx. destruct (IH x Hx), (Hs x Hx). auto. }
    rewrite write_dict. change (bytes_of "{" ++ ?y) with ("{"%char :: y). change (bytes_of "}") with ["}"%char].
    destruct l as [|x l]; apply sp_dict; [apply entries_none, blank_nil|]. apply entries_separated; [assumption|discriminate].
  - destruct b; [apply sp_true|apply sp_false].
  - apply sp_none.
Qed.

Lemma spaces_blank k : blank (repeat space k).
Proof. induction k; [apply blank_nil|]. cbn [repeat]. apply (blank_app [space]); [apply blank_space|assumption]. Qed.

Lemma simple_plain_ascii s : forallb (fun c => is_ascii_byte c && negb (existsb (Ascii.eqb c) [quote; newline; carriage_return; backslash])) (bytes_of s) = true ->
  simple (PyString s).
Proof.
  intros H. constructor. apply Forall_forall. intros c Hc. apply (proj1 (forallb_forall _ _) H) in Hc.
  apply andb_true_iff in Hc as [Ha Hn]. split; [apply is_ascii_byte_spec; assumption|].
  apply negb_true_iff in Hn. cbn [existsb] in Hn. rewrite !orb_false_iff in Hn. destruct Hn as (N1 & N2 & N3 & N4 & _).
  apply Ascii.eqb_neq in N1, N2, N3, N4. split; [assumption|]. intros Hin. cbn [In] in Hin.
  rewrite <- (ascii_nat_embedding c) in N2, N3, N4. destruct Hin as [E|[E|[E|[]]]]; rewrite <- E in *.
  - apply N2. reflexivity.
  - apply N3. reflexivity.
  - apply N4. reflexivity.
Qed.

Lemma simple_header h : simple (h_descriptor h) -> Forall (fun z => (0 <= z)%Z) (h_shape h) -> simple (header_to_py_value h).
Proof.
  intros Hd Hs. constructor. repeat apply Forall_cons; cbn [fst snd]; try (split; [apply simple_plain_ascii; reflexivity|]);
    try assumption; try constructor. apply Forall_map. eapply Forall_impl; [|exact Hs]. intros z Hz. constructor. exact Hz.
Qed.

Lemma header_npy_format h f content :
  simple (h_descriptor h) -> Forall (fun z => (0 <= z)%Z) (h_shape h) ->
  header_to_bytes h = Ok f -> npy_format h content (f ++ content).
Proof.
  intros Hd Hs Hh. destruct (header_layout h f Hh) as (major & field & text & padding & -> & -> & _ & Hl & _ & Hv).
  exists major, field, [(PyString "descr", h_descriptor h); (PyString "fortran_order", PyBoolean (h_fortran_order h));
                      (PyString "shape", PyTuple (map PyInteger (h_shape h)))], (write_ascii (header_to_py_value h)), (repeat space padding).
  split; [cbn [app]; rewrite <- !app_assoc; cbn [app]; rewrite <- !app_assoc; reflexivity|]. split; [|split; [exact Hl|split; [apply Permutation_refl|split; [|apply spaces_blank]]]].
  - destruct Hv as [(-> & E & _)|(-> & E & _)]; auto.
  - apply (spelling_write (header_to_py_value h)), simple_header; assumption.
Qed.

Lemma header_npy h f content :
  simple (h_descriptor h) -> Forall (fun z => (0 <= z)%Z) (h_shape h) -> h_fortran_order h = false ->
  header_to_bytes h = Ok f -> npy_file (h_descriptor h) (h_shape h) content (f ++ content).
Proof.
  intros Hd Hs Hf Hh. unfold npy_file. rewrite <- Hf. destruct h. apply header_npy_format; assumption.
Qed.

Lemma stored_encode e n z : (0 <= z < 256 ^ Z.of_nat n)%Z -> stored e n (encode e n z) z.
Proof.
  intros Hz. split; [apply encode_length|]. destruct e; cbn [encode]; [|rewrite rev_involutive]; apply little_endian_low; assumption.
Qed.

Lemma low_bytes_mod n : forall z, low_bytes n z = low_bytes n (z mod 256 ^ Z.of_nat n).
Proof.
  induction n as [|n IH]; intros z; [reflexivity|]. cbn [low_bytes]. rewrite Nat2Z.inj_succ, Z.pow_succ_r by lia.
  assert (Hp : (0 < 256 ^ Z.of_nat n)%Z) by (apply Z.pow_pos_nonneg; lia).
  rewrite Z.rem_mul_r by lia.
  f_equal.
  - unfold byte_of. rewrite (Z.mul_comm 256), Z.mod_add by lia. rewrite Z.mod_mod by lia. reflexivity.
  - rewrite (Z.mul_comm 256), Z.div_add by lia. rewrite (Z.div_small (z mod 256) 256) by (apply Z.mod_pos_bound; lia).
    rewrite Z.add_0_l. rewrite <- IH. reflexivity.
Qed.

Lemma written_data_file e d f : Forall bits64 (nd_data (a_nd d)) -> write_data e d = Ok f -> data_file d f.
Proof.
  intros Hb Hw. apply write_data_ok in Hw as (head & Hh & ->). exists e, (map (encode e 8) (nd_data (a_nd d))).
  rewrite <- flat_map_concat_map. split.
  - apply (header_npy (data_header e (nd_shape (a_nd d)))); try assumption; try reflexivity.
    + apply simple_plain_ascii. destruct e; reflexivity.
    + cbn [data_header h_shape]. apply Forall_map. apply Forall_forall. intros n _. lia.
  - induction Hb as [|z l Hz _ IH]; constructor; [|exact IH]. apply stored_encode. exact Hz.
Qed.

Lemma simple_identifier s : identifier s -> simple (PyString s).
Proof.
  intros H. apply simple_plain_ascii. apply forallb_forall. intros c Hc. apply andb_true_iff. split.
  - apply (proj1 (forallb_forall _ _) (identifier_ascii s H) c Hc).
  - apply negb_true_iff. cbn [existsb]. rewrite !(identifier_not s c _ H Hc); [reflexivity|..]; vm_compute; lia.
Qed.

Lemma written_labels_file e l f : wf_labels l -> write_labels e l = Ok f -> labels_file l f.
Proof.
  intros Hw Hf. pose proof (wf_names_good l Hw) as [Hid _]. apply write_labels_ok in Hf as (Hne & head & Hh & ->); [|assumption].
  pose proof (proj1 (wf_labels_is_labels l) Hw) as Hl. destruct Hl as (_ & _ & _ & _ & Ev & _).
  exists e, (map (encode e 4) (l_values l)). rewrite <- flat_map_concat_map. split.
  - apply (header_npy (labels_header e l)); try assumption; try reflexivity.
    + cbn [labels_header h_descriptor]. constructor. apply Forall_map. eapply Forall_impl; [|exact Hid].
      intros name Hn. constructor. constructor; [apply simple_identifier; assumption|].
      constructor; [|constructor]. apply simple_plain_ascii. destruct e; reflexivity.
    + cbn [labels_header h_shape]. constructor; [lia|constructor].
  - rewrite <- Ev. clear Ev. induction (l_values l) as [|z r IH]; [constructor|]. cbn [map]. constructor; [|exact IH].
    assert (E : encode e 4 z = encode e 4 (z mod 2 ^ 32)).
    { destruct e; cbn [encode]; rewrite (low_bytes_mod 4 z) at 1; reflexivity. }
    rewrite E. apply stored_encode. apply Z.mod_pos_bound. reflexivity.
Qed.

(** * Archives *)

Definition holds (c : content) : bytes -> Prop :=
  match c with FileLabels l => labels_file l | FileData d => data_file d end.

Lemma components_parts_inv name components x : forall i,
  In x (components_parts name i components) -> exists j c, nth_error components j = Some c /\ x = (name (i + j), FileLabels c).
Proof.
  induction components as [|c rest IH]; intros i; [intros []|]. cbn [components_parts]. intros [<-|H].
  - exists 0, c. rewrite Nat.add_0_r. auto.
  - destruct (IH _ H) as (j & c' & Hj & ->). exists (S j), c'. split; [exact Hj|]. do 2 f_equal. lia.
Qed.

Lemma gradients_parts_inv i gradients x :
  In x (gradients_parts i gradients) -> exists q g, In (q, g) gradients /\ In x (gradient_parts i q g).
Proof.
  induction gradients as [|[q g] rest IH]; [intros []|]. cbn [gradients_parts]. rewrite in_app_iff. intros [H|H].
  - exists q, g. split; [left; reflexivity|assumption].
  - destruct (IH H) as (q' & g' & Hin & Hx). exists q', g'. split; [right; assumption|assumption].
Qed.

Lemma blocks_parts_inv blocks x : forall k,
  In x (blocks_parts k blocks) -> exists i b, nth_error blocks i = Some b /\ In x (block_parts (k + i) b).
Proof.
  induction blocks as [|b rest IH]; intros k; [intros []|]. cbn [blocks_parts]. rewrite in_app_iff. intros [H|H].
  - exists 0, b. rewrite Nat.add_0_r. auto.
  - destruct (IH _ H) as (i & b' & Hi & Hx). exists (S i), b'. split; [exact Hi|]. replace (k + S i) with (k + 1 + i) by lia. assumption.
Qed.

Lemma values_path i s : ("blocks/" +++ string_of_nat i +++ "/values") +++ s = "blocks/" +++ string_of_nat i +++ ("/values" +++ s).
Proof. rewrite !append_assoc. reflexivity. Qed.

Lemma gradients_path i q s : ("blocks/" +++ string_of_nat i +++ "/gradients/" +++ q) +++ s
  = "blocks/" +++ string_of_nat i +++ "/gradients/" +++ q +++ s.
Proof. rewrite !append_assoc. reflexivity. Qed.

Lemma parts_documented t q c : In (q, c) (parts_of t) -> documented t (path_of q) (holds c).
Proof.
  unfold parts_of. intros [E|H]; [inversion E; subst; apply doc_keys|].
  apply blocks_parts_inv in H as (i & b & Hi & H). cbn [Nat.add] in H.
  assert (Ni : number i (string_of_nat i)) by (apply number_string_of_nat; reflexivity).
  unfold block_parts in H. apply in_app_iff in H as [H|H].
  - unfold values_parts in H. destruct H as [E|[E|H]].
    + inversion E; subst. cbn [path_of values_name holds]. unfold values_directory. rewrite values_path.
      exact (doc_data t i _ b Hi Ni).
    + inversion E; subst. cbn [path_of values_name holds]. unfold values_directory. rewrite values_path.
      exact (doc_samples t i _ b Hi Ni).
    + apply in_app_iff in H as [H|[E|[]]].
      * apply components_parts_inv in H as (j & c' & Hj & E). inversion E; subst. cbn [path_of values_name holds Nat.add].
        unfold values_directory. rewrite values_path.
        exact (doc_component t i _ b j _ c' Hi Ni Hj (proj2 (number_string_of_nat j _) eq_refl)).
      * inversion E; subst. cbn [path_of values_name holds]. unfold values_directory. rewrite values_path.
        exact (doc_properties t i _ b Hi Ni).
  - apply gradients_parts_inv in H as (r & g & Hg & H). unfold gradient_parts in H. destruct H as [E|[E|H]].
    + inversion E; subst. cbn [path_of gradient_name holds]. unfold gradient_directory. rewrite gradients_path.
      exact (doc_gradient_data t i _ b r g Hi Ni Hg).
    + inversion E; subst. cbn [path_of gradient_name holds]. unfold gradient_directory. rewrite gradients_path.
      exact (doc_gradient_samples t i _ b r g Hi Ni Hg).
    + apply components_parts_inv in H as (j & c' & Hj & E). inversion E; subst. cbn [path_of gradient_name holds Nat.add].
      unfold gradient_directory. rewrite gradients_path.
      exact (doc_gradient_component t i _ b r g j _ c' Hi Ni Hg Hj (proj2 (number_string_of_nat j _) eq_refl)).
Qed.

Lemma documented_parts t path P : documented t path P ->
  exists q c, In (q, c) (parts_of t) /\ path = path_of q /\ P = holds c.
Proof.
  assert (Hin : forall i b x, nth_error (tm_blocks t) i = Some b -> In x (block_parts i b) -> In x (parts_of t)).
  { intros i b x Hi Hx. right. apply (In_blocks_parts (tm_blocks t) i b x 0 Hi). exact Hx. }
  assert (Hv : forall i b x, nth_error (tm_blocks t) i = Some b -> In x (values_parts i (tb_values b)) -> In x (parts_of t)).
  { intros i b x Hi Hx. apply (Hin i b x Hi). apply in_or_app. left. exact Hx. }
  assert (Hg : forall i b q g x, nth_error (tm_blocks t) i = Some b -> In (q, g) (tb_gradients b) ->
                In x (gradient_parts i q g) -> In x (parts_of t)).
  { intros i b q g x Hi Hq Hx. apply (Hin i b x Hi). apply in_or_app. right. eapply In_gradients_parts; eassumption. }
  intros H.
  destruct H as [|i n b Hi Hn|i n b j m c Hi Hn Hj Hm|i n b Hi Hn|i n b Hi Hn|i n b q g Hi Hn Hq|i n b q g j m c Hi Hn Hq Hj Hm|i n b q g Hi Hn Hq];
    try (apply number_string_of_nat in Hn; subst n); try (apply number_string_of_nat in Hm; subst m).
  - exists KeysPart, (FileLabels (tm_keys t)). split; [left; reflexivity|]. split; reflexivity.
  - exists (ValuesPart i ValuesSamples), (FileLabels (bb_samples (tb_values b))).
    split; [apply (Hv i b _ Hi); right; left; reflexivity|]. split; [|reflexivity].
    cbn [path_of values_name]. unfold values_directory. rewrite values_path. reflexivity.
  - exists (ValuesPart i (ValuesComponent j)), (FileLabels c). split; [|split; [|reflexivity]].
    + apply (Hv i b _ Hi). right. right. apply in_or_app. left.
      apply (In_components_parts (fun j => ValuesPart i (ValuesComponent j)) _ j c 0 Hj).
    + cbn [path_of values_name]. unfold values_directory. rewrite values_path. reflexivity.
  - exists (ValuesPart i ValuesProperties), (FileLabels (bb_properties (tb_values b))). split; [|split; [|reflexivity]].
    + apply (Hv i b _ Hi). right. right. apply in_or_app. right. left. reflexivity.
    + cbn [path_of values_name]. unfold values_directory. rewrite values_path. reflexivity.
  - exists (ValuesPart i ValuesData), (FileData (bb_data (tb_values b))). split; [apply (Hv i b _ Hi); left; reflexivity|].
    split; [|reflexivity]. cbn [path_of values_name]. unfold values_directory. rewrite values_path. reflexivity.
  - exists (GradientPart i q GradientSamples), (FileLabels (bb_samples g)).
    split; [apply (Hg i b q g _ Hi Hq); right; left; reflexivity|]. split; [|reflexivity].
    cbn [path_of gradient_name]. unfold gradient_directory. rewrite gradients_path. reflexivity.
  - exists (GradientPart i q (GradientComponent j)), (FileLabels c). split; [|split; [|reflexivity]].
    + apply (Hg i b q g _ Hi Hq). right. right.
      apply (In_components_parts (fun j => GradientPart i q (GradientComponent j)) _ j c 0 Hj).
    + cbn [path_of gradient_name]. unfold gradient_directory. rewrite gradients_path. reflexivity.
  - exists (GradientPart i q GradientData), (FileData (bb_data g)).
    split; [apply (Hg i b q g _ Hi Hq); left; reflexivity|]. split; [|reflexivity].
    cbn [path_of gradient_name]. unfold gradient_directory. rewrite gradients_path. reflexivity.
Qed.

(** ** Saving *)

Lemma written_holds e c f : sound_content c -> write_content e c = Ok f -> holds c f.
Proof.
  destruct c as [l|d]; cbn [sound_content write_content holds].
  - intros [Hl _] Hw. apply (written_labels_file e); assumption.
  - intros (b & -> & Hb & _ & Hbits & _) Hw. apply (written_data_file e); assumption.
Qed.

Lemma save_conforming e t a : wf_tensor t -> tensor_in_memory t -> save e t = Ok a -> conforming t a.
Proof.
  intros Ht Hm Ha. split; [apply (save_paths_nodup e t a Ht Ha)|]. pose proof (save_ok e t a Ha) as Hf. split.
  - intros path f Hin. destruct (Forall2_In_r _ _ _ _ Hf Hin) as ([q c] & Hq & E & _). cbn [fst] in E. subst path.
    exists (holds c). apply parts_documented. assumption.
  - intros path P HP. apply documented_parts in HP as (q & c & Hq & -> & ->).
    destruct (Forall2_In_l _ _ _ _ Hf Hq) as ([k f] & Hin & E & Hw). cbn [fst snd] in *. subst k.
    exists f. split; [assumption|]. apply (written_holds e); [|assumption]. apply (parts_of_sound t q c Ht Hm Hq).
Qed.

(** ** Loading *)

Lemma conforming_by_name a path f : NoDup (map fst a) -> In (path, f) a -> by_name a path = Ok f.
Proof.
  intros Hnd Hin. unfold by_name. rewrite (In_hm_get _ String.eqb_eq (rev a) path f); [reflexivity| |].
  - rewrite map_rev. apply NoDup_rev. assumption.
  - apply in_rev. rewrite rev_involutive. assumption.
Qed.

(* the shape of an array matches its data, and labels have at least one name *)
Definition filled_content (c : content) : Prop :=
  match c with
  | FileLabels l => labels_names l <> []
  | FileData d => length (nd_data (a_nd d)) = elements (nd_shape (a_nd d))
  end.

Lemma holds_reads c f : sound_content c -> filled_content c -> holds c f -> reads c f.
Proof.
  destruct c as [l|d]; cbn [sound_content filled_content holds reads].
  - intros [Hl Hm] Hne Hf. apply labels_file_reads; assumption.
  - intros (b & -> & Hb & _ & _ & Hs) Hl Hf. split; [assumption|]. apply data_file_reads; assumption.
Qed.

(* where the content of the files comes from *)
Lemma parts_origin t q c : In (q, c) (parts_of t) ->
  match c with
  | FileLabels l => l = tm_keys t
      \/ exists b part, In b (tm_blocks t) /\ In part (parts_of_block b) /\ In l (basic_labels part)
  | FileData d => exists b part, In b (tm_blocks t) /\ In part (parts_of_block b) /\ d = bb_data part
  end.
Proof.
  unfold parts_of. intros [E|H]; [inversion E; subst; left; reflexivity|].
  apply blocks_parts_inv in H as (i & b & Hi & H). apply nth_error_In in Hi. cbn [Nat.add] in H.
  unfold block_parts in H. apply in_app_iff in H as [H|H].
  - assert (Hp : In (tb_values b) (parts_of_block b)) by (left; reflexivity).
    unfold values_parts in H. destruct H as [E|[E|H]].
    + inversion E; subst. exists b, (tb_values b). auto.
    + inversion E; subst. right. exists b, (tb_values b). split; [assumption|]. split; [assumption|]. left. reflexivity.
    + apply in_app_iff in H as [H|[E|[]]].
      * apply components_parts_inv in H as (j & c' & Hj & E). inversion E; subst. apply nth_error_In in Hj.
        right. exists b, (tb_values b).
        split; [assumption|]. split; [assumption|]. right. apply in_or_app. left. assumption.
      * inversion E; subst. right. exists b, (tb_values b). split; [assumption|]. split; [assumption|]. right. apply in_or_app. right. left. reflexivity.
  - apply gradients_parts_inv in H as (r & g & Hg & H).
    assert (Hp : In g (parts_of_block b)) by (right; apply in_map_iff; exists (r, g); auto).
    unfold gradient_parts in H. destruct H as [E|[E|H]].
    + inversion E; subst. exists b, g. auto.
    + inversion E; subst. right. exists b, g. split; [assumption|]. split; [assumption|]. left. reflexivity.
    + apply components_parts_inv in H as (j & c' & Hj & E). inversion E; subst. apply nth_error_In in Hj.
      right. exists b, g. split; [assumption|]. split; [assumption|]. right. apply in_or_app. left. assumption.
Qed.

Lemma wf_tensor_part t b part : wf_tensor t -> In b (tm_blocks t) -> In part (parts_of_block b) -> wf_basic part.
Proof.
  intros (_ & Hbs & _) Hb Hp. rewrite Forall_forall in Hbs. destruct (Hbs b Hb) as (Hv & Hg & _).
  destruct Hp as [<-|Hp]; [assumption|]. apply in_map_iff in Hp as ([q g] & <- & Hin).
  rewrite Forall_forall in Hg. apply (Hg _ Hin).
Qed.

Lemma parts_of_filled t q c : wf_tensor t -> has_elements t -> In (q, c) (parts_of t) -> filled_content c.
Proof.
  intros Ht Hr Hin. apply parts_origin in Hin. destruct c as [l|d]; cbn [filled_content].
  - destruct Hin as [->|(b & part & Hb & Hp & Hl)]; [apply (proj1 Ht)|].
    destruct (wf_tensor_part t b part Ht Hb Hp) as (_ & Hax & _). rewrite Forall_forall in Hax. apply (Hax l). exact Hl.
  - destruct Hin as (b & part & Hb & Hp & ->). destruct (wf_tensor_part t b part Ht Hb Hp) as (Hwa & _).
    apply (proj1 Hwa). exact (Hr b part Hb Hp).
Qed.

Lemma load_conforming p t a names :
  wf_tensor t -> tensor_in_memory t -> c_parameters t -> has_elements t ->
  conforming t a -> Permutation names (map fst a) ->
  exists t', load p names a = Ok t' /\ same_tensor t t' /\ wf_tensor t'.
Proof.
  intros Ht Hm Hc Hr (Hnd & H1 & H2) Hperm. apply load_found; auto.
  - intros q c Hin. destruct (H2 _ _ (parts_documented t q c Hin)) as (f & Hf & Hh). exists f.
    split; [apply conforming_by_name; assumption|].
    apply holds_reads; [|apply (parts_of_filled t q c Ht Hr Hin)|assumption]. apply (parts_of_sound t q c Ht Hm Hin).
  - eapply Permutation_trans; [exact Hperm|]. apply NoDup_Permutation; [assumption| |].
    + apply NoDup_map_inj; [exact path_of_inj|]. apply parts_of_nodup. assumption.
    + intros path. rewrite map_map. split; intros Hin.
      * apply in_map_iff in Hin as ([k f] & <- & Hin). destruct (H1 k f Hin) as (P & HP).
        apply documented_parts in HP as (q & c & Hq & E & _). apply in_map_iff. exists (q, c). auto.
      * apply in_map_iff in Hin as ([q c] & <- & Hq). destruct (H2 _ _ (parts_documented t q c Hq)) as (f & Hf & _).
        apply in_map_iff. exists (path_of q, f). auto.
Qed.

(* two archives which conform to the same tensor map are loaded alike *)
Lemma conforming_same p t a1 a2 names1 names2 :
  wf_tensor t -> tensor_in_memory t -> c_parameters t -> has_elements t ->
  conforming t a1 -> conforming t a2 -> Permutation names1 (map fst a1) -> Permutation names2 (map fst a2) ->
  exists t1 t2, load p names1 a1 = Ok t1 /\ load p names2 a2 = Ok t2 /\ same_tensor t t1 /\ same_tensor t t2.
Proof.
  intros Ht Hm Hc Hr Ha1 Ha2 H1 H2.
  destruct (load_conforming p t a1 names1) as (t1 & L1 & S1 & _); auto.
  destruct (load_conforming p t a2 names2) as (t2 & L2 & S2 & _); auto.
  exists t1, t2. auto.
Qed.
