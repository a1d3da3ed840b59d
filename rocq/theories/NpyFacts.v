(* Lemmas about Npy.v *)
From Coq Require Import DecimalString.
From Coq Require DecimalZ DecimalFacts.
From Verif Require Import Base BaseFacts LayoutFacts Labels Array Spec LabelsFacts Npy SpecIo.
Local Open Scope string_scope.
Local Open Scope list_scope.
Local Open Scope nat_scope.

(** * Bytes *)

Lemma byte_value_range c : (0 <= byte_value c < 256)%Z.
Proof. unfold byte_value. pose proof (N_ascii_bounded c). lia. Qed.

Lemma byte_value_of z : byte_value (byte_of z) = (z mod 256)%Z.
Proof.
  unfold byte_value, byte_of. pose proof (Z.mod_pos_bound z 256 eq_refl) as H.
  rewrite N_ascii_embedding; [apply Z2N.id; lia|]. apply N2Z.inj_lt. rewrite Z2N.id by lia. simpl. lia.
Qed.

Lemma low_bytes_length n : forall z, length (low_bytes n z) = n.
Proof. induction n as [|n IH]; intros z; simpl; [reflexivity|]. rewrite IH. reflexivity. Qed.

Lemma low_value_bytes n : forall z, low_value (low_bytes n z) = (z mod 256 ^ Z.of_nat n)%Z.
Proof.
  induction n as [|n IH]; intros z; [simpl; rewrite Z.mod_1_r; reflexivity|].
  cbn [low_bytes low_value]. rewrite IH, byte_value_of.
  rewrite Nat2Z.inj_succ, Z.pow_succ_r by lia.
  rewrite Z.rem_mul_r; [reflexivity|lia|]. apply Z.pow_pos_nonneg; lia.
Qed.

Lemma low_value_range b : (0 <= low_value b < 256 ^ Z.of_nat (length b))%Z.
Proof.
  induction b as [|c b IH]; [simpl; lia|]. cbn [low_value length]. rewrite Nat2Z.inj_succ, Z.pow_succ_r by lia.
  pose proof (byte_value_range c). lia.
Qed.

Lemma encode_length e n z : length (encode e n z) = n.
Proof. destruct e; simpl; [|rewrite rev_length]; apply low_bytes_length. Qed.

Lemma decode_encode e n z : decode e (encode e n z) = (z mod 256 ^ Z.of_nat n)%Z.
Proof. destruct e; simpl; [|rewrite rev_involutive]; apply low_value_bytes. Qed.

Lemma decode_encode_64 e z : (0 <= z < 2 ^ 64)%Z -> decode e (encode e 8 z) = z.
Proof. intros H. rewrite decode_encode. change (256 ^ Z.of_nat 8)%Z with (2 ^ 64)%Z. apply Z.mod_small. assumption. Qed.

Lemma decode_encode_i32 e z : (- 2 ^ 31 <= z < 2 ^ 31)%Z -> decode_i32 e (encode e 4 z) = z.
Proof.
  intros H. unfold decode_i32, to_signed_32. rewrite decode_encode. change (256 ^ Z.of_nat 4)%Z with 4294967296%Z.
  change (2 ^ 31)%Z with 2147483648%Z in *. change (2 ^ 32)%Z with 4294967296%Z.
  destruct (Z.ltb_spec z 0).
  - replace (z mod 4294967296)%Z with (z + 4294967296)%Z by (apply Z.mod_unique with (-1)%Z; lia).
    destruct (Z.ltb_spec (z + 4294967296) 2147483648); lia.
  - rewrite Z.mod_small by lia. destruct (Z.ltb_spec z 2147483648); lia.
Qed.

(** * Reading *)

Lemma read_exact_app n a b : n = Z.of_nat (length a) -> read_exact n (a ++ b) = Ok (a, b).
Proof.
  intros ->. unfold read_exact. rewrite app_length.
  replace (Z.of_nat (length a) <=? Z.of_nat (length a + length b))%Z with true by (symmetry; apply Z.leb_le; lia).
  rewrite Nat2Z.id, firstn_app_exact, skipn_app_exact by reflexivity. reflexivity.
Qed.

Lemma read_exact_short n b : (Z.of_nat (length b) < n)%Z -> read_exact n b = end_of_file.
Proof. intros H. unfold read_exact. destruct (Z.leb_spec n (Z.of_nat (length b))); [lia|reflexivity]. Qed.

Lemma read_exact_ok n r a b :
  (0 <= n)%Z -> read_exact n r = Ok (a, b) -> r = a ++ b /\ Z.of_nat (length a) = n.
Proof.
  intros Hn H. unfold read_exact, end_of_file in H. destruct (Z.leb_spec n (Z.of_nat (length r))); [|discriminate].
  inversion H; subst. split; [symmetry; apply firstn_skipn|]. rewrite firstn_length. lia.
Qed.

(* reading from a file which has been cut *)
Lemma read_exact_cut n a b k : n = Z.of_nat (length a) ->
  read_exact n (firstn k (a ++ b)) = if length a <=? k then Ok (a, firstn (k - length a) b) else end_of_file.
Proof.
  intros ->. destruct (Nat.leb_spec (length a) k) as [H|H].
  - rewrite firstn_app, (firstn_all2 a) by assumption. apply read_exact_app. reflexivity.
  - apply read_exact_short. rewrite firstn_length. lia.
Qed.

Lemma map_decode_encode {A} (enc : A -> bytes) (dec : bytes -> A) width l :
  width <> 0 -> (forall x, In x l -> length (enc x) = width /\ dec (enc x) = x) ->
  map dec (chunks_exact width (flat_map enc l)) = l.
Proof.
  intros Hw H. rewrite flat_map_concat_map, chunks_exact_concat; [|assumption|].
  - rewrite map_map. rewrite <- (map_id l) at 2. apply map_ext_in. intros x Hx. apply H. assumption.
  - apply Forall_forall. intros b Hb. apply in_map_iff in Hb as (x & <- & Hx). apply H. assumption.
Qed.

Lemma flat_map_length_const {A B} (f : A -> list B) w l :
  (forall x, In x l -> length (f x) = w) -> length (flat_map f l) = length l * w.
Proof.
  induction l as [|x l IH]; intros H; simpl; [reflexivity|]. rewrite app_length, IH by (intros; apply H; simpl; auto).
  rewrite H by (simpl; auto). reflexivity.
Qed.

Lemma read_elements_encoded {A} (enc : A -> bytes) (dec : bytes -> A) width l rest :
  width <> 0 -> (forall x, In x l -> length (enc x) = width /\ dec (enc x) = x) ->
  read_elements dec width (Z.of_nat (length l)) (flat_map enc l ++ rest) = Ok (l, rest).
Proof.
  intros Hw H. unfold read_elements. rewrite read_exact_app.
  - cbn [bind]. rewrite (map_decode_encode enc) by assumption. reflexivity.
  - rewrite (flat_map_length_const enc width) by (intros x Hx; apply H; assumption). lia.
Qed.

(** * Python literals *)

(* the induction principle which goes through the lists *)
Lemma py_value_induction (P : py_value -> Prop) :
  (forall s, P (PyString s)) -> (forall z, P (PyInteger z)) ->
  (forall l, Forall P l -> P (PyTuple l)) -> (forall l, Forall P l -> P (PyList l)) ->
  (forall l, Forall (fun kv => P (fst kv) /\ P (snd kv)) l -> P (PyDict l)) ->
  (forall b, P (PyBoolean b)) -> P PyNone -> forall v, P v.
Proof.
  intros H1 H2 H3 H4 H5 H6 H7. fix IH 1. intros [s|z|l|l|l|b|].
  - apply H1.
  - apply H2.
  - apply H3. induction l as [|x l IHl]; constructor; [apply IH|assumption].
  - apply H4. induction l as [|x l IHl]; constructor; [apply IH|assumption].
  - apply H5. induction l as [|[k v] l IHl]; constructor; [split; apply IH|assumption].
  - apply H6.
  - apply H7.
Qed.

(* strings *)
Lemma escape_parse c s l rest :
  parse_string quote s = Some (l, rest) -> parse_string quote (escape c ++ s) = Some (c :: l, rest).
Proof.
  intros H. unfold escape.
  destruct (Ascii.eqb_spec c backslash) as [->|H1]; [simpl; rewrite H; reflexivity|].
  destruct (Ascii.eqb_spec c carriage_return) as [->|H2]; [simpl; rewrite H; reflexivity|].
  destruct (Ascii.eqb_spec c newline) as [->|H3]; [simpl; rewrite H; reflexivity|].
  destruct (Ascii.eqb_spec c quote) as [->|H4]; [simpl; rewrite H; reflexivity|].
  cbn [parse_string app].
  destruct (Ascii.eqb_spec c quote) as [E|_]; [contradiction|].
  destruct (Ascii.eqb_spec c backslash) as [E|_]; [contradiction|].
  destruct (Ascii.eqb_spec c newline) as [E|_]; [contradiction|].
  destruct (Ascii.eqb_spec c carriage_return) as [E|_]; [contradiction|]. simpl. rewrite H. reflexivity.
Qed.

Lemma parse_string_escaped s rest :
  parse_string quote (flat_map escape s ++ quote :: rest) = Some (s, rest).
Proof.
  induction s as [|c s IH]; [reflexivity|]. simpl flat_map. rewrite <- app_assoc. apply escape_parse. assumption.
Qed.

Lemma text_of_bytes_of s : text_of (bytes_of s) = s.
Proof. apply string_of_list_ascii_of_string. Qed.

Lemma bytes_of_text_of b : bytes_of (text_of b) = b.
Proof. apply list_ascii_of_string_of_list_ascii. Qed.

Lemma bytes_of_app s1 s2 : bytes_of (s1 +++ s2) = bytes_of s1 ++ bytes_of s2.
Proof. induction s1 as [|c s1 IH]; simpl; [reflexivity|]. f_equal. assumption. Qed.

(* integers *)
Definition no_digit (s : bytes) : Prop :=
  match s with [] => True | c :: _ => is_ascii_digit c = false end.

Lemma uint_digits d : forallb is_ascii_digit (bytes_of (NilEmpty.string_of_uint d)) = true.
Proof. induction d; simpl; auto. Qed.

Lemma take_digits_app digits rest :
  forallb is_ascii_digit digits = true -> no_digit rest -> take_digits (digits ++ rest) = (digits, rest).
Proof.
  induction digits as [|c digits IH]; simpl; intros H Hr.
  - destruct rest as [|c rest]; [reflexivity|]. simpl in *. rewrite Hr. reflexivity.
  - apply andb_true_iff in H as [H1 H2]. rewrite H1, (IH H2 Hr). reflexivity.
Qed.

Lemma digits_of_Z z :
  exists d, (Z.to_int z = Decimal.Pos d \/ Z.to_int z = Decimal.Neg d)
    /\ (d = Decimal.zero \/ Decimal.nzhead d = d) /\ d <> Decimal.Nil.
Proof.
  pose proof (DecimalZ.to_of (Z.to_int z)) as H. rewrite DecimalZ.of_to in H.
  assert (Hn : forall d, Decimal.nzhead (Decimal.nzhead d) = Decimal.nzhead d) by apply DecimalFacts.nzhead_involutive.
  rewrite H. destruct (Z.to_int z) as [d|d]; simpl.
  - exists (Decimal.unorm d). split; [auto|]. split; [|apply DecimalFacts.unorm_nonnil].
    unfold Decimal.unorm. destruct (Decimal.nzhead d) eqn:E; auto; right; rewrite <- E; apply Hn.
  - destruct (Decimal.nzhead d) eqn:E.
    1:{ exists Decimal.zero. split; [auto|]. split; [auto|discriminate]. }
    all: eexists; split; [right; reflexivity|]; split; [right; rewrite <- E; apply Hn|discriminate].
Qed.

Lemma parse_digits_uint d :
  d = Decimal.zero \/ Decimal.nzhead d = d -> d <> Decimal.Nil ->
  parse_digits (bytes_of (NilEmpty.string_of_uint d)) = Some (Z.of_uint d).
Proof.
  intros Hz Hn. unfold parse_digits. rewrite text_of_bytes_of, NilEmpty.usu. simpl option_map.
  destruct d; try contradiction; simpl; try reflexivity.
  destruct Hz as [E|E].
  - inversion E. reflexivity.
  - exfalso. exact (DecimalFacts.nzhead_nonzero _ _ E).
Qed.

(* the first character of a decimal number *)
Definition number_head (c : ascii) : Prop := is_ascii_digit c = true \/ c = "-"%char.

Lemma string_of_Z_head z : exists c r, bytes_of (string_of_Z z) = c :: r /\ number_head c.
Proof.
  unfold string_of_Z. destruct (digits_of_Z z) as (d & E & _ & Hn).
  destruct E as [->| ->]; simpl.
  - pose proof (uint_digits d) as Hd. destruct d; try contradiction; simpl; eexists; eexists; (split; [reflexivity|left; reflexivity]).
  - eexists; eexists; split; [reflexivity|right; reflexivity].
Qed.

Lemma digit_not_sign c : is_ascii_digit c = true -> (Ascii.eqb c "-"%char || Ascii.eqb c "+"%char)%bool = false.
Proof.
  intros H. destruct (Ascii.eqb_spec c "-"%char) as [->|_]; [discriminate|].
  destruct (Ascii.eqb_spec c "+"%char) as [->|_]; [discriminate|]. reflexivity.
Qed.

Lemma parse_integer_string z rest :
  no_digit rest -> parse_integer (bytes_of (string_of_Z z) ++ rest) = Some (z, rest).
Proof.
  intros Hr. pose proof (DecimalZ.of_to z) as Hz. unfold string_of_Z. destruct (digits_of_Z z) as (d & E & Hd & Hn).
  destruct E as [E|E]; rewrite E in Hz |- *; simpl in Hz.
  - cbn [NilEmpty.string_of_int].
    pose proof (uint_digits d) as Hdig. pose proof (parse_digits_uint d Hd Hn) as Hp.
    destruct (bytes_of (NilEmpty.string_of_uint d)) as [|c digits] eqn:Eb; [discriminate|].
    unfold parse_integer. cbn [app]. simpl in Hdig. apply andb_true_iff in Hdig as [Hc Hdig].
    rewrite (digit_not_sign c Hc).
    change (c :: digits ++ rest) with ((c :: digits) ++ rest). rewrite take_digits_app; [|simpl; rewrite Hc; assumption|assumption].
    rewrite Hp. simpl. assert (Ascii.eqb c "-"%char = false) as -> by (apply orb_false_iff with (b2 := Ascii.eqb c "+"%char); apply digit_not_sign; assumption).
    rewrite Hz. reflexivity.
  - cbn [NilEmpty.string_of_int].
    change (bytes_of (String "-" (NilEmpty.string_of_uint d)) ++ rest) with ("-"%char :: (bytes_of (NilEmpty.string_of_uint d) ++ rest)).
    unfold parse_integer. simpl (Ascii.eqb "-" "-"). cbn [orb].
    rewrite take_digits_app; [|apply uint_digits|assumption]. rewrite parse_digits_uint by assumption. simpl.
    rewrite Hz. reflexivity.
Qed.

(* what can start a value *)
Definition value_head (c : ascii) : Prop :=
  is_space c = false /\ c <> ")"%char /\ c <> "]"%char /\ c <> "}"%char.

Lemma digit_code c : is_ascii_digit c = true -> 48 <= nat_of_ascii c <= 57.
Proof. unfold is_ascii_digit. intros H. apply andb_true_iff in H as [H1 H2]. apply Nat.leb_le in H1, H2. lia. Qed.

Lemma number_head_value c : number_head c -> value_head c.
Proof.
  intros [H| ->]; [|repeat split; [discriminate| |]; discriminate].
  apply digit_code in H.
  assert (N : forall c', nat_of_ascii c' < 48 \/ 57 < nat_of_ascii c' -> c <> c') by (intros c' Hc ->; lia).
  repeat split.
  - unfold is_space.
    assert (forall c', nat_of_ascii c' < 48 -> Ascii.eqb c c' = false) as E.
    { intros c' Hc. apply Ascii.eqb_neq. apply N. auto. }
    rewrite !E; [reflexivity|..]; vm_compute; lia.
  - apply N. vm_compute. lia.
  - apply N. vm_compute. lia.
  - apply N. vm_compute. lia.
Qed.

Lemma write_head v : exists c r, write_ascii v = c :: r /\ value_head c.
Proof.
  destruct v as [s|z|l|l|l|[|]|];
    try (eexists; eexists; split; [reflexivity|repeat split; [discriminate| |]; discriminate]).
  - destruct (string_of_Z_head z) as (c & r & E & H). exists c, r. split; [exact E|apply number_head_value; assumption].
  - destruct l as [|x [|y l]]; eexists; eexists; (split; [reflexivity|repeat split; [discriminate| |]; discriminate]).
Qed.

Lemma skip_head c r : is_space c = false -> skip_spaces (c :: r) = c :: r.
Proof. intros H. simpl. rewrite H. reflexivity. Qed.

Definition parses (v : py_value) : Prop := forall fuel rest,
  length (write_ascii v) <= fuel -> no_digit rest -> parse_value fuel (write_ascii v ++ rest) = Some (v, rest).

Lemma parse_space fuel closing s : parse_items fuel closing (space :: s) = parse_items fuel closing s.
Proof. destruct fuel; reflexivity. Qed.

Lemma parse_entries_space fuel s : parse_entries fuel (space :: s) = parse_entries fuel s.
Proof. destruct fuel; reflexivity. Qed.

Lemma parse_value_space fuel s : parse_value fuel (space :: s) = parse_value fuel s.
Proof. destruct fuel; reflexivity. Qed.

Definition is_closing (c : ascii) : Prop := c = ")"%char \/ c = "]"%char.

Lemma closing_facts c : is_closing c ->
  is_space c = false /\ is_ascii_digit c = false /\ c <> ","%char
  /\ (forall c', value_head c' -> Ascii.eqb c' c = false).
Proof.
  intros [->| ->]; (split; [reflexivity|]); (split; [reflexivity|]); (split; [discriminate|]);
    intros c' (_ & H1 & H2 & _); apply Ascii.eqb_neq; assumption.
Qed.

Lemma parse_items_nil fuel c rest :
  is_closing c -> 1 <= fuel -> parse_items fuel c (c :: rest) = Some ([], true, rest).
Proof.
  intros Hc Hf. destruct fuel as [|fuel]; [lia|]. cbn [parse_items].
  rewrite skip_head by (apply closing_facts; assumption). rewrite Ascii.eqb_refl. reflexivity.
Qed.

(* one item, followed by the closing character *)
Lemma parse_items_last fuel c v rest :
  is_closing c -> parses v -> length (write_ascii v) < fuel ->
  parse_items fuel c (write_ascii v ++ c :: rest) = Some ([v], false, rest).
Proof.
  intros Hc Hv Hf. destruct (closing_facts c Hc) as (H1 & H2 & H3 & H4).
  destruct (write_head v) as (x & r & E & Hx). destruct fuel as [|fuel]; [lia|].
  pose proof (Hv fuel (c :: rest) ltac:(lia) H2) as Hp. rewrite E in *.
  cbn [parse_items app]. rewrite skip_head by (apply Hx). rewrite (H4 x Hx). 
  cbn [app] in Hp. rewrite Hp. rewrite skip_head by assumption.
  destruct (Ascii.eqb_spec c ","%char) as [E'|_]; [contradiction|]. rewrite Ascii.eqb_refl. reflexivity.
Qed.

(* one item, followed by a comma *)
Lemma parse_items_comma fuel c v rest vs comma rest' :
  is_closing c -> parses v -> length (write_ascii v) < fuel ->
  parse_items (fuel - 1) c rest = Some (vs, comma, rest') ->
  parse_items fuel c (write_ascii v ++ ","%char :: rest) = Some (v :: vs, comma, rest').
Proof.
  intros Hc Hv Hf Hp. destruct (closing_facts c Hc) as (H1 & H2 & H3 & H4).
  destruct (write_head v) as (x & r & E & Hx). destruct fuel as [|fuel]; [lia|].
  pose proof (Hv fuel (","%char :: rest) ltac:(lia) eq_refl) as Hq. rewrite E in *.
  cbn [parse_items app]. rewrite skip_head by (apply Hx). rewrite (H4 x Hx).
  cbn [app] in Hq. rewrite Hq. rewrite (skip_head ",") by reflexivity. rewrite Ascii.eqb_refl.
  simpl in Hp. rewrite Nat.sub_0_r in Hp. rewrite Hp. reflexivity.
Qed.

Lemma separated_cons x y l : separated (x :: y :: l) = x ++ bytes_of ", " ++ separated (y :: l).
Proof. reflexivity. Qed.

Lemma parse_items_separated c l : is_closing c -> forall fuel rest,
  Forall parses l -> l <> [] -> length (separated (map write_ascii l)) < fuel ->
  parse_items fuel c (separated (map write_ascii l) ++ c :: rest) = Some (l, false, rest).
Proof.
  intros Hc. induction l as [|v l IH]; intros fuel rest Hl Hne Hf; [contradiction|].
  inversion Hl as [|? ? Hv Hl']; subst. destruct l as [|w l].
  - simpl. simpl in Hf. apply parse_items_last; assumption.
  - change (map write_ascii (v :: w :: l)) with (write_ascii v :: write_ascii w :: map write_ascii l) in *.
    rewrite separated_cons in Hf |- *. rewrite !app_length in Hf.
    assert (El : length (bytes_of ", ") = 2) by reflexivity. rewrite El in Hf.
    rewrite <- !app_assoc.
    change (bytes_of ", " ++ separated (write_ascii w :: map write_ascii l) ++ c :: rest)
      with (","%char :: space :: (separated (map write_ascii (w :: l)) ++ c :: rest)).
    apply parse_items_comma; [assumption|assumption|lia|].
    rewrite parse_space. apply IH; [assumption|discriminate|].
    change (map write_ascii (w :: l)) with (write_ascii w :: map write_ascii l). lia.
Qed.

(* items all followed by a comma *)
Lemma parse_items_trailing c l : is_closing c -> forall fuel rest,
  Forall parses l ->
  length (flat_map (fun v => write_ascii v ++ bytes_of ", ") l) < fuel ->
  parse_items fuel c (flat_map (fun v => write_ascii v ++ bytes_of ", ") l ++ c :: rest) = Some (l, true, rest).
Proof.
  intros Hc. induction l as [|v l IH]; intros fuel rest Hl Hf.
  - simpl. apply parse_items_nil; [assumption|]. simpl in Hf. lia.
  - inversion Hl as [|? ? Hv Hl']; subst. cbn [flat_map] in Hf |- *. rewrite !app_length in Hf.
    assert (El : length (bytes_of ", ") = 2) by reflexivity. rewrite El in Hf.
    rewrite <- !app_assoc.
    change (bytes_of ", " ++ ?x) with (","%char :: space :: x).
    apply parse_items_comma; [assumption|assumption|lia|].
    rewrite parse_space. apply IH; [assumption|lia].
Qed.

Definition write_entry (kv : py_value * py_value) : bytes :=
  write_ascii (fst kv) ++ bytes_of ": " ++ write_ascii (snd kv).

Lemma brace_head c : value_head c -> Ascii.eqb c "}"%char = false.
Proof. intros (_ & _ & _ & H). apply Ascii.eqb_neq. assumption. Qed.

Lemma parse_entry fuel k v rest :
  parses k -> parses v -> length (write_entry (k, v)) < fuel -> no_digit rest ->
  parse_entries fuel (write_entry (k, v) ++ rest) =
    match skip_spaces rest with
    | c2 :: rest3 =>
        if Ascii.eqb c2 ","%char then
          match parse_entries (fuel - 1) rest3 with
          | Some (kvs, rest4) => Some ((k, v) :: kvs, rest4)
          | None => None
          end
        else if Ascii.eqb c2 "}"%char then Some ([(k, v)], rest3)
        else None
    | [] => None
    end.
Proof.
  intros Hk Hv Hf Hr. unfold write_entry in *. cbn [fst snd] in *. rewrite !app_length in Hf.
  destruct (write_head k) as (x & r & E & Hx). destruct fuel as [|fuel]; [lia|].
  replace (S fuel - 1) with fuel by lia.
  pose proof (Hk fuel (bytes_of ": " ++ write_ascii v ++ rest) ltac:(lia) eq_refl) as Hp.
  pose proof (Hv fuel rest ltac:(lia) Hr) as Hq.
  rewrite <- !app_assoc. rewrite E in *. cbn [parse_entries app] in *. rewrite skip_head by (apply Hx).
  rewrite (brace_head x Hx). rewrite Hp.
  change (bytes_of ": " ++ ?y) with (":"%char :: space :: y). rewrite skip_head by reflexivity.
  rewrite Ascii.eqb_refl. cbn [negb]. rewrite parse_value_space, Hq. reflexivity.
Qed.

Lemma parse_entries_separated l : forall fuel rest,
  Forall (fun kv => parses (fst kv) /\ parses (snd kv)) l -> l <> [] ->
  length (separated (map write_entry l)) < fuel ->
  parse_entries fuel (separated (map write_entry l) ++ "}"%char :: rest) = Some (l, rest).
Proof.
  induction l as [|[k v] l IH]; intros fuel rest Hl Hne Hf; [contradiction|].
  inversion Hl as [|? ? [Hk Hv] Hl']; subst. destruct l as [|w l].
  - cbn [map separated] in *. rewrite parse_entry; auto. reflexivity.
  - change (map write_entry ((k, v) :: w :: l)) with (write_entry (k, v) :: write_entry w :: map write_entry l) in *.
    rewrite separated_cons in Hf |- *. rewrite !app_length in Hf.
    assert (El : length (bytes_of ", ") = 2) by reflexivity. rewrite El in Hf.
    rewrite <- !app_assoc. rewrite parse_entry; auto; [|lia|reflexivity].
    change (bytes_of ", " ++ ?y) with (","%char :: space :: y). rewrite skip_head by reflexivity.
    rewrite Ascii.eqb_refl. rewrite parse_entries_space. rewrite IH; [reflexivity|assumption|discriminate|].
    change (map write_entry (w :: l)) with (write_entry w :: map write_entry l). lia.
Qed.

Lemma write_dict l :
  write_ascii (PyDict l) = bytes_of "{" ++ separated (map write_entry l) ++ bytes_of "}".
Proof. reflexivity. Qed.

Lemma number_branch c r :
  number_head c ->
  (Ascii.eqb c quote || Ascii.eqb c """"%char)%bool = false /\ Ascii.eqb c "("%char = false
  /\ Ascii.eqb c "["%char = false /\ Ascii.eqb c "{"%char = false
  /\ strip_prefix (bytes_of "True") (c :: r) = None
  /\ strip_prefix (bytes_of "False") (c :: r) = None
  /\ strip_prefix (bytes_of "None") (c :: r) = None.
Proof.
  intros Hc.
  assert (N : forall c', nat_of_ascii c' < 48 \/ 57 < nat_of_ascii c' -> c' <> "-"%char -> Ascii.eqb c c' = false /\ Ascii.eqb c' c = false).
  { intros c' H1 H2.
    assert (c <> c').
    { destruct Hc as [Hc| ->]; [|congruence]. apply digit_code in Hc. intros ->. lia. }
    split; apply Ascii.eqb_neq; congruence. }
  assert (Q : forall c', nat_of_ascii c' < 48 \/ 57 < nat_of_ascii c' -> c' <> "-"%char -> Ascii.eqb c c' = false) by (intros; apply N; assumption).
  assert (R : forall c', nat_of_ascii c' < 48 \/ 57 < nat_of_ascii c' -> c' <> "-"%char -> Ascii.eqb c' c = false) by (intros; apply N; assumption).
  split; [|split; [|split; [|split; [|split; [|split]]]]].
  - apply orb_false_iff. split; apply Q; try discriminate; vm_compute; lia.
  - apply Q; [vm_compute; lia|discriminate].
  - apply Q; [vm_compute; lia|discriminate].
  - apply Q; [vm_compute; lia|discriminate].
  - cbn [bytes_of list_ascii_of_string strip_prefix]. rewrite R; [reflexivity|vm_compute; lia|discriminate].
  - cbn [bytes_of list_ascii_of_string strip_prefix]. rewrite R; [reflexivity|vm_compute; lia|discriminate].
  - cbn [bytes_of list_ascii_of_string strip_prefix]. rewrite R; [reflexivity|vm_compute; lia|discriminate].
Qed.

Lemma parse_write v : parses v.
Proof.
  induction v as [s|z|l IH|l IH|l IH|b|] using py_value_induction; intros fuel rest Hf Hr.
  - destruct fuel as [|fuel]; [simpl in Hf; lia|]. cbn [write_ascii app parse_value]. rewrite skip_head by reflexivity.
    rewrite Ascii.eqb_refl. cbn [orb]. rewrite <- app_assoc. cbn [app]. rewrite parse_string_escaped, text_of_bytes_of. reflexivity.
  - cbn [write_ascii] in *. pose proof (parse_integer_string z rest Hr) as Hp.
    destruct (string_of_Z_head z) as (c & r & E & Hc). rewrite E in *. destruct fuel as [|fuel]; [simpl in Hf; lia|].
    cbn [app parse_value] in *. rewrite skip_head by (apply number_head_value; assumption).
    destruct (number_branch c (r ++ rest) Hc) as (-> & -> & -> & -> & -> & -> & ->). rewrite Hp. reflexivity.
  - destruct l as [|x [|y l]].
    + destruct fuel as [|[|fuel]]; [simpl in Hf; lia|simpl in Hf; lia|]. reflexivity.
    + inversion IH as [|? ? Hx _]; subst.
      assert (Ew : write_ascii (PyTuple [x]) = "("%char :: (write_ascii x ++ bytes_of ",)")) by reflexivity.
      rewrite Ew in *. cbn [length] in Hf. rewrite app_length in Hf. assert (El : length (bytes_of ",)") = 2) by reflexivity. rewrite El in Hf.
      destruct fuel as [|fuel]; [lia|]. cbn [parse_value app]. rewrite skip_head by reflexivity. simpl (Ascii.eqb _ _). cbn iota.
      rewrite <- app_assoc. change (bytes_of ",)" ++ rest) with (","%char :: ")"%char :: rest).
      rewrite (parse_items_comma fuel ")"%char x (")"%char :: rest) [] true rest); [reflexivity|left; reflexivity|assumption|lia|].
      apply parse_items_nil; [left; reflexivity|lia].
    + assert (Ew : write_ascii (PyTuple (x :: y :: l)) = "("%char :: (separated (map write_ascii (x :: y :: l)) ++ [")"%char])) by reflexivity.
      rewrite Ew in *. cbn [length] in Hf. rewrite app_length in Hf. simpl (length [")"%char]) in Hf.
      destruct fuel as [|fuel]; [lia|]. cbn [parse_value app]. rewrite skip_head by reflexivity. simpl (Ascii.eqb _ _). cbn iota.
      rewrite <- app_assoc. cbn [app].
      rewrite parse_items_separated; [reflexivity|left; reflexivity|assumption|discriminate|lia].
  - assert (Ew : write_ascii (PyList l) = "["%char :: (separated (map write_ascii l) ++ ["]"%char])) by (destruct l; reflexivity).
    rewrite Ew in *. cbn [length] in Hf. rewrite app_length in Hf. simpl (length ["]"%char]) in Hf.
    destruct fuel as [|fuel]; [lia|]. cbn [parse_value app]. rewrite skip_head by reflexivity. simpl (Ascii.eqb _ _). cbn iota.
    rewrite <- app_assoc. cbn [app]. destruct l as [|x l].
    + cbn [map separated app orb]. rewrite parse_items_nil; [reflexivity|right; reflexivity|simpl in Hf; lia].
    + rewrite parse_items_separated; [reflexivity|right; reflexivity|assumption|discriminate|lia].
  - rewrite write_dict in *. change (bytes_of "{" ++ ?y) with ("{"%char :: y) in *. change (bytes_of "}") with ["}"%char] in *.
    cbn [length] in Hf. rewrite app_length in Hf. simpl (length ["}"%char]) in Hf.
    destruct fuel as [|fuel]; [lia|]. cbn [parse_value app]. rewrite skip_head by reflexivity. simpl (Ascii.eqb _ _). cbn iota.
    rewrite <- app_assoc. cbn [app]. destruct l as [|x l].
    + destruct fuel as [|fuel]; [simpl in Hf; lia|]. reflexivity.
    + rewrite parse_entries_separated; [reflexivity|assumption|discriminate|lia].
  - destruct b; (destruct fuel as [|fuel]; [simpl in Hf; lia|]); reflexivity.
  - destruct fuel as [|fuel]; [simpl in Hf; lia|]. reflexivity.
Qed.

Lemma no_digit_spaces n : no_digit (repeat space n).
Proof. destruct n; reflexivity. Qed.

Lemma skip_spaces_repeat n : skip_spaces (repeat space n) = [].
Proof. induction n; [reflexivity|]. assumption. Qed.

Lemma parse_literal_padded v n : parse_literal (write_ascii v ++ repeat space n) = Some v.
Proof.
  unfold parse_literal. rewrite parse_write; [|rewrite app_length; lia|apply no_digit_spaces].
  rewrite skip_spaces_repeat. reflexivity.
Qed.

(** * Headers *)

Lemma is_ascii_byte_spec c : is_ascii_byte c = true <-> nat_of_ascii c < 128.
Proof.
  unfold is_ascii_byte, byte_value, nat_of_ascii. rewrite Z.ltb_lt. split; intros H; lia.
Qed.

Lemma is_ascii_digit_byte c : is_ascii_digit c = true -> is_ascii_byte c = true.
Proof. intros H. apply is_ascii_byte_spec. apply digit_code in H. lia. Qed.

Lemma escape_ascii c : is_ascii_byte c = true -> forallb is_ascii_byte (escape c) = true.
Proof.
  intros H. unfold escape. repeat (destruct (Ascii.eqb _ _); [reflexivity|]). simpl. rewrite H. reflexivity.
Qed.

Lemma forallb_flat_map {A B} (p : B -> bool) (f : A -> list B) l :
  Forall (fun x => forallb p (f x) = true) l -> forallb p (flat_map f l) = true.
Proof. induction 1; simpl; [reflexivity|]. rewrite forallb_app. apply andb_true_iff. auto. Qed.

Lemma separated_ascii (l : list bytes) :
  Forall (fun b => forallb is_ascii_byte b = true) l -> forallb is_ascii_byte (separated l) = true.
Proof.
  induction 1 as [|x l Hx Hl IH]; [reflexivity|]. destruct l as [|y l]; [assumption|].
  rewrite separated_cons. rewrite forallb_app, Hx. rewrite forallb_app. exact IH.
Qed.

Lemma ascii_text_bytes s : ascii_text s -> forallb is_ascii_byte (bytes_of s) = true.
Proof. intros H. apply forallb_forall. intros c Hc. apply is_ascii_byte_spec. apply (proj1 (Forall_forall _ _) H). assumption. Qed.

Lemma string_of_Z_ascii z : forallb is_ascii_byte (bytes_of (string_of_Z z)) = true.
Proof.
  unfold string_of_Z.
  assert (H : forall d, forallb is_ascii_byte (bytes_of (NilEmpty.string_of_uint d)) = true).
  { intros d. apply forallb_forall. intros c Hc. apply is_ascii_digit_byte.
    apply (proj1 (forallb_forall _ _) (uint_digits d)). assumption. }
  destruct (Z.to_int z); simpl; [apply H|]. apply H.
Qed.

Lemma write_ascii_ascii v : ascii_literal v -> forallb is_ascii_byte (write_ascii v) = true.
Proof.
  induction v as [s|z|l IH|l IH|l IH|b|] using py_value_induction; intros Hv; inversion Hv; subst.
  - cbn [write_ascii]. rewrite !forallb_app. apply andb_true_iff; split; [reflexivity|]. apply andb_true_iff; split; [|reflexivity].
    apply forallb_flat_map. apply Forall_forall. intros c Hc. apply escape_ascii. 
    apply (proj1 (forallb_forall _ _) (ascii_text_bytes s H0)). assumption.
  - apply string_of_Z_ascii.
  - assert (Hm : Forall (fun b => forallb is_ascii_byte b = true) (map write_ascii l)).
    { apply Forall_map. rewrite Forall_forall in *. auto. }
    destruct l as [|x [|y l]]; [reflexivity| |].
    + inversion Hm; subst. cbn [write_ascii]. rewrite !forallb_app, H2. reflexivity.
    + change (write_ascii (PyTuple (x :: y :: l))) with (bytes_of "(" ++ separated (map write_ascii (x :: y :: l)) ++ bytes_of ")").
      rewrite !forallb_app, separated_ascii by assumption. reflexivity.
  - assert (Hm : Forall (fun b => forallb is_ascii_byte b = true) (map write_ascii l)).
    { apply Forall_map. rewrite Forall_forall in *. auto. }
    cbn [write_ascii]. rewrite !forallb_app, separated_ascii by assumption. reflexivity.
  - rewrite write_dict, !forallb_app, separated_ascii; [reflexivity|].
    apply Forall_map. rewrite Forall_forall in *. intros kv Hkv. destruct (IH kv Hkv) as [I1 I2]. destruct (H0 kv Hkv) as [J1 J2].
    unfold write_entry. rewrite !forallb_app, I1, I2 by assumption. reflexivity.
  - destruct b; reflexivity.
  - reflexivity.
Qed.

Definition header_length (v : version) (n : nat) : Z :=
  let prefix := (8 + Z.of_nat (header_len_num_bytes v))%Z in
  (64 * ((prefix + Z.of_nat n + 1) / 64 + 1) - prefix)%Z.

Lemma compute_lengths_some v d :
  compute_lengths v d =
    if (header_length v (length d) <? 256 ^ Z.of_nat (header_len_num_bytes v))%Z
    then Some (8 + Z.of_nat (header_len_num_bytes v) + header_length v (length d),
               encode LittleEndian (header_len_num_bytes v) (header_length v (length d)))%Z
    else None.
Proof.
  unfold compute_lengths, format_header_len. change (Z.of_nat (length magic_string) + 2)%Z with 8%Z. change header_divisor with 64%Z.
  set (k := header_len_num_bytes v).
  set (u := (8 + Z.of_nat k + Z.of_nat (length d) + 1)%Z).
  pose proof (Z.div_mod u 64 ltac:(lia)) as Hdiv.
  replace (u + (64 - u mod 64) - (8 + Z.of_nat k))%Z with (header_length v (length d)).
  2:{ unfold header_length. fold k. replace (8 + Z.of_nat k + Z.of_nat (length d) + 1)%Z with u by reflexivity. lia. }
  replace (u + (64 - u mod 64))%Z with (8 + Z.of_nat k + header_length v (length d))%Z.
  2:{ unfold header_length. fold k. replace (8 + Z.of_nat k + Z.of_nat (length d) + 1)%Z with u by reflexivity. lia. }
  destruct (_ <? _)%Z; reflexivity.
Qed.

Lemma header_length_bounds v n :
  (Z.of_nat n + 2 <= header_length v n <= Z.of_nat n + 65)%Z
  /\ ((8 + Z.of_nat (header_len_num_bytes v) + header_length v n) mod 64 = 0)%Z.
Proof.
  unfold header_length. set (k := header_len_num_bytes v). set (u := (8 + Z.of_nat k + Z.of_nat n + 1)%Z).
  pose proof (Z.div_mod u 64 ltac:(lia)) as Hdiv. pose proof (Z.mod_pos_bound u 64 ltac:(lia)).
  split; [lia|].
  replace (8 + Z.of_nat k + (64 * (u / 64 + 1) - (8 + Z.of_nat k)))%Z with ((u / 64 + 1) * 64)%Z by lia.
  apply Z.mod_mul. lia.
Qed.

(* what is written *)
Lemma header_with_version_some v d out :
  header_with_version v d = Some out ->
  (header_length v (length d) < 256 ^ Z.of_nat (header_len_num_bytes v))%Z
  /\ exists k, Z.of_nat (length d + k + 1) = header_length v (length d) /\ 1 <= k <= 64
     /\ out = magic_string ++ version_bytes v
              ++ encode LittleEndian (header_len_num_bytes v) (header_length v (length d))
              ++ d ++ repeat space k ++ [newline].
Proof.
  unfold header_with_version. rewrite compute_lengths_some.
  destruct (Z.ltb_spec (header_length v (length d)) (256 ^ Z.of_nat (header_len_num_bytes v))) as [Hl|Hl]; [|discriminate].
  intros H. split; [assumption|].
  destruct (header_length_bounds v (length d)) as [Hb _].
  exists (Z.to_nat (header_length v (length d)) - length d - 1). split; [lia|]. split; [lia|].
  set (hl := header_length v (length d)) in *. set (nb := header_len_num_bytes v) in *.
  apply (f_equal (fun o => match o with Some x => x | None => [] end)) in H. cbv beta iota in H. rewrite <- H.
  unfold resize.
  assert (Hm : length magic_string = 6) by reflexivity.
  assert (Hvb : length (version_bytes v) = 2) by (destruct v; reflexivity).
  assert (He : length (encode LittleEndian nb hl) = nb) by apply encode_length.
  rewrite firstn_all2 by (rewrite !app_length, Hm, Hvb, He; lia).
  rewrite !app_length, Hm, Hvb, He. rewrite <- !app_assoc.
  replace (Z.to_nat (8 + Z.of_nat nb + hl - 1) - (6 + (2 + (nb + length d)))) with (Z.to_nat hl - length d - 1) by lia.
  reflexivity.
Qed.

Lemma header_with_version_none v d :
  header_with_version v d = None <-> (256 ^ Z.of_nat (header_len_num_bytes v) <= header_length v (length d))%Z.
Proof.
  unfold header_with_version. rewrite compute_lengths_some.
  destruct (Z.ltb_spec (header_length v (length d)) (256 ^ Z.of_nat (header_len_num_bytes v))) as [Hl|Hl];
    split; intros H; try discriminate; try lia; reflexivity.
Qed.

Lemma version_round_trip v : version_of_bytes (version_bytes v) = Ok v.
Proof. destruct v; reflexivity. Qed.

Lemma list_eqb_refl_ascii b : list_eqb Ascii.eqb b b = true.
Proof. induction b as [|c b IH]; simpl; [reflexivity|]. rewrite Ascii.eqb_refl. assumption. Qed.

Lemma header_len_small v z :
  (0 <= z < 256 ^ Z.of_nat (header_len_num_bytes v))%Z ->
  decode LittleEndian (encode LittleEndian (header_len_num_bytes v) z) = z.
Proof. intros H. rewrite decode_encode. apply Z.mod_small. assumption. Qed.

Lemma parse_header_written v d k h :
  parse_literal (d ++ repeat space k) = Some (header_to_py_value h) ->
  v <> V3_0 -> forallb is_ascii_byte d = true ->
  header_of_py_value (header_to_py_value h) = Ok h ->
  parse_header v (d ++ repeat space k ++ [newline]) = Ok h.
Proof.
  intros Hp Hv Ha Hh. unfold parse_header. rewrite app_assoc, rev_app_distr. cbn [rev app]. rewrite Ascii.eqb_refl, rev_involutive.
  assert (Ht : forallb is_ascii_byte (d ++ repeat space k) = true).
  { rewrite forallb_app, Ha. simpl. apply forallb_forall. intros c Hc. apply repeat_spec in Hc. subst. reflexivity. }
  destruct v; try contradiction; rewrite Ht; cbn [bind]; rewrite Hp; assumption.
Qed.

Lemma shape_of_values_integers shape :
  usize_shape shape -> shape_of_values (map PyInteger shape) = Some shape.
Proof.
  induction 1 as [|n shape Hn Hs IH]; [reflexivity|]. cbn [map shape_of_values]. unfold to_usize.
  destruct (Z.leb_spec 0 n); [|lia]. destruct (Z.ltb_spec n (2 ^ 64)); [|lia]. cbn [andb]. rewrite IH. reflexivity.
Qed.

Lemma header_py_round_trip h :
  usize_shape (h_shape h) -> header_of_py_value (header_to_py_value h) = Ok h.
Proof.
  intros Hs. unfold header_of_py_value, header_to_py_value. 
  assert (E : header_fields [(PyString "descr", h_descriptor h); (PyString "fortran_order", PyBoolean (h_fortran_order h));
      (PyString "shape", PyTuple (map PyInteger (h_shape h)))] None None None
      = Ok (Some (h_descriptor h), Some (h_fortran_order h), Some (h_shape h))).
  { cbn -[parse_shape shape_of_values]. unfold parse_shape. rewrite shape_of_values_integers by assumption. reflexivity. }
  rewrite E. cbn [bind]. destruct h; reflexivity.
Qed.

Lemma ascii_literal_header h : ascii_literal (h_descriptor h) -> ascii_literal (header_to_py_value h).
Proof.
  intros H. constructor.
  assert (T : forall s, forallb is_ascii_byte (bytes_of s) = true -> ascii_literal (PyString s)).
  { intros s Hs. constructor. apply Forall_forall. intros c Hc. apply is_ascii_byte_spec.
    apply (proj1 (forallb_forall _ _) Hs). assumption. }
  repeat apply Forall_cons; cbn [fst snd]; try (split; [apply T; reflexivity|]); try assumption; constructor.
  apply Forall_map. apply Forall_forall. intros z _. constructor.
Qed.

Lemma header_to_bytes_ok h f :
  header_to_bytes h = Ok f -> exists v, v <> V3_0
    /\ header_with_version v (write_ascii (header_to_py_value h)) = Some f
    /\ (v = V1_0 \/ (v = V2_0 /\ header_with_version V1_0 (write_ascii (header_to_py_value h)) = None)).
Proof.
  unfold header_to_bytes. intros H. destruct (header_with_version V1_0 _) as [o|] eqn:E1.
  - inversion H; subst. exists V1_0. split; [discriminate|]. auto.
  - destruct (header_with_version V2_0 _) as [o|] eqn:E2; [|discriminate]. inversion H; subst. exists V2_0.
    split; [discriminate|]. auto.
Qed.

Lemma header_round_trip h f rest :
  ascii_literal (h_descriptor h) -> usize_shape (h_shape h) -> header_to_bytes h = Ok f ->
  header_from_reader (f ++ rest) = Ok (h, rest).
Proof.
  intros Ha Hs Hf. destruct (header_to_bytes_ok h f Hf) as (v & Hv & Hw & _).
  apply header_with_version_some in Hw as (Hl & k & Hk & Hk2 & ->).
  set (d := write_ascii (header_to_py_value h)) in *.
  unfold header_from_reader. rewrite <- !app_assoc.
  rewrite read_exact_app by reflexivity. cbn [bind]. rewrite list_eqb_refl_ascii. cbn [negb].
  rewrite read_exact_app by (destruct v; reflexivity). cbn [bind]. rewrite version_round_trip. cbn [bind].
  unfold read_header_len. rewrite read_exact_app by (rewrite encode_length; reflexivity). cbn [bind].
  rewrite header_len_small by lia.
  replace (d ++ repeat space k ++ [newline] ++ rest) with ((d ++ repeat space k ++ [newline]) ++ rest) by (rewrite <- !app_assoc; reflexivity).
  rewrite read_exact_app by (rewrite !app_length, repeat_length; cbn [length]; lia). cbn [bind].
  rewrite (parse_header_written v d k h); [reflexivity| | | |].
  - apply parse_literal_padded.
  - assumption.
  - apply write_ascii_ascii, ascii_literal_header. assumption.
  - apply header_py_round_trip. assumption.
Qed.

(* cutting a header *)
Lemma header_cut h f k :
  header_to_bytes h = Ok f -> k < length f -> exists e, header_from_reader (firstn k f) = Err e.
Proof.
  intros Hf Hk. destruct (header_to_bytes_ok h f Hf) as (v & Hv & Hw & _).
  apply header_with_version_some in Hw as (Hl & s & Hs & Hs2 & ->).
  set (d := write_ascii (header_to_py_value h)) in *. unfold header_from_reader.
  assert (Hm : length magic_string = 6) by reflexivity.
  assert (Hvb : length (version_bytes v) = 2) by (destruct v; reflexivity).
  set (nb := header_len_num_bytes v) in *. set (hl := header_length v (length d)) in *.
  assert (He : length (encode LittleEndian nb hl) = nb) by apply encode_length.
  rewrite !app_length, Hm, Hvb, He, repeat_length in Hk. cbn [length] in Hk.
  rewrite read_exact_cut by reflexivity.
  destruct (Nat.leb_spec (length magic_string) k) as [E1|E1]; [|eexists; reflexivity]. cbn [bind].
  rewrite list_eqb_refl_ascii. cbn [negb].
  rewrite read_exact_cut by (rewrite Hvb; reflexivity).
  destruct (Nat.leb_spec (length (version_bytes v)) (k - length magic_string)) as [E2|E2]; [|eexists; reflexivity]. cbn [bind].
  rewrite version_round_trip. cbn [bind]. unfold read_header_len. fold nb.
  rewrite read_exact_cut by (rewrite He; reflexivity). rewrite Hm, Hvb, He in *.
  destruct (Nat.leb_spec nb (k - 6 - 2)) as [E3|E3]; [|eexists; reflexivity]. cbn [bind].
  unfold nb at 1. unfold nb in Hl. rewrite header_len_small by lia.
  rewrite read_exact_short; [eexists; reflexivity|].
  rewrite firstn_length, !app_length, repeat_length. cbn [length]. lia.
Qed.

(** * Data files *)

Lemma z_prod_of_nat shape : z_prod (map Z.of_nat shape) = Z.of_nat (elements shape).
Proof. induction shape as [|n shape IH]; [reflexivity|]. change (elements (n :: shape)) with (n * elements shape). rewrite Nat2Z.inj_mul, <- IH. reflexivity. Qed.

Lemma filter_nonzero shape :
  filter (fun n => negb (n =? 0)%Z) (map Z.of_nat shape) = map Z.of_nat (filter (fun n => negb (n =? 0)) shape).
Proof.
  induction shape as [|n shape IH]; [reflexivity|]. cbn [map filter]. rewrite IH.
  destruct (Nat.eqb_spec n 0) as [->|H]; [reflexivity|].
  destruct (Z.eqb_spec (Z.of_nat n) 0); [lia|reflexivity].
Qed.

Definition nonzero_volume (shape : list nat) : nat := elements (filter (fun n => negb (n =? 0)) shape).

Lemma elements_cons n shape : elements (n :: shape) = n * elements shape.
Proof. reflexivity. Qed.

Lemma nonzero_volume_pos shape : 1 <= nonzero_volume shape.
Proof.
  unfold nonzero_volume. induction shape as [|n shape IH]; [simpl; lia|]. cbn [filter].
  destruct (Nat.eqb_spec n 0) as [->|H]; [assumption|]. cbn [negb]; rewrite elements_cons; nia.
Qed.

Lemma storable_usize shape : storable shape -> usize_shape (map Z.of_nat shape).
Proof.
  intros [H _]. fold (nonzero_volume shape) in H. apply Forall_map. 
  assert (forall n, In n shape -> n <= nonzero_volume shape) as Hle.
  { clear H. induction shape as [|m shape IH]; intros n Hn; [contradiction|].
    pose proof (nonzero_volume_pos shape) as Hp.
    unfold nonzero_volume in *. cbn [filter]. destruct Hn as [->|Hn].
    - destruct (Nat.eqb_spec n 0) as [->|Hn]; [lia|]. cbn [negb]; rewrite elements_cons; nia.
    - specialize (IH n Hn). destruct (Nat.eqb_spec m 0) as [->|Hm]; [assumption|]. cbn [negb]; rewrite elements_cons; nia. }
  apply Forall_forall. intros n Hn. specialize (Hle n Hn). change (2 ^ 63)%Z with 9223372036854775808%Z in H.
  change (2 ^ 64)%Z with 18446744073709551616%Z. lia.
Qed.

Lemma shape_size_storable p shape : forall acc,
  (acc * Z.of_nat (nonzero_volume shape) < 2 ^ 64)%Z -> (0 <= acc)%Z ->
  foldM (mul_usize p) (map Z.of_nat shape) acc = Ok (acc * Z.of_nat (elements shape))%Z.
Proof.
  induction shape as [|n shape IH]; intros acc Hacc Hpos; [cbn [map foldM]; f_equal; cbn; lia|].
  cbn [map foldM]. rewrite elements_cons. pose proof (nonzero_volume_pos shape) as Hp.
  assert (E : nonzero_volume (n :: shape) = if n =? 0 then nonzero_volume shape else n * nonzero_volume shape).
  { unfold nonzero_volume. cbn [filter]. destruct (n =? 0); reflexivity. }
  rewrite E in Hacc.
  assert (Hn : (acc * Z.of_nat n * Z.of_nat (nonzero_volume shape) < 2 ^ 64)%Z).
  { destruct (Nat.eqb_spec n 0) as [->|Hn]; [rewrite Z.mul_0_r, Z.mul_0_l; reflexivity|]. rewrite Nat2Z.inj_mul, Z.mul_assoc in Hacc. assumption. }
  unfold mul_usize at 1. destruct (Z.ltb_spec (acc * Z.of_nat n) (2 ^ 64)) as [H|H].
  - cbn [bind]. rewrite IH; [f_equal; lia|assumption|lia].
  - exfalso. remember (2 ^ 64)%Z as big. nia.
Qed.

Lemma from_shape_vec_ok shape data :
  storable shape -> length data = elements shape ->
  from_shape_vec (map Z.of_nat shape) data = Ok (mk_nd shape data).
Proof.
  intros [H1 _] H2. unfold from_shape_vec. rewrite filter_nonzero, !z_prod_of_nat, H2, Z.eqb_refl.
  destruct (Z.ltb_spec (Z.of_nat (elements (filter (fun n => negb (n =? 0)) shape))) (2 ^ 63)); [|lia].
  cbn [andb]. rewrite map_map. rewrite <- (map_id shape) at 2. do 2 f_equal. apply map_ext. intros n. apply Nat2Z.id.
Qed.

Definition data_header (e : endianness) (shape : list nat) : header :=
  mk_header (PyString (match e with LittleEndian => "<f8" | BigEndian => ">f8" end)) false (map Z.of_nat shape).

Lemma ascii_string_literal s : forallb is_ascii_byte (bytes_of s) = true -> ascii_literal (PyString s).
Proof.
  intros Hs. constructor. apply Forall_forall. intros c Hc. apply is_ascii_byte_spec.
  apply (proj1 (forallb_forall _ _) Hs). assumption.
Qed.

Lemma write_data_ok e a f :
  write_data e a = Ok f ->
  exists head, header_to_bytes (data_header e (nd_shape (a_nd a))) = Ok head
    /\ f = head ++ flat_map (encode e 8) (nd_data (a_nd a)).
Proof.
  unfold write_data. intros H.
  assert (E : parse_literal (bytes_of match e with LittleEndian => "'<f8'" | BigEndian => "'>f8'" end)
              = Some (PyString match e with LittleEndian => "<f8" | BigEndian => ">f8" end)) by (destruct e; reflexivity).
  rewrite E in H. cbn [expect_some bind] in H.
  destruct (array_shape a) as [shape|?|?|?] eqn:Es; try discriminate. cbn [bind] in H.
  apply bind_ok in H as (head & Hh & H). apply bind_ok in H as (data & Hd & H).
  assert (shape = nd_shape (a_nd a)) as ->.
  { unfold array_shape, call in Es. destruct (a_kind a); try (inversion Es; reflexivity).
    destruct (a_callbacks a OpShape); try discriminate; [inversion Es; reflexivity|].
    destruct (status =? 0)%Z; [inversion Es; reflexivity|discriminate]. }
  assert (data = nd_data (a_nd a)) as ->.
  { unfold array_data in Hd. rewrite Es in Hd. cbn [bind] in Hd. unfold call, callback_error in Hd.
    destruct (a_kind a); [destruct (is_standard_layout _ _); [inversion Hd; reflexivity|discriminate]|discriminate|].
    destruct (a_callbacks a OpData); try discriminate; [inversion Hd; reflexivity|].
    destruct (status =? 0)%Z; [inversion Hd; reflexivity|discriminate]. }
  exists head. split; [exact Hh|]. inversion H; reflexivity.
Qed.

(* reading the elements which follow a header *)
Lemma read_data_header p e shape f rest :
  storable shape -> header_from_reader f = Ok (data_header e shape, rest) ->
  read_data p f =
    (let? (data, reader) := read_elements (decode e) 8 (Z.of_nat (elements shape)) rest in
     let? _ := check_for_extra_bytes reader in
     from_shape_vec (map Z.of_nat shape) data).
Proof.
  intros Hs Hh. unfold read_data. rewrite Hh.
  cbn [bind h_fortran_order data_header h_shape h_descriptor].
  unfold shape_size. rewrite shape_size_storable; [|destruct Hs as [H _]; fold (nonzero_volume shape) in H|lia].
  + rewrite Z.mul_1_l. cbn [bind]. unfold vec_zeros. destruct Hs as [_ Hs].
    destruct (Z.ltb_spec (Z.of_nat (elements shape) * 8) (2 ^ 63)); [|lia]. cbn [bind].
    destruct e; reflexivity.
  + change (2 ^ 63)%Z with 9223372036854775808%Z in H. change (2 ^ 64)%Z with 18446744073709551616%Z. lia.
Qed.

Lemma read_data_elements p e shape data rest head :
  storable shape -> length data = elements shape -> Forall bits64 data ->
  header_to_bytes (data_header e shape) = Ok head ->
  read_data p (head ++ rest) =
    (let? (data, reader) := read_elements (decode e) 8 (Z.of_nat (elements shape)) rest in
     let? _ := check_for_extra_bytes reader in
     from_shape_vec (map Z.of_nat shape) data).
Proof.
  intros Hs Hl Hb Hh. apply read_data_header; [assumption|].
  apply header_round_trip; [|apply storable_usize; assumption|assumption].
  apply ascii_string_literal. destruct e; reflexivity.
Qed.

Lemma data_round_trip p e a f :
  float_array a -> write_data e a = Ok f ->
  read_data p f = Ok (mk_nd (nd_shape (a_nd a)) (nd_data (a_nd a))).
Proof.
  intros (Hb & Hl & Hs) Hw. apply write_data_ok in Hw as (head & Hh & ->).
  rewrite (read_data_elements p e (nd_shape (a_nd a)) (nd_data (a_nd a))) by assumption.
  rewrite <- (app_nil_r (flat_map (encode e 8) (nd_data (a_nd a)))), <- Hl.
  rewrite read_elements_encoded; [|discriminate|].
  - cbn [bind check_for_extra_bytes]. apply from_shape_vec_ok; assumption.
  - intros x Hx. split; [apply encode_length|]. apply decode_encode_64. rewrite Forall_forall in Hb. apply Hb. assumption.
Qed.

Lemma bind_err {A B} (o : outcome A) (f : A -> outcome B) e : o = Err e -> bind o f = Err e.
Proof. intros ->. reflexivity. Qed.

Lemma data_cut p e a f k :
  float_array a -> write_data e a = Ok f -> k < length f -> exists err, read_data p (firstn k f) = Err err.
Proof.
  intros (Hb & Hl & Hs) Hw Hk. apply write_data_ok in Hw as (head & Hh & ->). rewrite firstn_app.
  destruct (Nat.lt_ge_cases k (length head)) as [Hc|Hc].
  - replace (k - length head) with 0 by lia. rewrite firstn_O, app_nil_r.
    destruct (header_cut _ _ k Hh Hc) as [err Herr]. exists err. unfold read_data. rewrite Herr. reflexivity.
  - rewrite firstn_all2 by assumption.
    rewrite (read_data_elements p e (nd_shape (a_nd a)) (nd_data (a_nd a))) by assumption.
    unfold read_elements. rewrite read_exact_short; [eexists; reflexivity|].
    rewrite app_length in Hk. rewrite firstn_length.
    assert (Hle : length (flat_map (encode e 8) (nd_data (a_nd a))) = length (nd_data (a_nd a)) * 8).
    { apply flat_map_length_const. intros x _. apply encode_length. }
    rewrite Hle in *. rewrite <- Hl. lia.
Qed.

Lemma data_extended p e a f extra :
  float_array a -> write_data e a = Ok f -> extra <> [] -> exists err, read_data p (f ++ extra) = Err err.
Proof.
  intros (Hb & Hl & Hs) Hw Hk. apply write_data_ok in Hw as (head & Hh & ->). rewrite <- app_assoc.
  rewrite (read_data_elements p e (nd_shape (a_nd a)) (nd_data (a_nd a))) by assumption.
  rewrite <- Hl. rewrite read_elements_encoded; [|discriminate|].
  - cbn [bind]. destruct extra; [contradiction|]. eexists. reflexivity.
  - intros x Hx. split; [apply encode_length|]. apply decode_encode_64. rewrite Forall_forall in Hb. apply Hb. assumption.
Qed.

(** * Labels files *)

Definition field (e : endianness) (name : string) : py_value :=
  PyTuple [PyString name; PyString (match e with LittleEndian => "<i4" | BigEndian => ">i4" end)].

Lemma identifier_chars s c : identifier s -> In c (bytes_of s) ->
  is_letter_code (nat_of_ascii c) \/ is_digit_code (nat_of_ascii c) \/ is_underscore_code (nat_of_ascii c).
Proof.
  intros (c0 & r & Hc & H0 & Hr) Hin. assert (Hn : In (nat_of_ascii c) (codes s)) by (apply in_map; assumption).
  rewrite Hc in Hn. destruct Hn as [<-|Hn]; [tauto|]. rewrite Forall_forall in Hr. apply Hr. assumption.
Qed.

Lemma identifier_not s c c' : identifier s -> In c (bytes_of s) ->
  nat_of_ascii c' < 48 \/ nat_of_ascii c' = 92 -> Ascii.eqb c c' = false.
Proof.
  intros Hs Hc Hn. apply Ascii.eqb_neq. intros ->.
  destruct (identifier_chars s c' Hs Hc) as [[H|H]|[H|H]]; try (unfold is_underscore_code in H; lia).
  unfold is_digit_code in H. lia.
Qed.

Lemma identifier_ascii s : identifier s -> forallb is_ascii_byte (bytes_of s) = true.
Proof.
  intros H. apply forallb_forall. intros c Hc. apply is_ascii_byte_spec.
  destruct (identifier_chars s c H Hc) as [[Hn|Hn]|[Hn|Hn]]; try lia.
  - unfold is_digit_code in Hn. lia.
  - unfold is_underscore_code in Hn. lia.
Qed.

Lemma escape_identifier s : identifier s -> flat_map escape (bytes_of s) = bytes_of s.
Proof.
  intros H.
  assert (He : forall c, In c (bytes_of s) -> escape c = [c]).
  { intros c Hc. unfold escape. rewrite !(identifier_not s c _ H Hc); [reflexivity|..]; vm_compute; lia. }
  clear H. induction (bytes_of s) as [|c l IH]; [reflexivity|]. cbn [flat_map]. rewrite He by (simpl; auto).
  rewrite IH by (intros; apply He; simpl; auto). reflexivity.
Qed.

Lemma write_field e name : identifier name ->
  write_ascii (field e name) = bytes_of "('" ++ bytes_of name ++ bytes_of "', '"
    ++ bytes_of (match e with LittleEndian => "<i4" | BigEndian => ">i4" end) ++ bytes_of "')".
Proof.
  intros H. unfold field. cbn [write_ascii map separated]. rewrite escape_identifier by assumption.
  rewrite <- !app_assoc. destruct e; reflexivity.
Qed.

Lemma labels_dtype_fields e names : Forall identifier names ->
  labels_dtype e names =
    "["%char :: (flat_map (fun v => write_ascii v ++ bytes_of ", ") (map (field e) names) ++ ["]"%char]).
Proof.
  intros H. unfold labels_dtype. change (bytes_of "[" ++ ?x) with ("["%char :: x). f_equal.
  change (bytes_of "]") with ["]"%char]. f_equal.
  induction H as [|name names Hn Hf IH]; [reflexivity|].
  cbn [flat_map map]. rewrite IH, write_field by assumption. rewrite <- !app_assoc. reflexivity.
Qed.

Lemma parse_dtype e names : Forall identifier names ->
  parse_literal (labels_dtype e names) = Some (PyList (map (field e) names)).
Proof.
  intros H. rewrite labels_dtype_fields by assumption. unfold parse_literal.
  set (items := flat_map (fun v => write_ascii v ++ bytes_of ", ") (map (field e) names)).
  cbn [parse_value length]. rewrite skip_head by reflexivity. simpl (Ascii.eqb _ _). cbn [orb].
  unfold items. rewrite (parse_items_trailing "]"%char).
  - cbn [skip_spaces]. reflexivity.
  - right; reflexivity.
  - apply Forall_forall. intros v _. apply parse_write.
  - rewrite app_length. cbn [length]. lia.
Qed.

Lemma check_fields_written e names : forall before eo, (eo = None \/ eo = Some e) -> names <> [] ->
  check_fields (map (field e) names) before eo = Ok (before ++ names, Some e).
Proof.
  induction names as [|name names IH]; intros before eo He Hne; [contradiction|].
  assert (Hi : forall l, check_fields (map (field e) names) l (Some e) = Ok (l ++ names, Some e)).
  { intros l. destruct names as [|n2 names]; [rewrite app_nil_r; reflexivity|]. apply IH; [auto|discriminate]. }
  cbn [map check_fields field].
  replace (before ++ name :: names) with ((before ++ [name]) ++ names) by (rewrite <- app_assoc; reflexivity).
  destruct He as [-> | ->]; destruct e; cbn; apply Hi.
Qed.

Definition labels_header (e : endianness) (l : Labels) : header :=
  mk_header (PyList (map (field e) (labels_names l))) false [Z.of_nat (length (rows l))].

Lemma write_labels_ok e l f :
  wf_labels l -> write_labels e l = Ok f ->
  labels_names l <> [] /\ exists head, header_to_bytes (labels_header e l) = Ok head
    /\ f = head ++ flat_map (encode e 4) (l_values l).
Proof.
  intros Hw. unfold write_labels. rewrite parse_dtype by (apply (wf_names_good l Hw)). cbn [expect_some bind]. intros H.
  apply bind_ok in H as (count & Hc & H). apply (labels_count_ok l count Hw) in Hc as [Hne ->]. split; [assumption|].
  apply bind_ok in H as (head & Hh & H). apply bind_ok in H as (entries & He & H).
  apply (labels_iter_ok l entries Hw) in He as [_ ->]. exists head. split; [exact Hh|].
  apply (f_equal (fun o => match o with Ok x => x | _ => [] end)) in H. cbv beta iota in H. rewrite <- H. f_equal.
  apply wf_labels_is_labels in Hw. destruct Hw as (_ & _ & _ & _ & Ev & _). rewrite Ev.
  generalize (rows l). intros rs. induction rs as [|r rs IH]; [reflexivity|]. cbn [flat_map concat]. rewrite IH.
  rewrite flat_map_app. reflexivity.
Qed.

Lemma labels_values_length l : wf_labels l -> length (l_values l) = length (rows l) * length (labels_names l).
Proof.
  intros Hw. pose proof (wf_rows l Hw) as [Hf _]. apply wf_labels_is_labels in Hw. destruct Hw as (_ & _ & _ & _ & Ev & _).
  rewrite Ev. generalize Hf. generalize (rows l). intros rs Hrs. induction Hrs as [|r rs Hr _ IH]; [reflexivity|].
  cbn [concat]. rewrite app_length, IH, Hr. simpl. lia.
Qed.

Lemma ascii_fields e names : Forall identifier names -> ascii_literal (PyList (map (field e) names)).
Proof.
  intros H. constructor. apply Forall_map. apply Forall_forall. intros name Hn. rewrite Forall_forall in H.
  constructor. constructor; [|constructor; [|constructor]].
  - apply ascii_string_literal, identifier_ascii, H. assumption.
  - apply ascii_string_literal. destruct e; reflexivity.
Qed.

Lemma labels_shape l : wf_labels l -> labels_names l <> [] -> labels_in_memory l ->
  usize_shape [Z.of_nat (length (rows l))].
Proof.
  intros Hw Hne [_ Hm]. pose proof (labels_values_length l Hw) as Hlen.
  assert (Hpos : 1 <= length (labels_names l)) by (destruct (labels_names l); [contradiction|simpl; lia]).
  assert (Hsmall : (Z.of_nat (length (rows l)) < 2 ^ 63)%Z).
  { rewrite Hlen in Hm. remember (2 ^ 63)%Z as big. nia. }
  constructor; [|constructor]. split; [lia|].
  change (2 ^ 63)%Z with 9223372036854775808%Z in *. change (2 ^ 64)%Z with 18446744073709551616%Z. lia.
Qed.

Lemma read_labels_header p e l f rest :
  wf_labels l -> labels_names l <> [] -> labels_in_memory l ->
  header_from_reader f = Ok (labels_header e l, rest) ->
  read_labels p f =
    (let? (data, reader) := read_elements (decode_i32 e) 4 (Z.of_nat (length (l_values l))) rest in
     let? _ := check_for_extra_bytes reader in
     labels_build (labels_names l) (chunks_exact (length (labels_names l)) data)).
Proof.
  intros Hw Hne [Hv Hm] Hh. unfold read_labels. rewrite Hh.
  pose proof (labels_values_length l Hw) as Hlen.
  assert (Hlt : (Z.of_nat (length (l_values l)) < 2 ^ 64)%Z).
  { change (2 ^ 63)%Z with 9223372036854775808%Z in *. change (2 ^ 64)%Z with 18446744073709551616%Z. lia. }
  cbn [bind h_fortran_order labels_header h_shape h_descriptor]. cbn [check_type_descriptor].
  rewrite (check_fields_written e (labels_names l) [] None (or_introl eq_refl) Hne). cbn [bind expect_some app].
  unfold mul_usize. rewrite <- Nat2Z.inj_mul, <- Hlen. rewrite (proj2 (Z.ltb_lt _ _) Hlt). cbn [bind].
  unfold vec_zeros. rewrite Z.mul_comm. rewrite (proj2 (Z.ltb_lt _ _) Hm). reflexivity.
Qed.

Lemma read_labels_elements p e l rest head :
  wf_labels l -> labels_names l <> [] -> labels_in_memory l -> header_to_bytes (labels_header e l) = Ok head ->
  read_labels p (head ++ rest) =
    (let? (data, reader) := read_elements (decode_i32 e) 4 (Z.of_nat (length (l_values l))) rest in
     let? _ := check_for_extra_bytes reader in
     labels_build (labels_names l) (chunks_exact (length (labels_names l)) data)).
Proof.
  intros Hw Hne Hm Hh. apply read_labels_header; [assumption..|].
  apply header_round_trip; [|apply labels_shape; assumption|assumption].
  apply ascii_fields. apply (wf_names_good l Hw).
Qed.

Lemma int32_round_trip e l : labels_in_memory l -> forall x, In x (l_values l) ->
  length (encode e 4 x) = 4 /\ decode_i32 e (encode e 4 x) = x.
Proof.
  intros [Hv _] x Hx. split; [apply encode_length|]. apply decode_encode_i32. rewrite Forall_forall in Hv. apply Hv. assumption.
Qed.

Lemma labels_rebuilt l : wf_labels l -> labels_names l <> [] ->
  exists l', labels_build (labels_names l) (chunks_exact (length (labels_names l)) (l_values l)) = Ok l'
    /\ same_labels l l' /\ wf_labels l'.
Proof.
  intros Hw Hne.
  pose proof (proj1 (wf_labels_is_labels l) Hw) as Hl. destruct (Hl) as (Hn & Hr & _ & _ & Ev & _).
  rewrite Ev, chunks_exact_concat; [|apply nonempty_length; assumption|apply Hr].
  exists (built (labels_names l) (rows l)). split; [apply labels_build_ok; auto|].
  pose proof (built_is_labels _ _ Hn Hr Hne) as Hb. split.
  - split; [symmetry; exact (is_labels_names _ _ _ Hb)|symmetry; exact (is_labels_rows _ _ _ Hb)].
  - exists (labels_names l), (rows l). assumption.
Qed.

Lemma labels_round_trip p e l f :
  wf_labels l -> labels_in_memory l -> write_labels e l = Ok f ->
  exists l', read_labels p f = Ok l' /\ same_labels l l' /\ wf_labels l'.
Proof.
  intros Hw Hm Hf. destruct (write_labels_ok e l f Hw Hf) as (Hne & head & Hh & ->).
  rewrite (read_labels_elements p e l) by assumption.
  rewrite <- (app_nil_r (flat_map (encode e 4) (l_values l))).
  rewrite read_elements_encoded; [|discriminate|apply int32_round_trip; assumption].
  cbn [bind check_for_extra_bytes]. apply labels_rebuilt; assumption.
Qed.

Lemma labels_cut p e l f k :
  wf_labels l -> labels_in_memory l -> write_labels e l = Ok f -> k < length f ->
  exists err, read_labels p (firstn k f) = Err err.
Proof.
  intros Hw Hm Hf Hk. destruct (write_labels_ok e l f Hw Hf) as (Hne & head & Hh & ->). rewrite firstn_app.
  destruct (Nat.lt_ge_cases k (length head)) as [Hc|Hc].
  - replace (k - length head) with 0 by lia. rewrite firstn_O, app_nil_r.
    destruct (header_cut _ _ k Hh Hc) as [err Herr]. exists err. unfold read_labels. rewrite Herr. reflexivity.
  - rewrite firstn_all2 by assumption. rewrite (read_labels_elements p e l) by assumption.
    unfold read_elements. rewrite read_exact_short; [eexists; reflexivity|].
    rewrite app_length in Hk. rewrite firstn_length.
    assert (Hle : length (flat_map (encode e 4) (l_values l)) = length (l_values l) * 4).
    { apply flat_map_length_const. intros x _. apply encode_length. }
    rewrite Hle in *. lia.
Qed.

Lemma labels_extended p e l f extra :
  wf_labels l -> labels_in_memory l -> write_labels e l = Ok f -> extra <> [] ->
  exists err, read_labels p (f ++ extra) = Err err.
Proof.
  intros Hw Hm Hf Hk. destruct (write_labels_ok e l f Hw Hf) as (Hne & head & Hh & ->). rewrite <- app_assoc.
  rewrite (read_labels_elements p e l) by assumption.
  rewrite read_elements_encoded; [|discriminate|apply int32_round_trip; assumption].
  cbn [bind]. destruct extra; [contradiction|]. eexists. reflexivity.
Qed.

(** * When writing succeeds *)

Lemma of_uint_acc_ge d : forall acc,
  (Z.pos acc * 10 ^ Z.of_nat (Decimal.nb_digits d) <= Z.pos (Pos.of_uint_acc d acc))%Z.
Proof.
  induction d as [|d IH|d IH|d IH|d IH|d IH|d IH|d IH|d IH|d IH|d IH]; intros acc;
    [simpl; lia|..]; cbn [Decimal.nb_digits Pos.of_uint_acc]; rewrite Nat2Z.inj_succ, Z.pow_succ_r by lia;
    (etransitivity; [|apply IH]); rewrite Z.mul_assoc; apply Z.mul_le_mono_nonneg_r; try lia; apply Z.pow_nonneg; lia.
Qed.

Lemma string_of_uint_length d : length (bytes_of (NilEmpty.string_of_uint d)) = Decimal.nb_digits d.
Proof. induction d; simpl; auto. Qed.

Lemma string_of_Z_length z : (0 <= z < 2 ^ 64)%Z -> length (bytes_of (string_of_Z z)) <= 20.
Proof.
  intros Hz. pose proof (DecimalZ.of_to z) as Hof. unfold string_of_Z. destruct (digits_of_Z z) as (d & E & Hd & Hn).
  assert (Hb : (0 <= Z.of_uint d < 10 ^ 20)%Z -> Decimal.nb_digits d <= 20).
  { intros [_ Hlt]. destruct Hd as [->|Hd]; [simpl; lia|].
    assert (Hbig : forall x d', (Z.pos (Pos.of_uint_acc d' x) < 10 ^ 20)%Z -> S (Decimal.nb_digits d') <= 20).
    { intros x d' Hx. pose proof (of_uint_acc_ge d' x) as Hge.
      destruct (le_gt_dec (S (Decimal.nb_digits d')) 20) as [|Hgt]; [assumption|exfalso].
      assert (10 ^ 20 <= 10 ^ Z.of_nat (Decimal.nb_digits d'))%Z by (apply Z.pow_le_mono_r; lia).
      remember (10 ^ Z.of_nat (Decimal.nb_digits d'))%Z as y. remember (10 ^ 20)%Z as w. nia. }
    destruct d as [|d|d|d|d|d|d|d|d|d|d]; [contradiction|exfalso; exact (DecimalFacts.nzhead_nonzero _ _ Hd)|..];
      cbn [Decimal.nb_digits]; eapply Hbig; exact Hlt. }
  assert (Hpow : (2 ^ 64 < 10 ^ 20)%Z) by reflexivity.
  destruct E as [E|E]; rewrite E in Hof |- *; cbn [NilEmpty.string_of_int].
  - rewrite string_of_uint_length. apply Hb. simpl in Hof. lia.
  - exfalso. simpl in Hof. 
    assert (Hnn : (0 <= Z.of_uint d)%Z) by (unfold Z.of_uint; destruct (Pos.of_uint d); simpl; lia).
    assert (Ez : z = 0%Z) by lia. rewrite Ez in E. discriminate E.
Qed.

Lemma header_to_bytes_succeeds h :
  (Z.of_nat (length (write_ascii (header_to_py_value h))) < 2 ^ 32 - 65)%Z -> exists f, header_to_bytes h = Ok f.
Proof.
  intros H. unfold header_to_bytes. destruct (header_with_version V1_0 _) as [o|]; [eauto|].
  destruct (header_with_version V2_0 _) as [o|] eqn:E; [eauto|].
  apply header_with_version_none in E. pose proof (header_length_bounds V2_0 (length (write_ascii (header_to_py_value h)))) as [Hb _].
  change (256 ^ Z.of_nat (header_len_num_bytes V2_0))%Z with 4294967296%Z in E.
  change (2 ^ 32)%Z with 4294967296%Z in H. lia.
Qed.

Lemma header_text h :
  write_ascii (header_to_py_value h) =
    bytes_of "{'descr': " ++ write_ascii (h_descriptor h) ++ bytes_of ", 'fortran_order': "
    ++ write_ascii (PyBoolean (h_fortran_order h)) ++ bytes_of ", 'shape': "
    ++ write_ascii (PyTuple (map PyInteger (h_shape h))) ++ bytes_of "}".
Proof.
  unfold header_to_py_value. rewrite write_dict. cbn [map]. rewrite !separated_cons. unfold write_entry. cbn [fst snd separated].
  change (write_ascii (PyString "descr")) with (bytes_of "'descr'").
  change (write_ascii (PyString "fortran_order")) with (bytes_of "'fortran_order'").
  change (write_ascii (PyString "shape")) with (bytes_of "'shape'").
  rewrite <- !app_assoc. reflexivity.
Qed.

Lemma separated_length l : length (separated l) <= fold_right (fun b n => length b + 2 + n) 0 l.
Proof.
  induction l as [|x l IH]; [simpl; lia|]. destruct l as [|y l]; [simpl; lia|].
  rewrite separated_cons, !app_length. change (length (bytes_of ", ")) with 2.
  cbn [fold_right] in *. lia.
Qed.

Lemma write_shape_length shape :
  usize_shape shape -> length (write_ascii (PyTuple (map PyInteger shape))) <= 3 + 22 * length shape.
Proof.
  intros H. destruct shape as [|n [|m shape]]; [simpl; lia| |].
  - inversion H; subst. cbn [map write_ascii]. rewrite !app_length. pose proof (string_of_Z_length n H2).
    change (length (bytes_of "(")) with 1. change (length (bytes_of ",)")) with 2. cbn [length]. lia.
  - set (s := n :: m :: shape) in *. 
    replace (write_ascii (PyTuple (map PyInteger s))) with (bytes_of "(" ++ separated (map write_ascii (map PyInteger s)) ++ bytes_of ")") by reflexivity.
    rewrite !app_length. change (length (bytes_of "(")) with 1. change (length (bytes_of ")")) with 1.
    assert (Hs : fold_right (fun b n => length b + 2 + n) 0 (map write_ascii (map PyInteger s)) <= 22 * length s).
    { clearbody s. induction H as [|x l Hx _ IH]; [simpl; lia|]. cbn [map fold_right length write_ascii].
      pose proof (string_of_Z_length x Hx). lia. }
    pose proof (separated_length (map write_ascii (map PyInteger s))). lia.
Qed.

Lemma data_header_succeeds e shape :
  storable shape -> (Z.of_nat (length shape) < 2 ^ 20)%Z -> exists f, header_to_bytes (data_header e shape) = Ok f.
Proof.
  intros Hs Hr. apply header_to_bytes_succeeds. rewrite header_text. cbn [data_header h_descriptor h_fortran_order h_shape].
  rewrite !app_length. pose proof (write_shape_length _ (storable_usize shape Hs)) as Hw. rewrite map_length in Hw.
  set (w := length (write_ascii (PyTuple (map PyInteger (map Z.of_nat shape))))) in *.
  replace (length (write_ascii (PyString match e with LittleEndian => "<f8" | BigEndian => ">f8" end))) with 5 by (destruct e; reflexivity).
  change (length (bytes_of "{'descr': ")) with 10. change (length (bytes_of ", 'fortran_order': ")) with 19.
  change (length (write_ascii (PyBoolean false))) with 5. change (length (bytes_of ", 'shape': ")) with 11.
  change (length (bytes_of "}")) with 1. change (2 ^ 20)%Z with 1048576%Z in Hr. change (2 ^ 32)%Z with 4294967296%Z. lia.
Qed.

Lemma shape_read a shape : array_shape a = Ok shape -> shape = nd_shape (a_nd a).
Proof.
  intros Es. unfold array_shape, call in Es. destruct (a_kind a); try (inversion Es; reflexivity).
  destruct (a_callbacks a OpShape); try discriminate; [inversion Es; reflexivity|].
  destruct (status =? 0)%Z; [inversion Es; reflexivity|discriminate].
Qed.

Lemma rust_readable nd : readable (rust_ndarray nd).
Proof.
  exists (nd_data nd). unfold array_data. cbn [array_shape call a_kind rust_ndarray a_nd a_strides bind].
  rewrite default_standard. reflexivity.
Qed.

Lemma data_write_succeeds e a :
  float_array a -> readable a -> (Z.of_nat (length (nd_shape (a_nd a))) < 2 ^ 20)%Z ->
  exists f, write_data e a = Ok f.
Proof.
  intros (_ & _ & Hs) [data Hd] Hr. destruct (data_header_succeeds e (nd_shape (a_nd a)) Hs Hr) as [head Hh].
  exists (head ++ flat_map (encode e 8) data). unfold write_data.
  assert (E : parse_literal (bytes_of match e with LittleEndian => "'<f8'" | BigEndian => "'>f8'" end)
              = Some (PyString match e with LittleEndian => "<f8" | BigEndian => ">f8" end)) by (destruct e; reflexivity).
  rewrite E. cbn [expect_some bind]. destruct (array_shape a) as [shape| | |] eqn:Es.
  - rewrite (shape_read _ _ Es). cbn [bind]. unfold data_header in Hh. rewrite Hh. cbn [bind]. rewrite Hd. reflexivity.
  - exfalso. unfold array_data in Hd. rewrite Es in Hd. discriminate Hd.
  - exfalso. unfold array_data in Hd. rewrite Es in Hd. discriminate Hd.
  - exfalso. unfold array_data in Hd. rewrite Es in Hd. discriminate Hd.
Qed.

Lemma bytes_of_length s : length (bytes_of s) = String.length s.
Proof. induction s as [|c s IH]; [reflexivity|]. simpl. f_equal. exact IH. Qed.

Lemma labels_header_succeeds e l :
  wf_labels l -> labels_names l <> [] -> labels_in_memory l ->
  (Z.of_nat (14 * length (labels_names l) + text_size (labels_names l)) < 2 ^ 31)%Z ->
  exists f, header_to_bytes (labels_header e l) = Ok f.
Proof.
  intros Hw Hne [_ Hm] Ht. apply header_to_bytes_succeeds. rewrite header_text. cbn [labels_header h_descriptor h_fortran_order h_shape].
  assert (Hsmall : usize_shape [Z.of_nat (length (rows l))]).
  { constructor; [|constructor]. split; [lia|]. rewrite (labels_values_length l Hw) in Hm.
    assert (1 <= length (labels_names l)) by (destruct (labels_names l); [contradiction|simpl; lia]).
    change (2 ^ 63)%Z with 9223372036854775808%Z in *. change (2 ^ 64)%Z with 18446744073709551616%Z. nia. }
  pose proof (write_shape_length _ Hsmall) as Hs. cbn [length] in Hs. rewrite !app_length.
  set (w := length (write_ascii (PyTuple (map PyInteger _)))) in *.
  assert (Hd : length (write_ascii (PyList (map (field e) (labels_names l)))) <= 2 + (14 * length (labels_names l) + text_size (labels_names l))).
  { replace (write_ascii (PyList (map (field e) (labels_names l))))
      with (bytes_of "[" ++ separated (map write_ascii (map (field e) (labels_names l))) ++ bytes_of "]") by reflexivity.
    rewrite !app_length. change (length (bytes_of "[")) with 1. change (length (bytes_of "]")) with 1.
    pose proof (separated_length (map write_ascii (map (field e) (labels_names l)))) as Hsep.
    assert (Hfold : fold_right (fun b n => length b + 2 + n) 0 (map write_ascii (map (field e) (labels_names l)))
              <= 14 * length (labels_names l) + text_size (labels_names l)).
    { pose proof (wf_names_good l Hw) as [Hg _]. clear - Hg. induction Hg as [|name names Hn _ IH]; [simpl; lia|].
      cbn [map fold_right length text_size]. rewrite write_field by assumption. rewrite !app_length, (bytes_of_length name).
      change (length (bytes_of "('")) with 2. change (length (bytes_of "', '")) with 4. change (length (bytes_of "')")) with 2.
      replace (length (bytes_of match e with LittleEndian => "<i4" | BigEndian => ">i4" end)) with 3 by (destruct e; reflexivity).
      fold (text_size names). lia. }
    lia. }
  change (length (bytes_of "{'descr': ")) with 10. change (length (bytes_of ", 'fortran_order': ")) with 19.
  change (length (write_ascii (PyBoolean false))) with 5. change (length (bytes_of ", 'shape': ")) with 11.
  change (length (bytes_of "}")) with 1. change (2 ^ 31)%Z with 2147483648%Z in Ht. change (2 ^ 32)%Z with 4294967296%Z. lia.
Qed.

Lemma labels_write_succeeds e l :
  wf_labels l -> labels_names l <> [] -> labels_in_memory l ->
  (Z.of_nat (14 * length (labels_names l) + text_size (labels_names l)) < 2 ^ 31)%Z ->
  exists f, write_labels e l = Ok f.
Proof.
  intros Hw Hne Hm Ht. destruct (labels_header_succeeds e l Hw Hne Hm Ht) as [head Hh].
  unfold write_labels. rewrite parse_dtype by (apply (wf_names_good l Hw)). cbn [expect_some bind].
  rewrite (proj2 (labels_count_ok l _ Hw) (conj Hne eq_refl)). cbn [bind]. unfold labels_header in Hh. rewrite Hh. cbn [bind].
  rewrite (proj2 (labels_iter_ok l _ Hw) (conj Hne eq_refl)). cbn [bind]. eauto.
Qed.

(** * Layout of the header *)

Lemma little_endian_low n : forall z, (0 <= z < 256 ^ Z.of_nat n)%Z -> little_endian (low_bytes n z) z.
Proof.
  induction n as [|n IH]; intros z Hz; [simpl in *; replace z with 0%Z by lia; constructor|].
  rewrite Nat2Z.inj_succ, Z.pow_succ_r in Hz by lia. cbn [low_bytes].
  rewrite (Z.div_mod z 256) at 3 by lia. rewrite Z.add_comm.
  replace (z mod 256)%Z with (Z.of_nat (nat_of_ascii (byte_of z))).
  - constructor. apply IH. split; [apply Z.div_pos; lia|]. apply Z.div_lt_upper_bound; lia.
  - rewrite <- byte_value_of. unfold byte_value, nat_of_ascii. rewrite N_nat_Z. reflexivity.
Qed.

Lemma header_layout h f :
  header_to_bytes h = Ok f ->
  exists major length_field text padding,
    f = ascii_of_nat 147 :: bytes_of "NUMPY" ++ [ascii_of_nat major; ascii_of_nat 0] ++ length_field
        ++ (text ++ repeat space padding ++ [newline])
    /\ text = write_ascii (header_to_py_value h)
    /\ length f mod 64 = 0
    /\ little_endian length_field (Z.of_nat (length (text ++ repeat space padding ++ [newline])))
    /\ 1 <= padding <= 64
    /\ ((major = 1 /\ length length_field = 2 /\ (Z.of_nat (length text) + 11 < 65536)%Z)
        \/ (major = 2 /\ length length_field = 4 /\ (65536 <= Z.of_nat (length text) + 11)%Z)).
Proof.
  intros Hf. destruct (header_to_bytes_ok h f Hf) as (v & Hv & Hw & Hcase).
  apply header_with_version_some in Hw as (Hl & k & Hk & Hk2 & ->).
  set (d := write_ascii (header_to_py_value h)) in *. destruct (header_length_bounds v (length d)) as [Hb Hmod].
  exists (match v with V1_0 => 1 | V2_0 => 2 | V3_0 => 3 end),
    (encode LittleEndian (header_len_num_bytes v) (header_length v (length d))), d, k.
  assert (Hbuf : Z.of_nat (length (d ++ repeat space k ++ [newline])) = header_length v (length d)).
  { rewrite !app_length, repeat_length. cbn [length]. lia. }
  split; [destruct v; reflexivity|]. split; [reflexivity|]. split; [|split; [|split; [assumption|]]].
  - rewrite !app_length, encode_length. rewrite !app_length in Hbuf. change (length magic_string) with 6.
    assert (Hvb : length (version_bytes v) = 2) by (destruct v; reflexivity). rewrite Hvb.
    apply Nat2Z.inj. rewrite Nat2Z.inj_mod. change (Z.of_nat 64) with 64%Z. change (Z.of_nat 0) with 0%Z. rewrite <- Hmod. f_equal. lia.
  - rewrite Hbuf. cbn [encode]. apply little_endian_low. lia.
  - rewrite encode_length. destruct Hcase as [->|[-> Hn]].
    + left. split; [reflexivity|]. split; [reflexivity|]. unfold header_length in Hl. cbn [header_len_num_bytes] in Hl.
      change (256 ^ Z.of_nat 2)%Z with 65536%Z in Hl. change (8 + Z.of_nat 2)%Z with 10%Z in Hl.
      pose proof (Z.div_mod (10 + Z.of_nat (length d) + 1) 64 ltac:(lia)) as E1.
      pose proof (Z.mod_pos_bound (10 + Z.of_nat (length d) + 1) 64 ltac:(lia)) as E2. lia.
    + right. split; [reflexivity|]. split; [reflexivity|]. apply header_with_version_none in Hn. unfold header_length in Hn.
      cbn [header_len_num_bytes] in Hn. change (256 ^ Z.of_nat 2)%Z with 65536%Z in Hn. change (8 + Z.of_nat 2)%Z with 10%Z in Hn.
      pose proof (Z.div_mod (10 + Z.of_nat (length d) + 1) 64 ltac:(lia)) as E1.
      pose proof (Z.mod_pos_bound (10 + Z.of_nat (length d) + 1) 64 ltac:(lia)) as E2. lia.
Qed.
