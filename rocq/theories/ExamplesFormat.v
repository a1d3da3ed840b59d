(* A file written by another program, used to show that the hypotheses of the
   property theorems can be met *)
From Coq Require Import Permutation.
From Verif Require Import Base BaseFacts Labels Array Block Tensor Npy Io Spec SpecTensor SpecIo SpecFormat
  LabelsFacts TensorFacts NpyFacts PathFacts IoFacts FormatFacts Examples ExamplesIo.
Local Open Scope string_scope.
Local Open Scope list_scope.
Local Open Scope nat_scope.

(* two kinds of quotes, the entries in another order, blanks at other places, a
   trailing comma *)
Definition ex_other_text : bytes := bytes_of
  "{""shape"": (3 ,), 'fortran_order':False, 'descr': [('center', '>i4'),('spin', '>i4'), ('kind', '>i4'), ], }".

Definition ex_other_field (name : string) : py_value := PyTuple [PyString name; PyString ">i4"].

Definition ex_other_entries : list (py_value * py_value) :=
  [(PyString "shape", PyTuple [PyInteger 3]); (PyString "fortran_order", PyBoolean false);
   (PyString "descr", PyList [ex_other_field "center"; ex_other_field "spin"; ex_other_field "kind"])].

Lemma plain_check q s :
  forallb (fun c => (nat_of_ascii c <? 128) && negb (Ascii.eqb c q)
                    && negb (existsb (Nat.eqb (nat_of_ascii c)) [10; 13; 92]))%bool (list_ascii_of_string s) = true -> plain q s.
Proof.
  intros H. rewrite forallb_forall in H. apply Forall_forall. intros c Hc. specialize (H c Hc).
  apply andb_prop in H as [H H3]. apply andb_prop in H as [H1 H2].
  split; [apply Nat.ltb_lt; assumption|]. split.
  - intros ->. rewrite Ascii.eqb_refl in H2. discriminate.
  - intros Hin. assert (E : existsb (Nat.eqb (nat_of_ascii c)) [10; 13; 92] = true)
      by (apply existsb_exists; exists (nat_of_ascii c); split; [assumption|apply Nat.eqb_refl]).
    rewrite E in H3. discriminate.
Qed.

Lemma single_quotes s : plain "'"%char s -> spelling (PyString s) ("'"%char :: bytes_of s ++ ["'"%char]).
Proof. intros H. apply sp_string; [left; reflexivity|assumption]. Qed.
Lemma double_quotes s : plain """"%char s -> spelling (PyString s) (""""%char :: bytes_of s ++ [""""%char]).
Proof. intros H. apply sp_string; [right; reflexivity|assumption]. Qed.

Lemma ex_other_field_text name : In name ["center"; "spin"; "kind"] ->
  spelling (ex_other_field name) (bytes_of ("('" +++ name +++ "', '>i4')")).
Proof.
  intros H.
  assert (Hs : spelling (PyString ">i4") (bytes_of "'>i4'"))
    by exact (single_quotes ">i4" (plain_check "'"%char ">i4" eq_refl)).
  assert (Hn : spelling (PyString name) (bytes_of ("'" +++ name +++ "'"))).
  { destruct H as [<-|[<-|[<-|[]]]]; [exact (single_quotes "center" (plain_check "'"%char "center" eq_refl))
    |exact (single_quotes "spin" (plain_check "'"%char "spin" eq_refl))|exact (single_quotes "kind" (plain_check "'"%char "kind" eq_refl))]. }
  assert (E : bytes_of ("('" +++ name +++ "', '>i4')")
              = "("%char :: ([] ++ bytes_of ("'" +++ name +++ "'") ++ [] ++ ","%char :: ([space] ++ bytes_of "'>i4'" ++ [])) ++ [")"%char]).
  { destruct H as [<-|[<-|[<-|[]]]]; reflexivity. }
  rewrite E. apply (sp_tuple false); [|discriminate].
  apply items_more; [apply blank_nil|exact Hn|apply blank_nil|].
  apply items_last; [apply blank_space|exact Hs|apply blank_nil].
Qed.

Lemma ex_other_spelling : spelling (PyDict ex_other_entries) ex_other_text.
Proof.
  pose proof (ex_other_field_text "center" ltac:(cbn; tauto)) as F1.
  pose proof (ex_other_field_text "spin" ltac:(cbn; tauto)) as F2.
  pose proof (ex_other_field_text "kind" ltac:(cbn; tauto)) as F3.
  assert (Hl : spelling (PyList [ex_other_field "center"; ex_other_field "spin"; ex_other_field "kind"])
                 (bytes_of "[('center', '>i4'),('spin', '>i4'), ('kind', '>i4'), ]")).
  { apply (sp_list true _ (bytes_of "('center', '>i4'),('spin', '>i4'), ('kind', '>i4'), ")).
    apply (items_more [] _ (bytes_of "('center', '>i4')") [] true _ (bytes_of "('spin', '>i4'), ('kind', '>i4'), ")
             blank_nil F1 blank_nil).
    apply (items_more [] _ (bytes_of "('spin', '>i4')") [] true _ (bytes_of " ('kind', '>i4'), ") blank_nil F2 blank_nil).
    apply (items_more [space] _ (bytes_of "('kind', '>i4')") [] true _ [space] blank_space F3 blank_nil).
    apply items_none, blank_space. }
  assert (Ht : spelling (PyTuple [PyInteger 3]) (bytes_of "(3 ,)")).
  { apply (sp_tuple true _ (bytes_of "3 ,")); [|reflexivity].
    apply (items_more [] _ ["3"%char] [space] true [] [] blank_nil); [|exact blank_space|apply items_none, blank_nil].
    apply sp_integer. split; [discriminate|]. split; [|split; [|reflexivity]].
    - apply Forall_cons; [vm_compute; lia|constructor].
    - intros r E. discriminate E. }
  apply (sp_dict _ (bytes_of
    """shape"": (3 ,), 'fortran_order':False, 'descr': [('center', '>i4'),('spin', '>i4'), ('kind', '>i4'), ], ")).
  apply (entries_more [] _ (bytes_of """shape""") [] [space] _ (bytes_of "(3 ,)") [] _
    (bytes_of " 'fortran_order':False, 'descr': [('center', '>i4'),('spin', '>i4'), ('kind', '>i4'), ], ") blank_nil);
    [exact (double_quotes "shape" (plain_check """"%char "shape" eq_refl))|exact blank_nil|exact blank_space|exact Ht|exact blank_nil|].
  apply (entries_more [space] _ (bytes_of "'fortran_order'") [] [] _ (bytes_of "False") [] _
    (bytes_of " 'descr': [('center', '>i4'),('spin', '>i4'), ('kind', '>i4'), ], ") blank_space);
    [exact (single_quotes "fortran_order" (plain_check "'"%char "fortran_order" eq_refl))|exact blank_nil|exact blank_nil|exact sp_false|exact blank_nil|].
  apply (entries_more [space] _ (bytes_of "'descr'") [] [space] _
    (bytes_of "[('center', '>i4'),('spin', '>i4'), ('kind', '>i4'), ]") [] [] [space] blank_space);
    [exact (single_quotes "descr" (plain_check "'"%char "descr" eq_refl))|exact blank_nil|exact blank_space|exact Hl|exact blank_nil|].
  apply entries_none, blank_space.
Qed.

(* version 3.0, most significant bytes first *)
Definition ex_other_keys : bytes :=
  ascii_of_nat 147 :: bytes_of "NUMPY" ++ [ascii_of_nat 3; ascii_of_nat 0]
  ++ map ascii_of_nat [length ex_other_text + 1; 0; 0; 0] ++ ex_other_text ++ [ascii_of_nat 10]
  ++ map ascii_of_nat [0; 0; 0; 1;  0; 0; 0; 0;  0; 0; 0; 4;
                       0; 0; 0; 1;  0; 0; 0; 1;  0; 0; 0; 4;
                       0; 0; 0; 8;  0; 0; 0; 0;  0; 0; 0; 4].

Lemma ex_other_keys_file : labels_file ex_keys ex_other_keys.
Proof.
  exists BigEndian, (chunks_exact 4 (map ascii_of_nat [0; 0; 0; 1;  0; 0; 0; 0;  0; 0; 0; 4;
                       0; 0; 0; 1;  0; 0; 0; 1;  0; 0; 0; 4;
                       0; 0; 0; 8;  0; 0; 0; 0;  0; 0; 0; 4])).
  split.
  - exists 3, (map ascii_of_nat [length ex_other_text + 1; 0; 0; 0]), ex_other_entries, ex_other_text, [].
    split; [vm_compute; reflexivity|]. split; [right; split; [right; reflexivity|reflexivity]|].
    split.
    { assert (E : Z.of_nat (length (ex_other_text ++ [] ++ [ascii_of_nat 10]))
                  = low_value (map ascii_of_nat [length ex_other_text + 1; 0; 0; 0])) by (vm_compute; reflexivity).
      rewrite E. generalize (map ascii_of_nat [length ex_other_text + 1; 0; 0; 0]). intros b.
      induction b as [|c b IH]; [apply le_nil|]. cbn [low_value]. unfold byte_value.
      rewrite <- N_nat_Z. apply (le_cons c b _ IH). }
    split; [|split; [exact ex_other_spelling|exact blank_nil]].
    change (labels_names ex_keys) with ["center"; "spin"; "kind"]. change (length (rows ex_keys)) with 3.
    eapply Permutation_trans; [apply perm_swap|]. eapply Permutation_trans; [apply perm_skip, perm_swap|]. apply perm_swap.
  - assert (H : Forall2 (fun b z => length b = 4 /\ low_value (rev b) = z)
      (chunks_exact 4 (map ascii_of_nat [0; 0; 0; 1;  0; 0; 0; 0;  0; 0; 0; 4;
                       0; 0; 0; 1;  0; 0; 0; 1;  0; 0; 0; 4;
                       0; 0; 0; 8;  0; 0; 0; 0;  0; 0; 0; 4]))
      (map (fun z => (z mod 2 ^ 32)%Z) (concat (rows ex_keys)))).
    { vm_compute. repeat (apply Forall2_cons; [split; reflexivity|]). apply Forall2_nil. }
    eapply Forall2_impl; [|exact H]. intros b z [Hl <-]. split; [exact Hl|].
    clear. generalize (rev b). intros r.
    induction r as [|c r IH]; [apply le_nil|]. cbn [low_value]. unfold byte_value.
    rewrite <- N_nat_Z. apply (le_cons c r _ IH).
Qed.

(* the files in the opposite order, and this file for the keys *)
Definition ex_other_archive : archive := rev (tl ex_archive) ++ [("keys.npy", ex_other_keys)].

Lemma replace_conforming t f a path content g :
  conforming t ((path, f) :: a) -> documented t path content -> content g ->
  (forall content', documented t path content' -> content' = content) ->
  conforming t (rev a ++ [(path, g)]).
Proof.
  intros (Hnd & H1 & H2) Hd Hg Hu. cbn [map fst] in Hnd. inversion Hnd as [|? ? Hn Hnd']; subst.
  split; [|split].
  - rewrite map_app, map_rev. cbn [map fst]. apply NoDup_snoc. split; [apply NoDup_rev; assumption|].
    rewrite <- in_rev. assumption.
  - intros path' f' Hin. apply in_app_iff in Hin as [Hin|[E|[]]].
    + apply (H1 path' f'). right. apply in_rev. assumption.
    + inversion E; subst. exists content. assumption.
  - intros path' content' Hd'. destruct (H2 path' content' Hd') as (f' & [E|Hin] & Hc).
    + inversion E; subst. exists g. split; [apply in_or_app; right; left; reflexivity|]. rewrite (Hu content' Hd'). assumption.
    + exists f'. split; [|assumption]. apply in_or_app. left. rewrite <- in_rev. assumption.
Qed.

Lemma documented_keys t content : documented t "keys.npy" content -> content = labels_file (tm_keys t).
Proof.
  intros H. apply documented_parts in H as (q & c & Hq & E & ->).
  assert (Eq : q = KeysPart) by (apply path_of_inj; rewrite <- E; reflexivity). subst q.
  destruct Hq as [E'|Hq]; [inversion E'; subst; reflexivity|]. exfalso.
  assert (Hin : In KeysPart (map fst (blocks_parts 0 (tm_blocks t)))) by (apply in_map_iff; exists (KeysPart, c); auto).
  apply blocks_parts_in in Hin as (j & E' & _). discriminate E'.
Qed.

Lemma ex_tensor_keys : tm_keys ex_tensor = ex_keys.
Proof. vm_compute. reflexivity. Qed.

Lemma ex_archive_conforming : conforming ex_tensor ex_archive.
Proof. apply (save_conforming LittleEndian); [exact ex_tensor_wf|exact ex_tensor_in_memory|exact ex_archive_ok]. Qed.

Lemma ex_archive_head : exists f, ex_archive = ("keys.npy", f) :: tl ex_archive.
Proof. eexists. vm_compute. reflexivity. Qed.

Lemma ex_other_conforming : conforming ex_tensor ex_other_archive.
Proof.
  destruct ex_archive_head as [f E]. pose proof ex_archive_conforming as H. unfold ex_other_archive.
  revert E H. generalize ex_archive. intros a E H. rewrite E in H.
  apply (replace_conforming ex_tensor f (tl a) "keys.npy" (labels_file (tm_keys ex_tensor)) ex_other_keys H).
  - apply doc_keys.
  - rewrite ex_tensor_keys. exact ex_other_keys_file.
  - apply documented_keys.
Qed.
