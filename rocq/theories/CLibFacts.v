(* Facts about CLib.v *)
From Verif Require Import Base Npy PyIo SpecIo NpyFacts FormatFacts Declarations CLib SpecCLib.
Local Open Scope string_scope.
Local Open Scope list_scope.
Local Open Scope nat_scope.

(** * DLL *)

Lemma value_little_endian b : little_endian b (low_value b).
Proof.
  induction b as [|c b IH]; [constructor|]. cbn [low_value].
  replace (byte_value c) with (Z.of_nat (nat_of_ascii c)); [constructor; exact IH|].
  unfold byte_value, nat_of_ascii. apply N_nat_Z.
Qed.

Lemma read_at_full position count content : read_at position count content = firstn count (skipn (Z.to_nat position) content).
Proof.
  unfold read_at. destruct (Z.leb_spec (Z.of_nat (length content)) position) as [H|H]; [|reflexivity].
  rewrite skipn_all2 by lia. rewrite firstn_nil. reflexivity.
Qed.

Lemma unpack_at content position count z :
  0 < count -> unpack count (read_at (Z.of_nat position) count content) = Ok z <-> stored_at content position count z.
Proof.
  intros Hc. rewrite read_at_full, Nat2Z.id. unfold unpack. split.
  - destruct (Nat.eqb_spec (length (firstn count (skipn position content))) count) as [E|E]; [|discriminate]. intros H. injection H as <-.
    exists (firstn position content), (firstn count (skipn position content)), (skipn count (skipn position content)).
    rewrite !firstn_skipn. split; [reflexivity|]. destruct (Nat.le_gt_cases position (length content)) as [Hp|Hp].
    + split; [apply firstn_length_le; exact Hp|]. split; [exact E|apply value_little_endian].
    + exfalso. revert E. rewrite skipn_all2 by lia. rewrite firstn_nil. cbn. lia.
  - intros (before & middle & after & -> & <- & <- & H). rewrite skipn_app, Nat.sub_diag, skipn_all, app_nil_l. cbn [skipn].
    rewrite firstn_app, Nat.sub_diag, firstn_all, firstn_O, app_nil_r, Nat.eqb_refl. rewrite (little_endian_value _ _ H). reflexivity.
Qed.

Lemma check_good m d path :
  check_dll m d path = Ok tt <-> exists content, di_content d path = Some content /\ good_dll m content.
Proof.
  unfold check_dll. split.
  - destruct (di_content d path) as [content|]; [|discriminate]. intros H. exists content. split; [reflexivity|].
    destruct (String.eqb_spec (text_of (read_at 0 2 content)) "MZ") as [E|E]; [|discriminate].
    destruct (unpack 4 (read_at 60 4 content)) as [offset| | |] eqn:E1; cbn [bind] in H; try discriminate.
    destruct (unpack 2 (read_at (offset + 4) 2 content)) as [number| | |] eqn:E2; cbn [bind] in H; try discriminate.
    split.
    { rewrite read_at_full in E. destruct content as [|c1 [|c2 rest]]; cbn in E; try discriminate. injection E as -> ->. eauto. }
    assert (Hoff : exists n, offset = Z.of_nat n).
    { unfold unpack in E1. destruct (_ =? 4); [|discriminate]. injection E1 as <-. exists (Z.to_nat (low_value (read_at 60 4 content))).
      rewrite Z2Nat.id; [reflexivity|]. apply low_value_range. }
    destruct Hoff as [n ->]. exists n, number. split; [apply (unpack_at content 60 4); [lia|exact E1]|]. split.
    { apply unpack_at; [lia|]. rewrite Nat2Z.inj_add. exact E2. }
    destruct (String.eqb_spec (ma_architecture m) "32bit") as [Ea|_].
    { left. split; [exact Ea|]. destruct (Z.eqb_spec number 332); [assumption|discriminate]. }
    destruct (String.eqb_spec (ma_architecture m) "64bit") as [Ea|_]; [|discriminate].
    right. split; [exact Ea|]. destruct (Z.eqb_spec number 34404); [assumption|discriminate].
  - intros (content & -> & (rest & Hmz) & offset & number & H1 & H2 & Ha).
    assert (E : text_of (read_at 0 2 content) = "MZ") by (rewrite read_at_full, Hmz; reflexivity). rewrite E, String.eqb_refl.
    apply (unpack_at content 60 4) in H1; [|lia]. apply unpack_at in H2; [|lia]. rewrite Nat2Z.inj_add in H2.
    change (Z.of_nat 60) with 60%Z in H1. rewrite H1. cbn [bind]. change (Z.of_nat 4) with 4%Z in H2. rewrite H2. cbn [bind].
    destruct Ha as [[-> ->]|[-> ->]]; reflexivity.
Qed.

(** * Paths *)

Lemma prefix_spec a : forall s, prefix a s = true <-> exists rest, s = a +++ rest.
Proof.
  induction a as [|c a IH]; intros s.
  - split; [exists s; reflexivity|intros; destruct s; reflexivity].
  - destruct s as [|c' s]; [split; [discriminate|intros [rest H]; discriminate]|]. cbn [prefix]. destruct (ascii_dec c c') as [->|Hc].
    + rewrite IH. split; intros [rest H]; exists rest; [rewrite H; reflexivity|injection H as ->; reflexivity].
    + split; [discriminate|]. intros [rest H]. injection H as H _. congruence.
Qed.

Definition path_of (m : machine) (name : string) : string := ma_here m +++ ma_separator m +++ "lib" +++ ma_separator m +++ name.

Lemma name_known m name windows :
  library_name (ma_platform m) = Some (name, windows) ->
  known_platform m /\ default_path m (path_of m name) /\ (windows = true <-> is_windows m)
  /\ forall path, default_path m path -> path = path_of m name.
Proof.
  unfold library_name.
  assert (Hcases : forall rest1 rest2, ("darwin" +++ rest1 = "linux" +++ rest2 -> False) /\ ("darwin" +++ rest1 = "win" +++ rest2 -> False)
            /\ ("linux" +++ rest1 = "win" +++ rest2 -> False)) by (intros; repeat split; discriminate).
  destruct (prefix "darwin" (ma_platform m)) eqn:E1; [|destruct (prefix "linux" (ma_platform m)) eqn:E2; [|destruct (prefix "win" (ma_platform m)) eqn:E3]];
    [| | |discriminate]; intros H; injection H as <- <-.
  - apply prefix_spec in E1 as [rest E]. split; [exists rest; auto|]. split; [exists "libequistore.dylib"; split; [reflexivity|]; exists rest; auto|].
    split. { split; [discriminate|]. intros [rest' E']. rewrite E in E'. discriminate. }
    intros path (name & -> & rest' & [[E' ->]|[[E' ->]|[E' ->]]]); [reflexivity| |]; rewrite E in E'; discriminate.
  - apply prefix_spec in E2 as [rest E]. split; [exists rest; auto|]. split; [exists "libequistore.so"; split; [reflexivity|]; exists rest; auto|].
    split. { split; [discriminate|]. intros [rest' E']. rewrite E in E'. discriminate. }
    intros path (name & -> & rest' & [[E' ->]|[[E' ->]|[E' ->]]]); [|reflexivity|]; rewrite E in E'; discriminate.
  - apply prefix_spec in E3 as [rest E]. split; [exists rest; auto|]. split; [exists "equistore.dll"; split; [reflexivity|]; exists rest; auto 6|].
    split. { split; [intros _; exists rest; exact E|reflexivity]. }
    intros path (name & -> & rest' & [[E' ->]|[[E' ->]|[E' ->]]]); [| |reflexivity]; rewrite E in E'; discriminate.
Qed.

Lemma name_unknown m : library_name (ma_platform m) = None <-> ~ known_platform m.
Proof.
  unfold library_name. split.
  - intros H (rest & E). destruct (prefix "darwin" (ma_platform m)) eqn:E1; [discriminate|].
    destruct (prefix "linux" (ma_platform m)) eqn:E2; [discriminate|]. destruct (prefix "win" (ma_platform m)) eqn:E3; [discriminate|].
    apply not_true_iff_false in E1, E2, E3. destruct E as [E|[E|E]]; [apply E1|apply E2|apply E3]; apply prefix_spec; eauto.
  - intros H. destruct (prefix "darwin" (ma_platform m)) eqn:E1; [exfalso; apply H; apply prefix_spec in E1 as [rest E]; exists rest; auto|].
    destruct (prefix "linux" (ma_platform m)) eqn:E2; [exfalso; apply H; apply prefix_spec in E2 as [rest E]; exists rest; auto|].
    destruct (prefix "win" (ma_platform m)) eqn:E3; [exfalso; apply H; apply prefix_spec in E3 as [rest E]; exists rest; auto|reflexivity].
Qed.

(* the path is kept, and a path which is given is the one which is kept *)
Lemma lib_path_some m d s path : fi_path s = Some path -> lib_path m d s = (s, Ok path).
Proof. intros H. unfold lib_path. rewrite H. reflexivity. Qed.

Lemma lib_path_new m d s s' o :
  fi_path s = None -> lib_path m d s = (s', o) -> fi_cached s' = fi_cached s
  /\ (~ known_platform m /\ s' = s /\ (exists e, o = Err e)
      \/ known_platform m /\ exists path, default_path m path /\ fi_path s' = Some path
         /\ (good_file m d path /\ o = Ok path \/ ~ good_file m d path /\ exists e, o = Err e)).
Proof.
  intros H. unfold lib_path. rewrite H. destruct (library_name (ma_platform m)) as [[name windows]|] eqn:E.
  - apply name_known in E as (Hk & Hd & Hw & _). fold (path_of m name). intros Hs. injection Hs as <- <-. split; [reflexivity|]. right.
    split; [exact Hk|]. exists (path_of m name). split; [exact Hd|]. split; [reflexivity|]. unfold good_file.
    destruct (di_isfile d (path_of m name)) eqn:Ef; [|right; split; [intros [? _]; discriminate|eexists; reflexivity]].
    destruct windows.
    + destruct (check_dll m d (path_of m name)) as [[]|e| |] eqn:Ec; cbn [bind].
      * left. split; [|reflexivity]. split; [reflexivity|]. intros _. apply check_good. exact Ec.
      * right. split; [|eauto]. intros [_ Hg]. destruct Hw as [Hw _]. apply check_good in Hg; [|exact (Hw eq_refl)]. congruence.
      * exfalso. revert Ec. unfold check_dll. destruct (di_content _ _) as [c|]; [|discriminate]. destruct (_ =? _)%string; [|discriminate].
        unfold unpack. destruct (_ =? 4); [|discriminate]. cbn [bind]. destruct (_ =? 2); [|discriminate]. cbn [bind].
        destruct (_ =? _)%string; [destruct (_ =? _)%Z; discriminate|]. destruct (_ =? _)%string; [destruct (_ =? _)%Z; discriminate|discriminate].
      * exfalso. revert Ec. unfold check_dll. destruct (di_content _ _) as [c|]; [|discriminate]. destruct (_ =? _)%string; [|discriminate].
        unfold unpack. destruct (_ =? 4); [|discriminate]. cbn [bind]. destruct (_ =? 2); [|discriminate]. cbn [bind].
        destruct (_ =? _)%string; [destruct (_ =? _)%Z; discriminate|]. destruct (_ =? _)%string; [destruct (_ =? _)%Z; discriminate|discriminate].
    + left. split; [|reflexivity]. split; [reflexivity|]. intros Hwin. apply Hw in Hwin. discriminate.
  - apply name_unknown in E. intros Hs. injection Hs as <- <-. split; [reflexivity|]. left. split; [exact E|]. split; [reflexivity|]. eexists; reflexivity.
Qed.

(** * Setting up *)

Lemma setup_path names : forall l l' o, setup_functions names l = (l', o) ->
  li_path l' = li_path l /\ li_exports l' = li_exports l
  /\ ((o = Ok tt /\ li_declared l' = li_declared l ++ names /\ Forall (fun name => In name (li_exports l)) names)
      \/ ((exists e, o = Err e) /\ exists name, In name names /\ ~ In name (li_exports l))).
Proof.
  induction names as [|name names IH]; intros l l' o; cbn [setup_functions].
  - intros H. injection H as <- <-. split; [reflexivity|]. split; [reflexivity|]. left. rewrite app_nil_r. auto.
  - destruct (existsb (String.eqb name) (li_exports l)) eqn:E.
    + apply existsb_exists in E as (x & Hx & E). apply String.eqb_eq in E. subst x. intros H.
      apply IH in H as (H1 & H2 & H). cbn in H1, H2, H. split; [exact H1|]. split; [exact H2|]. destruct H as [(-> & -> & Hf)|(He & y & Hy & Hn)].
      * left. split; [reflexivity|]. rewrite <- app_assoc. auto.
      * right. split; [exact He|]. exists y. split; [right; exact Hy|exact Hn].
    + intros H. injection H as <- <-. split; [reflexivity|]. split; [reflexivity|]. right. split; [eexists; reflexivity|].
      exists name. split; [left; reflexivity|]. intros Hin. apply not_true_iff_false in E. apply E, existsb_exists. exists name.
      split; [exact Hin|apply String.eqb_refl].
Qed.

Lemma names_of_header : all_functions function_names /\ In "eqs_disable_panic_printing" function_names
  /\ forall name, In name function_names -> exists result params, In (CDeclare name result params) equistore_h.
Proof.
  assert (H : map (fun d => match d with CDeclare name _ _ => [name] | _ => [] end) equistore_h
              = map (fun d => match d with CDeclare name _ _ => [name] | _ => [] end) equistore_h) by reflexivity.
  assert (E : concat (map (fun d => match d with CDeclare name _ _ => [name] | _ => [] end) equistore_h) = function_names) by (vm_compute; reflexivity).
  split; [|split].
  - intros name result params Hin. rewrite <- E. apply in_concat. exists [name]. split; [|left; reflexivity].
    apply in_map_iff. exists (CDeclare name result params). split; [reflexivity|exact Hin].
  - vm_compute. left. reflexivity.
  - intros name Hin. rewrite <- E in Hin. apply in_concat in Hin as (l & Hl & Hin). apply in_map_iff in Hl as (d & <- & Hd).
    destruct d as [| | |n r ps]; cbn in Hin; try contradiction. destruct Hin as [<-|[]]. eauto.
Qed.

Lemma all_functions_spec names : all_functions names <-> Forall (fun name => In name names) function_names.
Proof.
  destruct names_of_header as (H1 & _ & H2). rewrite Forall_forall. split.
  - intros H name Hin. destruct (H2 name Hin) as (r & ps & Hd). exact (H _ _ _ Hd).
  - intros H name r ps Hd. apply H. exact (H1 _ _ _ Hd).
Qed.

(* what a call gives *)
Lemma get_new m d s s' o :
  fi_cached s = None -> get_library m d s = (s', o) ->
  exists s1 o1, lib_path m d s = (s1, o1)
    /\ ((forall path, o1 <> Ok path) /\ s' = s1 /\ (exists e, o = Err e)
        \/ exists path, o1 = Ok path /\ fi_path s' = fi_path s1
           /\ (di_load d path = None /\ fi_cached s' = fi_cached s1 /\ (exists e, o = Err e)
               \/ exists exports l, di_load d path = Some exports /\ fi_cached s' = Some l /\ li_path l = path
                  /\ (all_functions exports /\ o = Ok l /\ set_up l \/ ~ all_functions exports /\ exists e, o = Err e))).
Proof.
  intros Hc. unfold get_library. rewrite Hc. destruct (lib_path m d s) as [s1 o1] eqn:E. intros H. exists s1, o1. split; [reflexivity|].
  assert (Hp : (exists path, o1 = Ok path) \/ exists e, o1 = Err e).
  { destruct (fi_path s) as [path|] eqn:Ep.
    - rewrite (lib_path_some m d s path Ep) in E. injection E as <- <-. eauto.
    - apply lib_path_new in E as (_ & [(_ & _ & He)|(_ & path & _ & _ & [(_ & ->)|(_ & He)])]); eauto. }
  destruct Hp as [[path ->]|[e ->]].
  2: { left. injection H as <- <-. split; [discriminate|]. eauto. }
  right. exists path. split; [reflexivity|]. destruct (di_load d path) as [exports|].
  2: { injection H as <- <-. split; [reflexivity|]. left. split; [reflexivity|]. split; [reflexivity|]. eexists; reflexivity. }
  destruct (setup_functions function_names (mk_library path exports [] false)) as [l result] eqn:Es.
  apply setup_path in Es as (H1 & H2 & Es). cbn in H1, H2, Es. destruct Es as [(-> & Hd & Hf)|((e & ->) & name & Hin & Hn)].
  - unfold disable_panic_printing in H. rewrite H2 in H.
    assert (Hq : existsb (String.eqb "eqs_disable_panic_printing") exports = true).
    { apply existsb_exists. exists "eqs_disable_panic_printing". split; [|reflexivity]. rewrite Forall_forall in Hf. apply Hf. apply names_of_header. }
    rewrite Hq in H. cbn [bind] in H. injection H as <- <-. split; [reflexivity|]. right. eexists. eexists. split; [reflexivity|].
    split; [reflexivity|]. split; [exact H1|]. left. split; [apply all_functions_spec; exact Hf|]. split; [reflexivity|].
    split; [|reflexivity]. cbn. rewrite Hd. apply names_of_header.
  - injection H as <- <-. split; [reflexivity|]. right. exists exports, l. split; [reflexivity|]. split; [reflexivity|]. split; [exact H1|].
    right. split; [|eauto]. intros Ha. apply all_functions_spec in Ha. rewrite Forall_forall in Ha. apply Hn, Ha, Hin.
Qed.

(** * Programs *)

Definition after (m : machine) (program : list (disk * finder_call)) : finder :=
  fold_left (fun s event => fst (finder_step m s event)) program finder_start.

Lemma after_snoc m program event : after m (program ++ [event]) = fst (finder_step m (after m program) event).
Proof. unfold after. rewrite fold_left_app. reflexivity. Qed.

Lemma run_nth m program : forall s i d c r,
  nth_error program i = Some (d, c) -> nth_error (finder_run m s program) i = Some r ->
  r = snd (finder_step m (fold_left (fun s event => fst (finder_step m s event)) (firstn i program) s) (d, c)).
Proof.
  induction program as [|event program IH]; intros s i d c r; [destruct i; discriminate|]. cbn [finder_run].
  destruct (finder_step m s event) as [s1 r1] eqn:E. destruct i as [|i]; cbn [nth_error firstn fold_left].
  - intros H1 H2. injection H1 as ->. injection H2 as <-. rewrite E. reflexivity.
  - intros H1 H2. rewrite E. cbn [fst]. exact (IH s1 i d c r H1 H2).
Qed.

Lemma called_step m program i d c r : called m program i d c r -> r = snd (finder_step m (after m (firstn i program)) (d, c)).
Proof. intros [H1 H2]. exact (run_nth m program finder_start i d c r H1 H2). Qed.

Lemma run_length m program : forall s, length (finder_run m s program) = length program.
Proof.
  induction program as [|event program IH]; intros s; [reflexivity|]. cbn [finder_run]. destruct (finder_step m s event) as [s1 r1].
  cbn. rewrite IH. reflexivity.
Qed.

Lemma called_exists m program i d c : nth_error program i = Some (d, c) -> exists r, called m program i d c r.
Proof.
  intros H. destruct (nth_error (finder_run m finder_start program) i) as [r|] eqn:E; [exists r; split; assumption|].
  apply nth_error_None in E. rewrite run_length in E. assert (Hi : i < length program) by (apply nth_error_Some; congruence). lia.
Qed.

Lemma firstn_next (program : list (disk * finder_call)) i event :
  nth_error program i = Some event -> firstn (S i) program = firstn i program ++ [event].
Proof.
  revert i. induction program as [|e program IH]; intros [|i]; try discriminate; cbn [nth_error].
  - intros H. injection H as ->. reflexivity.
  - intros H. rewrite (firstn_cons (S i)), (IH i H). reflexivity.
Qed.

Lemma after_next m program i d c r s :
  called m program i d c r -> after m (firstn (S i) program) = s -> finder_step m (after m (firstn i program)) (d, c) = (s, r).
Proof.
  intros Hr Hs. assert (H := called_step _ _ _ _ _ _ Hr). destruct Hr as [H1 _]. rewrite (firstn_next _ _ _ H1), after_snoc in Hs.
  rewrite (surjective_pairing (finder_step m _ (d, c))). f_equal; [exact Hs|symmetry; exact H].
Qed.

(* one step *)
Lemma step_keeps m s event s' r :
  finder_step m s event = (s', r) ->
  (forall path, fi_path s = Some path -> fi_path s' = Some path) /\ (forall l, fi_cached s = Some l -> fi_cached s' = Some l).
Proof.
  destruct event as [d [path|]]; unfold finder_step; cbn [fst snd].
  - unfold set_library_path. destruct (fi_path s) as [old|] eqn:E; intros H; injection H as <- <-; [rewrite E; auto|]. split; [discriminate|auto].
  - destruct (get_library m d s) as [s1 o] eqn:E. intros H. injection H as <- <-. destruct (fi_cached s) as [l|] eqn:Ec.
    { unfold get_library in E. rewrite Ec in E. injection E as <- <-. rewrite Ec. auto. }
    apply get_new in E as (s2 & o2 & E & Hg); [|exact Ec]. split; [|discriminate]. intros path Hp.
    rewrite (lib_path_some m d s path Hp) in E. injection E as <- <-. destruct Hg as [(_ & -> & _)|(path' & _ & -> & _)]; exact Hp.
Qed.

Lemma keeps_path m program path : forall j i, i <= j ->
  fi_path (after m (firstn i program)) = Some path -> fi_path (after m (firstn j program)) = Some path.
Proof.
  induction j as [|j IH]; intros i Hij Hp; [replace i with 0 in Hp by lia; exact Hp|].
  destruct (Nat.eq_dec i (S j)) as [->|Hne]; [exact Hp|]. specialize (IH i ltac:(lia) Hp).
  destruct (nth_error program j) as [event|] eqn:E.
  - rewrite (firstn_next _ _ _ E), after_snoc. destruct (finder_step m (after m (firstn j program)) event) as [s r] eqn:Es.
    apply (proj1 (step_keeps _ _ _ _ _ Es)). exact IH.
  - apply nth_error_None in E. rewrite firstn_all2 in * by lia. exact IH.
Qed.

Lemma keeps_cached m program l : forall j i, i <= j ->
  fi_cached (after m (firstn i program)) = Some l -> fi_cached (after m (firstn j program)) = Some l.
Proof.
  induction j as [|j IH]; intros i Hij Hp; [replace i with 0 in Hp by lia; exact Hp|].
  destruct (Nat.eq_dec i (S j)) as [->|Hne]; [exact Hp|]. specialize (IH i ltac:(lia) Hp).
  destruct (nth_error program j) as [event|] eqn:E.
  - rewrite (firstn_next _ _ _ E), after_snoc. destruct (finder_step m (after m (firstn j program)) event) as [s r] eqn:Es.
    apply (proj2 (step_keeps _ _ _ _ _ Es)). exact IH.
  - apply nth_error_None in E. rewrite firstn_all2 in * by lia. exact IH.
Qed.

(* what is known after the first [i] calls *)
Definition only_gets (program : list (disk * finder_call)) (i : nat) : Prop :=
  forall j d c, j < i -> nth_error program j = Some (d, c) -> c = GetLibrary.

Lemma known_decided m : known_platform m \/ ~ known_platform m.
Proof.
  destruct (library_name (ma_platform m)) as [[name windows]|] eqn:E; [left|right].
  - apply name_known in E. apply E.
  - apply name_unknown. exact E.
Qed.

Lemma path_unset m program : forall i, i <= length program ->
  (fi_path (after m (firstn i program)) = None <-> i = 0 \/ ~ known_platform m /\ only_gets program i)
  /\ (forall path, only_gets program i -> fi_path (after m (firstn i program)) = Some path -> default_path m path)
  /\ (forall l, fi_cached (after m (firstn i program)) = Some l -> fi_path (after m (firstn i program)) = Some (li_path l)).
Proof.
  induction i as [|i IH]; intros Hi.
  { split; [split; [left; reflexivity|reflexivity]|]. split; [discriminate|discriminate]. }
  specialize (IH ltac:(lia)) as (IH1 & IH2 & IH3).
  destruct (nth_error program i) as [[d c]|] eqn:E; [|apply nth_error_None in E; lia].
  assert (Hgets : only_gets program (S i) <-> only_gets program i /\ c = GetLibrary).
  { split.
    - intros H. split; [intros j d' c' Hj; apply H; lia|apply (H i d c); [lia|exact E]].
    - intros [H ->] j d' c' Hj Hn. destruct (Nat.eq_dec j i) as [->|Hne]; [congruence|]. apply (H j d' c'); [lia|exact Hn]. }
  rewrite (firstn_next _ _ _ E), after_snoc. set (s := after m (firstn i program)) in *.
  destruct c as [path|]; unfold finder_step; cbn [fst snd].
  - assert (Hno : ~ only_gets program (S i)) by (intros H; apply Hgets in H as [_ H]; discriminate).
    unfold set_library_path. destruct (fi_path s) as [old|] eqn:Ep; cbn [fst].
    + split; [rewrite Ep; split; [discriminate|intros [H|[_ H]]; [lia|contradiction]]|]. split; [intros path' H; contradiction|].
      intros l Hl. rewrite Ep. apply IH3. exact Hl.
    + cbn. split; [split; [discriminate|intros [H|[_ H]]; [lia|contradiction]]|]. split; [intros path' H; contradiction|].
      intros l Hl. apply IH3 in Hl. discriminate.
  - destruct (get_library m d s) as [s' o] eqn:Eg. cbn [fst]. rewrite Hgets.
    destruct (fi_cached s) as [l|] eqn:Ec.
    { unfold get_library in Eg. rewrite Ec in Eg. injection Eg as <- <-. assert (Hp := IH3 l eq_refl). rewrite Hp. rewrite Hp in IH1.
      split; [split; [discriminate|]|split].
      - intros [H|[Hk [H _]]]; [lia|]. assert (Hn : @Some string (li_path l) = None) by (apply IH1; right; split; assumption). discriminate.
      - intros path H Hpath. apply Hgets in H as [H _]. apply IH2; [exact H|congruence].
      - intros l' Hl'. rewrite Ec in Hl'. congruence. }
    apply get_new in Eg as (s1 & o1 & E1 & Hg); [|exact Ec].
    assert (Hp' : fi_path s' = fi_path s1) by (destruct Hg as [(_ & -> & _)|(path & _ & -> & _)]; reflexivity).
    destruct (fi_path s) as [old|] eqn:Ep.
    + rewrite (lib_path_some m d s old Ep) in E1. injection E1 as <- <-. rewrite Hp', Ep. split; [split; [discriminate|]|split].
      * intros [H|[Hk [H _]]]; [lia|]. assert (Hn : Some old = None) by (apply IH1; right; split; assumption). discriminate.
      * intros path H Hpath. apply Hgets in H as [H _]. apply IH2; [exact H|congruence].
      * intros l Hl. destruct Hg as [(Hn & -> & _)|(path & Hpath & _ & [(_ & Hn & _)|(exports & l' & _ & Hl' & Hlp & _)])]; [congruence|congruence|].
        rewrite Hl' in Hl. injection Hl as <-. congruence.
    + apply lib_path_new in E1 as (Hc1 & [(Hk & -> & (e & ->))|(Hk & path & Hd & Hp1 & Ho)]); [| |exact Ep].
      * destruct Hg as [(_ & -> & _)|(path & Hn & _)]; [|discriminate]. rewrite Ep. split; [|split].
        -- split; [|reflexivity]. intros _. right. split; [exact Hk|]. split; [|reflexivity]. destruct IH1 as [IH1 _].
           destruct (IH1 eq_refl) as [->|[_ H]]; [intros j d' c' Hj; lia|exact H].
        -- discriminate.
        -- intros l Hl. congruence.
      * rewrite Hp', Hp1. split; [split; [discriminate|intros [H|[H _]]; [lia|contradiction]]|]. split; [intros path' _ H; injection H as <-; exact Hd|].
        intros l Hl. destruct Hg as [(_ & -> & _)|(path' & Ho1 & _ & [(_ & Hn & _)|(exports & l' & _ & Hl' & Hlp & _)])]; [congruence|congruence|].
        rewrite Hl' in Hl. injection Hl as <-. f_equal. rewrite Hlp. destruct Ho as [(_ & Ho)|(_ & e & Ho)]; congruence.
Qed.

Lemma call_before m program i d c r : called m program i d c r -> i < length program.
Proof. intros [H _]. apply nth_error_Some. congruence. Qed.

Lemma gives_cached m program i l :
  gives_library m program i l -> fi_cached (after m (firstn (S i) program)) = Some l.
Proof.
  intros (d & H). assert (Hs := after_next m program i d GetLibrary _ _ H eq_refl). unfold finder_step in Hs. cbn [fst snd] in Hs.
  destruct (get_library m d (after m (firstn i program))) as [s' o] eqn:E. assert (Es : s' = after m (firstn (S i) program)) by congruence. assert (o = Ok l) as -> by congruence. rewrite <- Es.
  destruct (fi_cached (after m (firstn i program))) as [l'|] eqn:Ec.
  - unfold get_library in E. rewrite Ec in E. injection E as <- <-. exact Ec.
  - apply get_new in E as (s1 & o1 & _ & [(_ & _ & e & He)|(path & _ & _ & [(_ & _ & e & He)|(exports & l' & _ & Hl & _ & [(_ & Ho & _)|(_ & e & He)])])]);
      [discriminate|discriminate| |discriminate|exact Ec]. congruence.
Qed.

(* there is one library *)
Lemma one_library m program i l :
  gives_library m program i l ->
  (forall j d r, i <= j -> called m program j d GetLibrary (Library r) -> r = Ok l)
  /\ (forall j l', gives_library m program j l' -> l' = l).
Proof.
  intros H. assert (Hc := gives_cached _ _ _ _ H). assert (Hlater : forall j d r, i <= j -> called m program j d GetLibrary (Library r) -> r = Ok l).
  { intros j d r Hij Hr. destruct (Nat.eq_dec i j) as [<-|Hne].
    - destruct H as (d' & [H1 H2]). destruct Hr as [H3 H4]. congruence.
    - assert (Hj := keeps_cached m program l j (S i) ltac:(lia) Hc). apply called_step in Hr. unfold finder_step, get_library in Hr. cbn [fst snd] in Hr.
      rewrite Hj in Hr. cbn [snd] in Hr. congruence. }
  split; [exact Hlater|]. intros j l' Hj. destruct (Nat.le_gt_cases i j) as [Hij|Hji].
  - destruct Hj as (d & Hj). assert (E := Hlater j d _ Hij Hj). congruence.
  - assert (Hc' := gives_cached _ _ _ _ Hj). assert (Hc2 := keeps_cached m program l' (S i) (S j) ltac:(lia) Hc'). congruence.
Qed.

(* the path is set at most once, and used *)
Lemma path_used m program i path :
  sets_path m program i path ->
  (forall j path', sets_path m program j path' -> j = i) /\ (forall j l, gives_library m program j l -> i < j /\ li_path l = path).
Proof.
  assert (Hset : forall j path', sets_path m program j path' ->
            fi_path (after m (firstn j program)) = None /\ fi_path (after m (firstn (S j) program)) = Some path').
  { intros j path' (d & H). assert (Hs := after_next m program j d _ _ _ H eq_refl). unfold finder_step in Hs. cbn [fst snd] in Hs.
    unfold set_library_path in Hs. destruct (fi_path (after m (firstn j program))) as [old|] eqn:E; [discriminate|]. split; [reflexivity|].
    apply (f_equal fst) in Hs. unfold fst in Hs. rewrite <- Hs. reflexivity. }
  intros H. destruct (Hset i path H) as [Hn Hp]. split.
  - intros j path' Hj. destruct (Hset j path' Hj) as [Hn' Hp'].
    destruct (Nat.lt_trichotomy i j) as [Hij|[->|Hji]]; [|reflexivity|].
    + assert (K := keeps_path m program path j (S i) ltac:(lia) Hp). congruence.
    + assert (K := keeps_path m program path' i (S j) ltac:(lia) Hp'). congruence.
  - intros j l Hj. assert (Hc := gives_cached _ _ _ _ Hj). assert (Hlen : S j <= length program) by (destruct Hj as (d & Hj); apply call_before in Hj; lia).
    destruct (path_unset m program (S j) Hlen) as (_ & _ & H3). assert (Hpath := H3 l Hc).
    assert (Hij : i < j).
    { destruct (Nat.le_gt_cases i j) as [Hij|Hji]; [destruct (Nat.eq_dec i j) as [->|]; [|lia]|].
      - destruct H as (d & [H1 _]), Hj as (d' & [H2 _]). congruence.
      - assert (K := keeps_path m program (li_path l) i (S j) ltac:(lia) Hpath). congruence. }
    split; [exact Hij|]. assert (K := keeps_path m program path (S j) (S i) ltac:(lia) Hp). congruence.
Qed.

(* when the path can be set *)
Lemma path_can_be_set m program i d path r :
  called m program i d (SetPath path) (PathSet r) ->
  (r = Ok tt <-> i = 0 \/ ~ known_platform m /\ forall j d' c, j < i -> nth_error program j = Some (d', c) -> c = GetLibrary)
  /\ (r = Ok tt \/ exists e, r = Err e).
Proof.
  intros H. assert (Hlen := call_before _ _ _ _ _ _ H). apply called_step in H. unfold finder_step in H. cbn [fst snd] in H.
  destruct (path_unset m program i ltac:(lia)) as (H1 & _ & _). unfold set_library_path in H.
  destruct (fi_path (after m (firstn i program))) as [old|]; injection H as ->.
  - split; [|right; eexists; reflexivity]. split; [discriminate|]. intros Hx. apply H1 in Hx. discriminate.
  - split; [|left; reflexivity]. split; [|reflexivity]. intros _. apply H1. reflexivity.
Qed.

(* the path without setting it *)
Lemma path_by_default m program i l :
  gives_library m program i l -> (forall j d c, j < i -> nth_error program j = Some (d, c) -> c = GetLibrary) -> default_path m (li_path l).
Proof.
  intros H Hg. assert (Hc := gives_cached _ _ _ _ H). destruct H as (d & H). assert (Hlen := call_before _ _ _ _ _ _ H).
  destruct (path_unset m program (S i) ltac:(lia)) as (_ & H2 & H3). apply H2; [|exact (H3 l Hc)].
  intros j d' c Hj Hn. destruct (Nat.eq_dec j i) as [->|]; [|apply (Hg j d' c); [lia|exact Hn]]. destruct H as [H _]. congruence.
Qed.

(* libraries are set up *)
Lemma library_set_up m program i l :
  gives_library m program i l ->
  (forall j d r, j < i -> called m program j d GetLibrary (Library r) -> exists l, r = Ok l)
  \/ (forall d c path exports, In (d, c) program -> di_load d path = Some exports -> all_functions exports) ->
  set_up l.
Proof.
  intros H Hor.
  assert (Hinv : forall k, k <= i -> forall l', fi_cached (after m (firstn k program)) = Some l' -> set_up l').
  { induction k as [|k IH]; intros Hk l' Hl'; [discriminate|]. specialize (IH ltac:(lia)).
    destruct H as (d0 & H). assert (Hlen := call_before _ _ _ _ _ _ H).
    destruct (nth_error program k) as [[d c]|] eqn:E; [|apply nth_error_None in E; lia].
    destruct (called_exists m program k d c E) as [r Hr]. assert (Hs := after_next m program k d c r _ Hr eq_refl).
    destruct (fi_cached (after m (firstn k program))) as [l2|] eqn:Ec.
    { assert (K := keeps_cached m program l2 (S k) k ltac:(lia) Ec). rewrite K in Hl'. injection Hl' as <-. apply IH. reflexivity. }
    destruct c as [path|]; unfold finder_step in Hs; cbn [fst snd] in Hs.
    { unfold set_library_path in Hs. destruct (fi_path (after m (firstn k program))); apply (f_equal fst) in Hs; unfold fst in Hs; rewrite <- Hs in Hl'; cbn in Hl'; congruence. }
    destruct (get_library m d (after m (firstn k program))) as [s o] eqn:Eg. assert (Es : s = after m (firstn (S k) program)) by congruence. assert (r = Library o) as -> by congruence. subst s.
    apply get_new in Eg as (s1 & o1 & El & Hg); [|exact Ec].
    assert (Hs1 : fi_cached s1 = None).
    { destruct (fi_path (after m (firstn k program))) as [old|] eqn:Ep.
      - rewrite (lib_path_some _ _ _ _ Ep) in El. injection El as <- <-. exact Ec.
      - apply lib_path_new in El as [El _]; [congruence|exact Ep]. }
    destruct Hg as [(_ & Hs2 & _)|(path & _ & _ & [(_ & Hs2 & _)|(exports & l3 & Hload & Hl3 & _ & [(_ & _ & Hup)|(Hno & e & He)])])];
      [congruence|congruence|congruence|]. exfalso. destruct Hor as [Hok|Hall].
    - destruct (Hok k d o ltac:(lia) Hr) as [l4 Hl4]. congruence.
    - apply Hno. apply (Hall d GetLibrary path); [|exact Hload]. apply nth_error_In in E. exact E. }
  destruct (fi_cached (after m (firstn i program))) as [l'|] eqn:Ec.
  { assert (K := keeps_cached m program l' (S i) i ltac:(lia) Ec). rewrite (gives_cached _ _ _ _ H) in K. injection K as ->.
    apply (Hinv i); [lia|exact Ec]. }
  destruct H as (d & H). apply called_step in H. unfold finder_step in H. cbn [fst snd] in H.
  destruct (get_library m d (after m (firstn i program))) as [s o] eqn:Eg. injection H as <-.
  apply get_new in Eg as (s1 & o1 & El & [(_ & _ & e & He)|(path & _ & _ & [(_ & _ & e & He)|(exports & l3 & _ & _ & _ & [(_ & Ho & Hup)|(_ & e & He)])])]);
    [discriminate|discriminate| |discriminate|exact Ec]. injection Ho as ->. exact Hup.
Qed.

(* the first call *)
Lemma first_library m program d r :
  called m program 0 d GetLibrary (Library r) ->
  ((exists l, r = Ok l)
   <-> exists path exports, default_path m path /\ good_file m d path /\ di_load d path = Some exports /\ all_functions exports)
  /\ ((exists l, r = Ok l) \/ exists e, r = Err e).
Proof.
  intros H. apply called_step in H. cbn [firstn] in H. change (after m []) with finder_start in H. unfold finder_step in H. cbn [fst snd] in H.
  destruct (get_library m d finder_start) as [s o] eqn:Eg. injection H as ->.
  apply get_new in Eg as (s1 & o1 & El & Hg); [|reflexivity]. apply lib_path_new in El; [|reflexivity].
  assert (Huniq : forall path path', known_platform m -> default_path m path -> default_path m path' -> path = path').
  { intros path path' Hk H1 H2. destruct (library_name (ma_platform m)) as [[name windows]|] eqn:En.
    - apply name_known in En as (_ & _ & _ & Hu). rewrite (Hu path H1), (Hu path' H2). reflexivity.
    - apply name_unknown in En. contradiction. }
  assert (Hknown : forall path, default_path m path -> known_platform m).
  { intros path (name & _ & rest & [[E _]|[[E _]|[E _]]]); exists rest; auto. }
  destruct El as (_ & [(Hk & _ & e & ->)|(Hk & path & Hd & _ & [(Hgood & ->)|(Hbad & e & ->)])]).
  - destruct Hg as [(_ & _ & e' & ->)|(path & Hn & _)]; [|discriminate]. split; [|right; eauto]. split; [intros [l Hl]; discriminate|].
    intros (path & exports & Hd & _). apply Hknown in Hd. contradiction.
  - destruct Hg as [(Hn & _)|(path' & Hp & _ & Hg)]; [exfalso; exact (Hn path eq_refl)|]. injection Hp as <-.
    destruct Hg as [(Hload & _ & e & ->)|(exports & l & Hload & _ & _ & [(Hall & -> & _)|(Hno & e & ->)])].
    + split; [|right; eauto]. split; [intros [l Hl]; discriminate|]. intros (path' & exports & Hd' & _ & Hl & _).
      rewrite (Huniq path' path Hk Hd' Hd) in Hl. congruence.
    + split; [|left; eauto]. split; [|eauto]. intros _. exists path, exports. auto.
    + split; [|right; eauto]. split; [intros [l' Hl]; discriminate|]. intros (path' & exports' & Hd' & _ & Hl & Ha).
      rewrite (Huniq path' path Hk Hd' Hd) in Hl. rewrite Hload in Hl. injection Hl as <-. contradiction.
  - destruct Hg as [(_ & _ & e' & ->)|(path' & Hn & _)]; [|discriminate]. split; [|right; eauto]. split; [intros [l Hl]; discriminate|].
    intros (path' & exports & Hd' & Hg' & _). rewrite (Huniq path' path Hk Hd' Hd) in Hg'. contradiction.
Qed.

(* files are checked *)
Lemma library_checked m program i l :
  gives_library m program i l -> (forall j d c, j < i -> nth_error program j = Some (d, c) -> c = GetLibrary) ->
  (forall j d r, j < i -> called m program j d GetLibrary (Library r) -> exists l, r = Ok l) ->
  default_path m (li_path l) /\ exists d, nth_error program 0 = Some (d, GetLibrary) /\ good_file m d (li_path l).
Proof.
  intros H Hgets Hok. assert (Hd := path_by_default _ _ _ _ H Hgets). split; [exact Hd|].
  assert (Hi : exists d r, called m program 0 d GetLibrary (Library (Ok r)) /\ r = l).
  { destruct i as [|i].
    - destruct H as (d & H). eauto.
    - destruct program as [|[d c] program'] eqn:Ep; [destruct H as (d & [H _]); discriminate|].
      assert (c = GetLibrary) as -> by (apply (Hgets 0 d c); [lia|reflexivity]).
      destruct (called_exists m ((d, GetLibrary) :: program') 0 d GetLibrary eq_refl) as [r Hr].
      assert (exists o, r = Library o) as [o ->].
      { apply called_step in Hr. unfold finder_step in Hr. cbn [fst snd] in Hr. destruct (get_library _ _ _) as [s o]. exists o. exact Hr. }
      destruct (Hok 0 d o ltac:(lia) Hr) as [l0 ->]. exists d, l0. split; [exact Hr|].
      assert (H0 : gives_library m ((d, GetLibrary) :: program') 0 l0) by (exists d; exact Hr).
      symmetry. exact (proj2 (one_library _ _ _ _ H0) _ _ H). }
  destruct Hi as (d & r & H0 & ->). exists d. split; [apply H0|]. apply first_library in H0 as [[H0 _] _].
  destruct (H0 (ex_intro _ l eq_refl)) as (path & exports & Hd' & Hg & _).
  assert (path = li_path l) as <-; [|exact Hg]. destruct (library_name (ma_platform m)) as [[name windows]|] eqn:En.
  - apply name_known in En as (_ & _ & _ & Hu). rewrite (Hu path Hd'), (Hu _ Hd). reflexivity.
  - apply name_unknown in En. exfalso. apply En. destruct Hd' as (name & _ & rest & [[E _]|[[E _]|[E _]]]); exists rest; auto.
Qed.
