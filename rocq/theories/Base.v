(* Common vocabulary of the model: outcomes, errors, build profile, and the
   small list/string helpers used by the transcription of the Rust code.

   Modelled code: src/lib.rs (Error), plus the Rust standard library behaviours
   used everywhere (panics, HashMap, BTreeSet, slices). *)
From Coq Require Export String Ascii.
From Coq Require Export List Arith ZArith Bool Lia.
From Coq Require DecimalString.
Export ListNotations.

Notation "a +++ b" := (String.append a b) (at level 60, right associativity).

(* src/lib.rs:60-98 -- the Error enum. The payload is the message (for Io and
   BufferSize: the text displayed by the wrapped error). The wrapped
   std::io::Error is reduced to its message. *)
Inductive error :=
| InvalidParameter (message : string)
| BufferSize (message : string)
| IoError (message : string)
| Serialization (message : string)
| External (status : Z) (context : string)
| Internal (message : string).

(* The result of running a piece of Rust code: a normal value, a returned
   [Err], a panic (with its message), or undefined behaviour. *)
Inductive outcome (A : Type) :=
| Ok (a : A)
| Err (e : error)
| Panic (message : string)
| Undefined (reason : string).
Arguments Ok {A} a.
Arguments Err {A} e.
Arguments Panic {A} message.
Arguments Undefined {A} reason.

(* sequencing: `?` on Result, and propagation of panics *)
Definition bind {A B} (o : outcome A) (f : A -> outcome B) : outcome B :=
  match o with
  | Ok a => f a
  | Err e => Err e
  | Panic m => Panic m
  | Undefined r => Undefined r
  end.

Notation "'let?' x := e 'in' k" := (bind e (fun x => k))
  (at level 200, x pattern, e at level 100, k at level 200, right associativity).

(* Result::expect / Result::unwrap: an Err becomes a panic *)
Definition expect {A} (message : string) (o : outcome A) : outcome A :=
  match o with
  | Err e => Panic message
  | o => o
  end.

(* Option::expect *)
Definition expect_some {A} (message : string) (o : option A) : outcome A :=
  match o with
  | Some a => Ok a
  | None => Panic message
  end.

(* assert!(condition, message) *)
Definition assert_ (condition : bool) (message : string) : outcome unit :=
  if condition then Ok tt else Panic message.

(* Cargo build profile: debug_assert! and overflow checks are only active in
   Debug. *)
Inductive profile := Debug | Release.

(* debug_assert!(condition) *)
Definition debug_assert (p : profile) (condition : bool) (message : string) : outcome unit :=
  match p with
  | Debug => assert_ condition message
  | Release => Ok tt
  end.

(* for-loops which can stop early *)
Fixpoint mapM {A B} (f : A -> outcome B) (l : list A) : outcome (list B) :=
  match l with
  | [] => Ok []
  | x :: r =>
      let? y := f x in
      let? ys := mapM f r in
      Ok (y :: ys)
  end.

Fixpoint foldM {A S} (f : S -> A -> outcome S) (l : list A) (s : S) : outcome S :=
  match l with
  | [] => Ok s
  | x :: r =>
      let? s' := f s x in
      foldM f r s'
  end.

(* slice indexing `l[i]`, panics when out of bounds *)
Definition index_slice {A} (l : list A) (i : nat) : outcome A :=
  match nth_error l i with
  | Some x => Ok x
  | None => Panic "index out of bounds"
  end.

(* replace the element at position i (`l[i] = x`), panics when out of bounds *)
Fixpoint set_nth {A} (l : list A) (i : nat) (x : A) : list A :=
  match l, i with
  | [], _ => []
  | _ :: r, O => x :: r
  | y :: r, S j => y :: set_nth r j x
  end.

Definition set_slice {A} (l : list A) (i : nat) (x : A) : outcome (list A) :=
  if i <? length l then Ok (set_nth l i x) else Panic "index out of bounds".

(* Vec::remove(i), for i in bounds *)
Definition remove_nth {A} (i : nat) (l : list A) : list A :=
  firstn i l ++ skipn (S i) l.

(* slice::swap(i, j), for i and j in bounds *)
Definition swap_nth {A} (i j : nat) (l : list A) : list A :=
  match nth_error l i, nth_error l j with
  | Some x, Some y => set_nth (set_nth l i y) j x
  | _, _ => l
  end.

(* slice::chunks_exact(n), n > 0 *)
Definition chunks_exact {A} (n : nat) (l : list A) : list (list A) :=
  map (fun i => firstn n (skipn (i * n) l)) (seq 0 (length l / n)).

(* equality of slices *)
Fixpoint list_eqb {A} (eqb : A -> A -> bool) (l1 l2 : list A) : bool :=
  match l1, l2 with
  | [], [] => true
  | x :: r1, y :: r2 => eqb x y && list_eqb eqb r1 r2
  | _, _ => false
  end.

Definition row_eqb : list Z -> list Z -> bool := list_eqb Z.eqb.
Definition names_eqb : list string -> list string -> bool := list_eqb String.eqb.

(* slice::contains / HashMap keys membership *)
Definition mem {A} (eqb : A -> A -> bool) (x : A) (l : list A) : bool :=
  existsb (eqb x) l.

(* Number of distinct elements: `iter().collect::<BTreeSet<_>>().len()` *)
Fixpoint count_distinct {A} (eqb : A -> A -> bool) (l : list A) : nat :=
  match l with
  | [] => 0
  | x :: r => if mem eqb x r then count_distinct eqb r else S (count_distinct eqb r)
  end.

(* HashMap::get on an association list *)
Fixpoint hm_get {K V} (eqb : K -> K -> bool) (m : list (K * V)) (k : K) : option V :=
  match m with
  | [] => None
  | (k', v) :: r => if eqb k k' then Some v else hm_get eqb r k
  end.

Definition hm_contains {K V} (eqb : K -> K -> bool) (m : list (K * V)) (k : K) : bool :=
  match hm_get eqb m k with
  | Some _ => true
  | None => false
  end.

(* HashMap::insert of a key which is not present *)
Definition hm_insert_new {K V} (m : list (K * V)) (k : K) (v : V) : list (K * V) :=
  m ++ [(k, v)].

(* PartialEq for HashMap: same length, and all entries of the first are in the
   second with equal values *)
Definition hm_eqb {K V} (eqb : K -> K -> bool) (veqb : V -> V -> bool) (m1 m2 : list (K * V)) : bool :=
  (length m1 =? length m2) &&
  forallb (fun kv => match hm_get eqb m2 (fst kv) with
                     | Some v => veqb (snd kv) v
                     | None => false
                     end) m1.

(* IndexSet::insert: append if not already present *)
Definition is_insert {A} (eqb : A -> A -> bool) (s : list A) (x : A) : list A :=
  if mem eqb x s then s else s ++ [x].

(* inserting all the elements of a list, in order *)
Definition is_insert_all {A} (eqb : A -> A -> bool) (s : list A) (l : list A) : list A :=
  fold_left (is_insert eqb) l s.

(* Ord for slices of LabelValue: lexicographic, shorter prefix first *)
Fixpoint row_compare (r1 r2 : list Z) : comparison :=
  match r1, r2 with
  | [], [] => Eq
  | [], _ :: _ => Lt
  | _ :: _, [] => Gt
  | x :: s1, y :: s2 =>
      match Z.compare x y with
      | Eq => row_compare s1 s2
      | c => c
      end
  end.

(* BTreeSet::insert on a strictly increasing list *)
Fixpoint btree_insert (s : list (list Z)) (x : list Z) : list (list Z) :=
  match s with
  | [] => [x]
  | y :: r =>
      match row_compare x y with
      | Lt => x :: s
      | Eq => s
      | Gt => y :: btree_insert r x
      end
  end.

(* IndexSet::sort_unstable on distinct rows: insertion sort *)
Fixpoint sort_insert (x : list Z) (s : list (list Z)) : list (list Z) :=
  match s with
  | [] => [x]
  | y :: r =>
      match row_compare x y with
      | Gt => y :: sort_insert x r
      | _ => x :: s
      end
  end.

Fixpoint sort_rows (l : list (list Z)) : list (list Z) :=
  match l with
  | [] => []
  | x :: r => sort_insert x (sort_rows r)
  end.

(* format!("{}", n) for usize and for i32 *)
Definition string_of_nat (n : nat) : string :=
  DecimalString.NilEmpty.string_of_uint (Nat.to_uint n).

Definition string_of_Z (z : Z) : string :=
  DecimalString.NilEmpty.string_of_int (Z.to_int z).

(* [String]::join *)
Fixpoint join (sep : string) (l : list string) : string :=
  match l with
  | [] => ""
  | [x] => x
  | x :: r => x +++ (sep +++ join sep r)
  end%string.

(* the byte 0 and CString::new: fails when the string contains a NUL byte *)
Definition nul : ascii := Ascii.zero.

Fixpoint has_nul (s : string) : bool :=
  match s with
  | EmptyString => false
  | String c r => Ascii.eqb c nul || has_nul r
  end.

Definition cstring_new (s : string) : option string :=
  if has_nul s then None else Some s.
