(* What the library does with arrays, seen from the functions of eqs_array_t *)
From Verif Require Import Base Labels Array Block Tensor Callbacks.
From Coq Require Import Permutation.
Local Open Scope string_scope.
Local Open Scope list_scope.
Local Open Scope nat_scope.

(* all the calls, in order, and what was answered *)
Definition trace := list (call * answer).

Inductive runs {A} : prog A -> trace -> A -> Prop :=
| runs_ret a : runs (Ret a) [] a
| runs_ask c k an tr a : runs (k an) tr a -> runs (Ask c k) ((c, an) :: tr) a.

(* the call worked *)
Definition works (an : answer) : bool := negb (an_null an) && (an_status an =? 0)%Z.

(* arrays which are given to a call *)
Definition used (c : call) : list nat :=
  match c with
  | QOrigin a | QShape a | QReshape a _ | QSwapAxes a _ _ | QCreate a _ | QCopy a | QDestroy a => [a]
  | QMove output input _ _ _ => [output; input]
  end.

(* arrays which are changed by a call *)
Definition changed (c : call) : list nat :=
  match c with
  | QReshape a _ | QSwapAxes a _ _ | QMove a _ _ _ _ | QDestroy a => [a]
  | QOrigin _ | QShape _ | QCreate _ _ | QCopy _ => []
  end.

(* the array made by a call *)
Definition created (c : call) (an : answer) : option nat :=
  match c with
  | QCreate _ _ | QCopy _ => if works an then Some (an_new an) else None
  | _ => None
  end.

Definition forget (a : nat) (alive : list nat) : list nat := filter (fun b => negb (a =? b)) alive.

(* arrays are used and destroyed while they are alive; destroying an array twice, or
   using it afterwards, is not possible *)
Inductive lives : list nat -> trace -> list nat -> Prop :=
| lives_nil alive : lives alive [] alive
| lives_use c an alive tr alive' : incl (used c) alive -> (forall a, c <> QDestroy a) -> created c an = None ->
    lives alive tr alive' -> lives alive ((c, an) :: tr) alive'
| lives_create c an a alive tr alive' : incl (used c) alive -> created c an = Some a ->
    lives (a :: alive) tr alive' -> lives alive ((c, an) :: tr) alive'
| lives_destroy a an alive tr alive' : In a alive ->
    lives (forget a alive) tr alive' -> lives alive ((QDestroy a, an) :: tr) alive'.

(* the arrays made by calls are not the same as the ones which are alive: memory can
   be used again once it is free *)
Fixpoint new_arrays (alive : list nat) (tr : trace) : Prop :=
  match tr with
  | [] => True
  | (QDestroy a, _) :: tr => new_arrays (forget a alive) tr
  | (c, an) :: tr =>
      match created c an with
      | Some a => ~ In a alive /\ new_arrays (a :: alive) tr
      | None => new_arrays alive tr
      end
  end.

(* [own] are the arrays the function gets, [own'] the ones it gives back, [others] the
   ones which belong to someone else. Nothing is used after it was destroyed or
   destroyed twice, nothing is lost, and other arrays are not changed. *)
Definition accounts (others own : list nat) (tr : trace) (own' : list nat) : Prop :=
  exists alive', lives (own ++ others) tr alive' /\ Permutation alive' (own' ++ others)
    /\ Forall (fun '(c, _) => forall a, In a (changed c) -> ~ In a others) tr.

(* a call which failed is the last one, before arrays are destroyed *)
Definition is_destroy (c : call) : bool := match c with QDestroy _ => true | _ => false end.

Definition all_work (tr : trace) : Prop := Forall (fun '(c, an) => is_destroy c = true \/ works an = true) tr.

(* the name of the functions of eqs_array_t *)
Definition name_of (c : call) : string :=
  match c with
  | QOrigin _ => "origin" | QShape _ => "shape" | QReshape _ _ => "reshape" | QSwapAxes _ _ _ => "swap_axes"
  | QCreate _ _ => "create" | QCopy _ => "copy" | QMove _ _ _ _ _ => "move_samples_from" | QDestroy _ => "destroy"
  end.

(* What is reported for a call which failed: its status. It is a panic if the function
   is NULL, when copying, or when the library looks at the shape or origin of arrays
   which are not in [given], that is arrays it made. *)
Definition panics_for (given : list nat) (c : call) (an : answer) : Prop :=
  an_null an = true \/
  match c with QCopy _ => True | QShape a | QOrigin a => ~ In a given | _ => False end.
Definition reports {A} (given : list nat) (c : call) (an : answer) (r : outcome A) : Prop :=
  (panics_for given c an -> exists message, r = Panic message) /\
  (~ panics_for given c an -> r = Err (External (an_status an) ("calling eqs_array_t." +++ name_of c +++ " failed"))).

(* either all the calls work, or one failed, nothing else is called afterwards, and it
   is what is reported *)
Definition first_failure {A} (given : list nat) (tr : trace) (r : outcome A) : Prop :=
  all_work tr \/
  exists before c an after, tr = before ++ (c, an) :: after /\ all_work before /\ works an = false /\ is_destroy c = false
    /\ Forall (fun e => is_destroy (fst e) = true) after /\ reports given c an r.
