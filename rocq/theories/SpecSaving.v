(* Specification vocabulary, part 14: files which were saved.

   Only the data types of the model, [run] and [put_tensor] are used. *)
From Verif Require Import Base Labels Array Block Tensor Npy Io Origin CApi Saving Spec SpecTensor SpecIo SpecApi.
Local Open Scope list_scope.
Local Open Scope nat_scope.

(* the file with this name, if there is one *)
Definition file_at (w : world) (name : string) : option file := hm_get String.eqb (w_files w) name.

(* what is in the file when the tensor map could not be saved *)
Definition unfinished (t : TensorMap) : file := Some (fst (put_tensor LittleEndian t)).

(** * Bytes in a file *)

(* all the bytes written, with their position in the file, starting from [position] *)
Fixpoint byte_writes (position : nat) (ops : list file_op) : list (nat * ascii) :=
  match ops with
  | [] => []
  | WriteAll new :: ops =>
      combine (seq position (length new)) new ++ byte_writes (position + length new) ops
  | SeekTo position :: ops => byte_writes position ops
  end.

(* the last byte written at position [k] *)
Definition last_byte (writes : list (nat * ascii)) (k : nat) (c : ascii) : Prop :=
  exists before after, writes = before ++ (k, c) :: after /\ ~ In k (map fst after).

(* a file where all these bytes were written: the last byte written at each
   position, and zero when nothing was written there, but further *)
Definition file_of (writes : list (nat * ascii)) (content : bytes) : Prop :=
  forall k c, nth_error content k = Some c <->
    last_byte writes k c
    \/ (c = ascii_of_nat 0 /\ ~ In k (map fst writes) /\ exists k', k < k' /\ In k' (map fst writes)).

(* everything was written *)
Definition all_written (ops : list file_op) (content : bytes) : Prop := file_of (byte_writes 0 ops) content.
