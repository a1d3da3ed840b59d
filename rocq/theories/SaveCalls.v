(* Model of saving (src/io/mod.rs:117-232) as a program which calls the functions of
   eqs_array_t, where each call can answer anything, as in Callbacks.v for the other
   functions of the library. Saving only calls `shape` and `data`. *)
From Verif Require Import Base Labels Array Block Tensor Npy Io Saving Callbacks.
Local Open Scope string_scope.
Local Open Scope list_scope.
Local Open Scope nat_scope.

Inductive read_call := RShape (a : nat) | RData (a : nat).

(* What a function answers: it is NULL, or the status, the shape, and the numbers
   which are at the pointer (None if the pointer is NULL) *)
Record given := mk_given {
  gv_null : bool;
  gv_status : Z;
  gv_shape : list nat;
  gv_memory : option (list Z) }.

Inductive reading (A : Type) : Type :=
| Give (a : A)
| Query (c : read_call) (k : given -> reading A).
Arguments Give {A} a.
Arguments Query {A} c k.

Fixpoint bindr {A B} (m : reading A) (k : A -> reading B) : reading B :=
  match m with
  | Give a => k a
  | Query c m => Query c (fun g => bindr (m g) k)
  end.

(* the common part of src/data.rs:290-349 *)
Definition query {A} (c : read_call) (op : array_op) (value : given -> outcome A) : reading (outcome A) :=
  Query c (fun g => Give (
    if gv_null g then Panic ("eqs_array_t." +++ op_name op +++ " function is NULL")
    else if (gv_status g =? 0)%Z then value g
    else callback_error op (gv_status g))).

(* src/data.rs:322-349 -- eqs_array_t::shape *)
Definition r_shape (a : nat) : reading (outcome (list nat)) := query (RShape a) OpShape (fun g => Ok (gv_shape g)).

(* src/data.rs:289-319 -- eqs_array_t::data *)
Definition r_data (p : profile) (a : nat) : reading (outcome (list Z)) :=
  bindr (r_shape a) (fun r =>
    match (let? shape := r in shape_size p (map Z.of_nat shape)) with
    | Ok size =>
        query (RData a) OpData (fun g =>
          match gv_memory g with
          | Some memory =>
              if (size <=? Z.of_nat (length memory))%Z then Ok (firstn (Z.to_nat size) memory)
              else Undefined "reading after the end of the array"
          | None => Undefined "the pointer is NULL"
          end)
    | Err e => Give (Err e)
    | Panic message => Give (Panic message)
    | Undefined reason => Give (Undefined reason)
    end).

(* src/io/mod.rs:212-232 -- write_data: the file, and what was written in it if this
   did not finish *)
Definition r_write_data (p : profile) (e : endianness) (a : nat) : reading (outcome bytes * bytes) :=
  let type_descriptor := match e with LittleEndian => "'<f8'" | BigEndian => "'>f8'" end in
  bindr (r_shape a) (fun r =>
    let head :=
      let? descriptor := expect_some "invalid dtype" (parse_literal (bytes_of type_descriptor)) in
      let? shape := r in
      header_to_bytes (mk_header descriptor false (map Z.of_nat shape)) in
    match head with
    | Ok head => bindr (r_data p a) (fun data => Give (let? data := data in Ok (head ++ flat_map (encode e 8) data), head))
    | failure => Give (failure, [])
    end).

(* the operator `?` *)
Definition r_then (first next : reading progress) : reading progress :=
  bindr first (fun r =>
    match snd r with
    | Ok _ => bindr next (fun r' => Give (fst r ++ fst r', snd r'))
    | _ => Give r
    end).

Definition r_put_data (p : profile) (e : endianness) (path : string) (a : nat) : reading progress :=
  bindr (r_write_data p e a) (fun r => Give (put_file path (fst r) (snd r))).

Definition r_put_labels (e : endianness) (path : string) (l : Labels) : reading progress := Give (put_labels e path l).

(* src/io/mod.rs:138-142 and 157-161 *)
Fixpoint r_put_components (e : endianness) (directory : string) (i : nat) (components : list Labels) : reading progress :=
  match components with
  | [] => Give ([], Ok tt)
  | component :: rest =>
      r_then (r_put_labels e (component_path directory i) component) (r_put_components e directory (i + 1) rest)
  end.

(* src/io/mod.rs:148-162 *)
Fixpoint r_put_gradients (p : profile) (e : endianness) (block_i : nat) (gradients : list (string * BasicBlock))
  : reading progress :=
  match gradients with
  | [] => Give ([], Ok tt)
  | (parameter, gradient) :: rest =>
      let directory := gradient_directory block_i parameter in
      r_then (r_put_data p e (directory +++ "/data.npy") (data_of gradient))
        (r_then (r_put_labels e (directory +++ "/samples.npy") (bb_samples gradient))
          (r_then (r_put_components e directory 0 (bb_components gradient))
            (r_put_gradients p e block_i rest)))
  end.

(* src/io/mod.rs:129-163 *)
Fixpoint r_put_blocks (p : profile) (e : endianness) (block_i : nat) (blocks : list TensorBlock) : reading progress :=
  match blocks with
  | [] => Give ([], Ok tt)
  | block :: rest =>
      let directory := values_directory block_i in
      let values := tb_values block in
      r_then (r_put_data p e (directory +++ "/data.npy") (data_of values))
        (r_then (r_put_labels e (directory +++ "/samples.npy") (bb_samples values))
          (r_then (r_put_components e directory 0 (bb_components values))
            (r_then (r_put_labels e (directory +++ "/properties.npy") (bb_properties values))
              (r_then (r_put_gradients p e block_i (tb_gradients block))
                (r_put_blocks p e (block_i + 1) rest)))))
  end.

(* src/io/mod.rs:117-168 -- save: what is in the archive, and the result *)
Definition r_save (p : profile) (e : endianness) (t : TensorMap) : reading progress :=
  r_then (r_put_labels e "keys.npy" (tm_keys t)) (r_put_blocks p e 0 (tm_blocks t)).
