(* Model of the data origins: src/data.rs (register_data_origin and
   get_data_origin), src/c_api/utils.rs *)
From Verif Require Import Base.
Local Open Scope string_scope.
Local Open Scope list_scope.
Local Open Scope nat_scope.

(* src/data.rs:19-23 -- REGISTERED_DATA_ORIGIN. Both functions lock the mutex for
   as long as they run and can not panic while they hold it, so calls from
   several threads are executed one after the other, and the mutex is never
   poisoned. *)
Definition registry : Type := list string.
Definition registry_start : registry := ["unregistered origin"].

(* src/data.rs:30-34 -- search of a name, from position [i] *)
Fixpoint find_origin (i : nat) (names : registry) (name : string) : option nat :=
  match names with
  | [] => None
  | registered :: rest => if String.eqb registered name then Some i else find_origin (i + 1) rest name
  end.

(* src/data.rs:27-40 -- register_data_origin; the identifiers are u64 *)
Definition register_data_origin (r : registry) (name : string) : registry * nat :=
  match find_origin 0 r name with
  | Some i => (r, i)
  | None =>
      let r := r ++ [name] in
      (r, length r - 1)
  end.

(* src/data.rs:44-52 -- get_data_origin *)
Definition get_data_origin (r : registry) (origin : nat) : outcome string :=
  if origin <? length r then index_slice r origin else index_slice r 0.

(* the bytes of a text *)
Definition text_bytes (s : string) : list ascii := list_ascii_of_string s.

(* src/c_api/utils.rs:5-18 -- copy_str_to_c. The buffer is given by its content,
   of length buflen, and returned after the call. For a buffer of length zero,
   `buflen - 1` panics in debug builds and is usize::MAX in release builds, which
   then write out of the buffer. *)
Definition copy_str_to_c (p : profile) (s : string) (buffer : list ascii) : list ascii * outcome unit :=
  match length buffer with
  | O =>
      match p with
      | Debug => (buffer, Panic "attempt to subtract with overflow")
      | Release => (buffer, Undefined "copy_str_to_c writes out of the buffer")
      end
  | S last =>
      let size := Nat.min (String.length s) last in
      if size <? String.length s then
        (buffer, Err (InvalidParameter ("got space for " +++ string_of_nat size
          +++ " characters, but we need to write " +++ string_of_nat (String.length s))))
      else (text_bytes s ++ nul :: skipn (S size) buffer, Ok tt)
  end.
