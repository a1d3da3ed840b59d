(* Model of the text of arrays: src/data.rs, Debug for eqs_array_t *)
From Coq Require Import NArith Hexadecimal HexadecimalString HexadecimalN.
From Verif Require Import Base Array Origin.
Local Open Scope string_scope.
Local Open Scope list_scope.
Local Open Scope nat_scope.

(* format!("{:?}", p) for a pointer with address [p] *)
Definition pointer_text (p : N) : string := "0x" +++ HexadecimalString.NilEmpty.string_of_uint (N.to_hex_uint p).

(* format!("{:?}", s) for a String: str::escape_debug_ext of the standard library
   of Rust. Simplified: all bytes which are not ASCII are unchanged; Rust escapes
   the ones of unprintable characters. *)
Definition quote : ascii := """".
Definition backslash : ascii := "\".
Definition control (n : nat) : ascii * string := (ascii_of_nat n, "\u{" +++ HexadecimalString.NilEmpty.string_of_uint (Nat.to_hex_uint n) +++ "}").
Definition escapes : list (ascii * string) :=
  [(quote, String backslash (String quote "")); (backslash, "\\"); ("009"%char, "\t"); ("010"%char, "\n"); ("013"%char, "\r"); ("000"%char, "\0")]
  ++ map control (seq 1 8 ++ [11; 12] ++ seq 14 18 ++ [127]).
Fixpoint find_escape (c : ascii) (l : list (ascii * string)) : option string :=
  match l with
  | [] => None
  | (d, s) :: rest => if Ascii.eqb c d then Some s else find_escape c rest
  end.
Definition escape_char (c : ascii) : string :=
  match find_escape c escapes with Some s => s | None => String c "" end.
Fixpoint escape (s : string) : string :=
  match s with
  | "" => ""
  | String c rest => escape_char c +++ escape rest
  end%string.
Definition string_text (s : string) : string := String quote (escape s) +++ String quote "".

(* format!("{:?}", ..) for a slice of usize, and for an Option *)
Definition shape_text (shape : list nat) : string := "[" +++ join ", " (map string_of_nat shape) +++ "]".
Definition option_text (o : option string) : string :=
  match o with Some s => "Some(" +++ s +++ ")" | None => "None" end.

(* Result::ok *)
Definition result_ok {A} (x : outcome A) : outcome (option A) :=
  match x with Ok a => Ok (Some a) | Err _ => Ok None | Panic m => Panic m | Undefined r => Undefined r end.

(* the identifier given by the origin callback: src/data.rs:665-667 and 680-682 for
   ndarray, 737-739 and 763-765 for EmptyArray, which are registered when they are first
   used; registering them again gives the same identifier *)
Definition origin_identifier (r : registry) (k : array_kind) : registry * nat :=
  match k with
  | RustNdarray => register_data_origin r "rust.ndarray"
  | RustEmptyArray => register_data_origin r "rust.EmptyArray"
  | ForeignArray id => (r, id)
  end.

(* src/data.rs:182 -- self.origin().ok().map(get_data_origin) *)
Definition origin_field (r : registry) (a : eqs_array) : registry * outcome (option string) :=
  match result_ok (array_origin a) with
  | Ok (Some k) =>
      let '(r, id) := origin_identifier r k in
      (r, let? name := get_data_origin r id in Ok (Some name))
  | Ok None => (r, Ok None)
  | Err e => (r, Err e)
  | Panic m => (r, Panic m)
  | Undefined u => (r, Undefined u)
  end.

(* src/data.rs:177-192 -- Debug for eqs_array_t, with "{:?}", for an array at address
   [pointer] *)
Definition array_text (r : registry) (pointer : N) (a : eqs_array) : registry * outcome string :=
  let text origin shape :=
    "eqs_array_t { ptr: " +++ pointer_text pointer +++ ", origin: " +++ option_text (option_map string_text origin)
      +++ ", shape: " +++ option_text (option_map shape_text shape) +++ " }" in
  if (pointer =? 0)%N then (r, Ok (text None None))
  else
    let '(r, origin) := origin_field r a in
    (r, let? origin := origin in
        let? shape := result_ok (array_shape a) in
        Ok (text origin shape)).
