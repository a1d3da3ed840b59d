(* Model of src/io/npy_header.rs, src/io/labels.rs and of the NPY part of
   src/io/mod.rs, together with the parts of the py_literal and byteorder crates
   they use. *)
From Verif Require Import Base Labels Array.
Local Open Scope string_scope.
Local Open Scope list_scope.
Local Open Scope nat_scope.

(* the content of a file: a list of bytes *)
Definition bytes : Type := list ascii.

Definition bytes_of (s : string) : bytes := list_ascii_of_string s.
Definition text_of (b : bytes) : string := string_of_list_ascii b.

Definition newline : ascii := ascii_of_nat 10.
Definition carriage_return : ascii := ascii_of_nat 13.
Definition backslash : ascii := "\"%char.
Definition quote : ascii := "'"%char.
Definition space : ascii := " "%char.

(** * The byteorder crate *)

Inductive endianness := LittleEndian | BigEndian.

Definition byte_value (c : ascii) : Z := Z.of_N (N_of_ascii c).
Definition byte_of (z : Z) : ascii := ascii_of_N (Z.to_N (z mod 256)).

(* the [n] low bytes of an integer, least significant first *)
Fixpoint low_bytes (n : nat) (z : Z) : bytes :=
  match n with
  | O => []
  | S n => byte_of z :: low_bytes n (z / 256)
  end.

Fixpoint low_value (b : bytes) : Z :=
  match b with
  | [] => 0
  | c :: b => byte_value c + 256 * low_value b
  end.

(* write_u16, write_u32, write_i32 and write_f64 for the given endianness; an
   f64 is its 64-bit pattern *)
Definition encode (e : endianness) (n : nat) (z : Z) : bytes :=
  match e with
  | LittleEndian => low_bytes n z
  | BigEndian => rev (low_bytes n z)
  end.

(* read_u16, read_u32 and read_f64 *)
Definition decode (e : endianness) (b : bytes) : Z :=
  match e with
  | LittleEndian => low_value b
  | BigEndian => low_value (rev b)
  end.

(* two's complement: read_i32 *)
Definition to_signed_32 (z : Z) : Z := if (z <? 2 ^ 31)%Z then z else (z - 2 ^ 32)%Z.

Definition decode_i32 (e : endianness) (b : bytes) : Z := to_signed_32 (decode e b).

(** * std::io::Read, on the bytes which remain to be read *)

Definition end_of_file {A} : outcome A := Err (IoError "failed to fill whole buffer").

(* Read::read_exact *)
Definition read_exact (n : Z) (reader : bytes) : outcome (bytes * bytes) :=
  if (n <=? Z.of_nat (length reader))%Z
  then Ok (firstn (Z.to_nat n) reader, skipn (Z.to_nat n) reader)
  else end_of_file.

(** * The py_literal crate *)

(* py_literal::Value. Bytes, floats, complex numbers and sets are not modelled:
   the library never writes them, and refuses them everywhere they could be
   read. *)
Inductive py_value :=
| PyString (s : string)
| PyInteger (z : Z)
| PyTuple (l : list py_value)
| PyList (l : list py_value)
| PyDict (l : list (py_value * py_value))
| PyBoolean (b : bool)
| PyNone.

(* py_literal Value::write_ascii. Characters outside of ASCII, which can not
   appear in what the library writes, are not escaped in the model. *)
Definition escape (c : ascii) : bytes :=
  if Ascii.eqb c backslash then [backslash; backslash]
  else if Ascii.eqb c carriage_return then [backslash; "r"%char]
  else if Ascii.eqb c newline then [backslash; "n"%char]
  else if Ascii.eqb c quote then [backslash; quote]
  else [c].

Fixpoint separated (l : list bytes) : bytes :=
  match l with
  | [] => []
  | [x] => x
  | x :: r => x ++ bytes_of ", " ++ separated r
  end.

Fixpoint write_ascii (v : py_value) : bytes :=
  match v with
  | PyString s => [quote] ++ flat_map escape (bytes_of s) ++ [quote]
  | PyInteger z => bytes_of (string_of_Z z)
  | PyTuple [x] => bytes_of "(" ++ write_ascii x ++ bytes_of ",)"
  | PyTuple l => bytes_of "(" ++ separated (map write_ascii l) ++ bytes_of ")"
  | PyList l => bytes_of "[" ++ separated (map write_ascii l) ++ bytes_of "]"
  | PyDict l =>
      bytes_of "{"
      ++ separated (map (fun kv => write_ascii (fst kv) ++ bytes_of ": " ++ write_ascii (snd kv)) l)
      ++ bytes_of "}"
  | PyBoolean true => bytes_of "True"
  | PyBoolean false => bytes_of "False"
  | PyNone => bytes_of "None"
  end.

(* impl FromStr for Value. Only the syntax the library writes and reads is
   modelled: quoted strings with the simplest escapes, decimal integers, tuples,
   lists, dictionaries, booleans and None. Everything else (other literals,
   string prefixes, triple quotes, numeric expressions) is a parse error. *)
Definition is_space (c : ascii) : bool :=
  Ascii.eqb c space || Ascii.eqb c (ascii_of_nat 9) || Ascii.eqb c newline
  || Ascii.eqb c (ascii_of_nat 12) || Ascii.eqb c carriage_return.

Fixpoint skip_spaces (s : bytes) : bytes :=
  match s with
  | c :: r => if is_space c then skip_spaces r else s
  | [] => []
  end.

Definition unescape (c : ascii) : option ascii :=
  if Ascii.eqb c backslash then Some backslash
  else if Ascii.eqb c quote then Some quote
  else if Ascii.eqb c """"%char then Some """"%char
  else if Ascii.eqb c "n"%char then Some newline
  else if Ascii.eqb c "r"%char then Some carriage_return
  else if Ascii.eqb c "t"%char then Some (ascii_of_nat 9)
  else None.

(* the characters of a string up to its closing quote *)
Fixpoint parse_string (closing : ascii) (s : bytes) : option (bytes * bytes) :=
  match s with
  | [] => None
  | c :: r =>
      if Ascii.eqb c closing then Some ([], r)
      else if Ascii.eqb c backslash then
        match r with
        | [] => None
        | c' :: r' =>
            match unescape c', parse_string closing r' with
            | Some x, Some (l, rest) => Some (x :: l, rest)
            | _, _ => None
            end
        end
      else if Ascii.eqb c newline || Ascii.eqb c carriage_return then None
      else
        match parse_string closing r with
        | Some (l, rest) => Some (c :: l, rest)
        | None => None
        end
  end.

Fixpoint take_digits (s : bytes) : bytes * bytes :=
  match s with
  | c :: r =>
      if is_ascii_digit c
      then let '(digits, rest) := take_digits r in (c :: digits, rest)
      else ([], s)
  | [] => ([], [])
  end.

(* decimal digits, without leading zeros unless they are all zeros *)
Definition parse_digits (digits : bytes) : option Z :=
  match digits with
  | [] => None
  | c :: _ =>
      if Ascii.eqb c "0"%char && negb (forallb (Ascii.eqb "0"%char) digits) then None
      else option_map (fun d => Z.of_uint d) (DecimalString.NilEmpty.uint_of_string (text_of digits))
  end.

Definition parse_integer (s : bytes) : option (Z * bytes) :=
  match s with
  | c :: r =>
      let negative := Ascii.eqb c "-"%char in
      let s := if negative || Ascii.eqb c "+"%char then r else s in
      let '(digits, rest) := take_digits s in
      option_map (fun z => (if negative then (- z)%Z else z, rest)) (parse_digits digits)
  | [] => None
  end.

(* removes a prefix *)
Fixpoint strip_prefix (prefix s : bytes) : option bytes :=
  match prefix, s with
  | [], _ => Some s
  | c :: prefix, c' :: s => if Ascii.eqb c c' then strip_prefix prefix s else None
  | _ :: _, [] => None
  end.

Definition starts_with (prefix s : bytes) : bool :=
  match strip_prefix prefix s with Some _ => true | None => false end.

(* The parser for values; [fuel] bounds the recursion depth, the length of the
   input is always enough. parse_items returns the items up to [closing] and if
   the last one was followed by a comma. *)
Fixpoint parse_value (fuel : nat) (s : bytes) : option (py_value * bytes) :=
  match fuel with
  | O => None
  | S fuel =>
      match skip_spaces s with
      | [] => None
      | c :: r =>
          if Ascii.eqb c quote || Ascii.eqb c """"%char then
            match parse_string c r with
            | Some (text, rest) => Some (PyString (text_of text), rest)
            | None => None
            end
          else if Ascii.eqb c "("%char then
            match parse_items fuel ")"%char r with
            | Some ([_], false, _) => None
            | Some (items, _, rest) => Some (PyTuple items, rest)
            | None => None
            end
          else if Ascii.eqb c "["%char then
            match parse_items fuel "]"%char r with
            | Some (items, _, rest) => Some (PyList items, rest)
            | None => None
            end
          else if Ascii.eqb c "{"%char then
            match parse_entries fuel r with
            | Some (entries, rest) => Some (PyDict entries, rest)
            | None => None
            end
          else
            match strip_prefix (bytes_of "True") (c :: r),
                  strip_prefix (bytes_of "False") (c :: r),
                  strip_prefix (bytes_of "None") (c :: r) with
            | Some rest, _, _ => Some (PyBoolean true, rest)
            | _, Some rest, _ => Some (PyBoolean false, rest)
            | _, _, Some rest => Some (PyNone, rest)
            | _, _, _ =>
                match parse_integer (c :: r) with
                | Some (z, rest) => Some (PyInteger z, rest)
                | None => None
                end
            end
      end
  end

with parse_items (fuel : nat) (closing : ascii) (s : bytes) : option (list py_value * bool * bytes) :=
  match fuel with
  | O => None
  | S fuel =>
      match skip_spaces s with
      | [] => None
      | c :: r =>
          if Ascii.eqb c closing then Some ([], true, r)
          else
            match parse_value fuel (c :: r) with
            | None => None
            | Some (v, rest) =>
                match skip_spaces rest with
                | c' :: rest' =>
                    if Ascii.eqb c' ","%char then
                      match parse_items fuel closing rest' with
                      | Some (vs, comma, rest'') => Some (v :: vs, comma, rest'')
                      | None => None
                      end
                    else if Ascii.eqb c' closing then Some ([v], false, rest')
                    else None
                | [] => None
                end
            end
      end
  end

with parse_entries (fuel : nat) (s : bytes) : option (list (py_value * py_value) * bytes) :=
  match fuel with
  | O => None
  | S fuel =>
      match skip_spaces s with
      | [] => None
      | c :: r =>
          if Ascii.eqb c "}"%char then Some ([], r)
          else
            match parse_value fuel (c :: r) with
            | None => None
            | Some (k, rest) =>
                match skip_spaces rest with
                | c1 :: rest1 =>
                    if negb (Ascii.eqb c1 ":"%char) then None
                    else
                      match parse_value fuel rest1 with
                      | None => None
                      | Some (v, rest2) =>
                          match skip_spaces rest2 with
                          | c2 :: rest3 =>
                              if Ascii.eqb c2 ","%char then
                                match parse_entries fuel rest3 with
                                | Some (kvs, rest4) => Some ((k, v) :: kvs, rest4)
                                | None => None
                                end
                              else if Ascii.eqb c2 "}"%char then Some ([(k, v)], rest3)
                              else None
                          | [] => None
                          end
                      end
                | [] => None
                end
            end
      end
  end.

(* str::parse::<Value>(): the whole text is one value *)
Definition parse_literal (s : bytes) : option py_value :=
  match parse_value (S (length s)) s with
  | Some (v, rest) => match skip_spaces rest with [] => Some v | _ => None end
  | None => None
  end.

(** * src/io/npy_header.rs *)

(* src/io/npy_header.rs:14 -- MAGIC_STRING *)
Definition magic_string : bytes := ascii_of_nat 147 :: bytes_of "NUMPY".

(* src/io/npy_header.rs:20 -- HEADER_DIVISOR *)
Definition header_divisor : Z := 64.

(* src/io/npy_header.rs:124-130 -- enum Version *)
Inductive version := V1_0 | V2_0 | V3_0.

(* src/io/npy_header.rs:137-145 -- Version::from_bytes *)
Definition version_of_bytes (b : bytes) : outcome version :=
  match map byte_value b with
  | [1%Z; 0%Z] => Ok V1_0
  | [2%Z; 0%Z] => Ok V2_0
  | [3%Z; 0%Z] => Ok V3_0
  | numbers =>
      Err (Serialization ("unknown version number: " +++ join "." (map string_of_Z numbers)))
  end.

(* src/io/npy_header.rs:147-161 -- major_version and minor_version *)
Definition version_bytes (v : version) : bytes :=
  match v with
  | V1_0 => [byte_of 1; byte_of 0]
  | V2_0 => [byte_of 2; byte_of 0]
  | V3_0 => [byte_of 3; byte_of 0]
  end.

(* src/io/npy_header.rs:163-169 -- header_len_num_bytes *)
Definition header_len_num_bytes (v : version) : nat :=
  match v with
  | V1_0 => 2
  | V2_0 | V3_0 => 4
  end.

(* src/io/npy_header.rs:171-181 -- read_header_len; an u32 always fits in usize
   on the 64-bit targets considered here *)
Definition read_header_len (v : version) (reader : bytes) : outcome (Z * bytes) :=
  let? (b, reader) := read_exact (Z.of_nat (header_len_num_bytes v)) reader in
  Ok (decode LittleEndian b, reader).

(* src/io/npy_header.rs:183-201 -- format_header_len *)
Definition format_header_len (v : version) (header_len : Z) : option bytes :=
  let n := header_len_num_bytes v in
  if (header_len <? 256 ^ Z.of_nat n)%Z then Some (encode LittleEndian n header_len) else None.

(* src/io/npy_header.rs:203-229 -- compute_lengths. The additions can not
   overflow usize for a format string which fits in memory. *)
Definition compute_lengths (v : version) (unpadded_arr_format : bytes) : option (Z * bytes) :=
  let prefix_len := (Z.of_nat (length magic_string) + 2 + Z.of_nat (header_len_num_bytes v))%Z in
  let unpadded_total_len := (prefix_len + Z.of_nat (length unpadded_arr_format) + 1)%Z in
  let padding_len := (header_divisor - unpadded_total_len mod header_divisor)%Z in
  let total_len := (unpadded_total_len + padding_len)%Z in
  let header_len := (total_len - prefix_len)%Z in
  option_map (fun formatted_header_len => (total_len, formatted_header_len))
    (format_header_len v header_len).

(* src/io/npy_header.rs:318-323 -- struct Header; the lengths in the shape are
   64-bit unsigned integers *)
Record header := mk_header {
  h_descriptor : py_value;
  h_fortran_order : bool;
  h_shape : list Z;
}.

(* num_traits ToPrimitive::to_usize on an integer *)
Definition to_usize (z : Z) : option Z :=
  if ((0 <=? z) && (z <? 2 ^ 64))%Z then Some z else None.

(* src/io/npy_header.rs:351-357 -- parse_shape *)
Fixpoint shape_of_values (l : list py_value) : option (list Z) :=
  match l with
  | [] => Some []
  | PyInteger z :: r =>
      match to_usize z, shape_of_values r with
      | Some n, Some shape => Some (n :: shape)
      | _, _ => None
      end
  | _ :: _ => None
  end.

Definition parse_shape (v : py_value) : option (list Z) :=
  match v with
  | PyTuple l => shape_of_values l
  | _ => None
  end.

Definition illegal_value {A} (key : string) (v : py_value) : outcome A :=
  Err (Serialization ("illegal value for key " +++ key +++ ": " +++ text_of (write_ascii v))).

(* src/io/npy_header.rs:336-370 -- the loop of Header::from_py_value *)
Fixpoint header_fields (entries : list (py_value * py_value))
    (descriptor : option py_value) (fortran_order : option bool) (shape : option (list Z))
  : outcome (option py_value * option bool * option (list Z)) :=
  match entries with
  | [] => Ok (descriptor, fortran_order, shape)
  | (PyString key, v) :: rest =>
      if String.eqb key "descr" then header_fields rest (Some v) fortran_order shape
      else if String.eqb key "fortran_order" then
        match v with
        | PyBoolean b => header_fields rest descriptor (Some b) shape
        | _ => illegal_value "fortran_order" v
        end
      else if String.eqb key "shape" then
        match parse_shape v with
        | Some s => header_fields rest descriptor fortran_order (Some s)
        | None => illegal_value "shape" v
        end
      else Err (Serialization ("unknown key: " +++ text_of (write_ascii (PyString key))))
  | (key, _) :: _ => Err (Serialization ("unknown key: " +++ text_of (write_ascii key)))
  end.

(* src/io/npy_header.rs:331-384 -- Header::from_py_value *)
Definition header_of_py_value (v : py_value) : outcome header :=
  match v with
  | PyDict entries =>
      let? fields := header_fields entries None None None in
      match fields with
      | (Some descriptor, Some fortran_order, Some shape) => Ok (mk_header descriptor fortran_order shape)
      | (None, _, _) => Err (Serialization "missing key: descr")
      | (_, None, _) => Err (Serialization "missing key: fortran_order")
      | (_, _, None) => Err (Serialization "missing key: shaper")
      end
  | _ => Err (Serialization ("metadata is not a dict: " +++ text_of (write_ascii v)))
  end.

Definition is_ascii_byte (c : ascii) : bool := (byte_value c <? 128)%Z.

(* std::str::from_utf8 succeeds *)
Definition between (low high : Z) (c : ascii) : bool :=
  ((low <=? byte_value c) && (byte_value c <=? high))%Z.

Fixpoint is_utf8 (fuel : nat) (b : bytes) : bool :=
  match fuel with
  | O => true
  | S fuel =>
      match b with
      | [] => true
      | c :: r =>
          if between 0 127 c then is_utf8 fuel r
          else
            match r with
            | c1 :: r1 =>
                if between 194 223 c && between 128 191 c1 then is_utf8 fuel r1
                else
                  match r1 with
                  | c2 :: r2 =>
                      if (between 224 224 c && between 160 191 c1 && between 128 191 c2)
                         || ((between 225 236 c || between 238 239 c) && between 128 191 c1 && between 128 191 c2)
                         || (between 237 237 c && between 128 159 c1 && between 128 191 c2)
                      then is_utf8 fuel r2
                      else
                        match r2 with
                        | c3 :: r3 =>
                            if ((between 240 240 c && between 144 191 c1)
                                || (between 241 243 c && between 128 191 c1)
                                || (between 244 244 c && between 128 143 c1))
                               && between 128 191 c2 && between 128 191 c3
                            then is_utf8 fuel r3
                            else false
                        | [] => false
                        end
                  | [] => false
                  end
            | [] => false
            end
      end
  end.

(* src/io/npy_header.rs:401-424 -- the text of the header, once read *)
Definition parse_header (v : version) (buffer : bytes) : outcome header :=
  match rev buffer with
  | c :: reversed =>
      if Ascii.eqb c newline then
        let text := rev reversed in
        let? _ :=
          match v with
          | V1_0 | V2_0 =>
              if forallb is_ascii_byte text then Ok tt
              else Err (Serialization
                "non-ascii in array format string; this is not supported in .npy format versions 1.0 and 2.0")
          | V3_0 =>
              if is_utf8 (S (length text)) text then Ok tt
              else Err (Serialization "error parsing array format string as UTF-8")
          end in
        match parse_literal text with
        | Some value => header_of_py_value value
        | None => Err (Serialization "error parsing metadata dict")
        end
      else Err (Serialization "newline missing at end of header")
  | [] => Err (Serialization "newline missing at end of header")
  end.

(* src/io/npy_header.rs:386-424 -- Header::from_reader *)
Definition header_from_reader (reader : bytes) : outcome (header * bytes) :=
  let? (magic, reader) := read_exact (Z.of_nat (length magic_string)) reader in
  if negb (list_eqb Ascii.eqb magic magic_string) then
    Err (Serialization "start does not match magic string")
  else
  let? (number, reader) := read_exact 2 reader in
  let? v := version_of_bytes number in
  let? (header_len, reader) := read_header_len v reader in
  let? (buffer, reader) := read_exact header_len reader in
  let? h := parse_header v buffer in
  Ok (h, reader).

(* src/io/npy_header.rs:426-446 -- Header::to_py_value *)
Definition header_to_py_value (h : header) : py_value :=
  PyDict [
    (PyString "descr", h_descriptor h);
    (PyString "fortran_order", PyBoolean (h_fortran_order h));
    (PyString "shape", PyTuple (map PyInteger (h_shape h)))
  ].

(* Vec::resize *)
Definition resize (b : bytes) (n : nat) (c : ascii) : bytes :=
  firstn n b ++ repeat c (n - length b).

(* src/io/npy_header.rs:459-473 -- the header with the chosen version. The
   debug assertions on its length are not modelled. *)
Definition header_with_version (v : version) (arr_format : bytes) : option bytes :=
  match compute_lengths v arr_format with
  | Some (total_len, formatted_header_len) =>
      let out := magic_string ++ version_bytes v ++ formatted_header_len ++ arr_format in
      Some (resize out (Z.to_nat (total_len - 1)) space ++ [newline])
  | None => None
  end.

(* src/io/npy_header.rs:448-475 -- Header::to_bytes *)
Definition header_to_bytes (h : header) : outcome bytes :=
  let arr_format := write_ascii (header_to_py_value h) in
  match header_with_version V1_0 arr_format with
  | Some out => Ok out
  | None =>
      match header_with_version V2_0 arr_format with
      | Some out => Ok out
      | None => Err (Serialization "the header is too long")
      end
  end.

(** * src/io/mod.rs *)

(* src/io/mod.rs:202-209 -- check_for_extra_bytes *)
Definition check_for_extra_bytes (reader : bytes) : outcome unit :=
  match reader with
  | [] => Ok tt
  | _ => Err (Serialization ("found " +++ string_of_nat (length reader)
           +++ " extra bytes after the expected end of data"))
  end.

(* multiplication of usize: overflows panic in debug, wrap in release *)
Definition mul_usize (p : profile) (a b : Z) : outcome Z :=
  if (a * b <? 2 ^ 64)%Z then Ok (a * b)%Z
  else match p with
       | Debug => Panic "attempt to multiply with overflow"
       | Release => Ok ((a * b) mod 2 ^ 64)%Z
       end.

(* ndarray Dimension::size *)
Definition shape_size (p : profile) (shape : list Z) : outcome Z :=
  foldM (mul_usize p) shape 1%Z.

(* vec![0; n] with elements of [width] bytes: the number of bytes must fit in
   an isize. Running out of memory is not modelled. *)
Definition vec_zeros (n width : Z) : outcome unit :=
  if (n * width <? 2 ^ 63)%Z then Ok tt else Panic "capacity overflow".

(* read_f64_into and read_i32_into: n elements of [width] bytes *)
Definition read_elements {A} (decode_one : bytes -> A) (width : nat) (n : Z) (reader : bytes)
  : outcome (list A * bytes) :=
  let? (b, reader) := read_exact (n * Z.of_nat width) reader in
  Ok (map decode_one (chunks_exact width b), reader).

Definition z_prod (shape : list Z) : Z := fold_right Z.mul 1%Z shape.

(* ndarray from_shape_vec: the product of the non-zero lengths must fit in an
   isize, and the number of elements must match *)
Definition from_shape_vec (shape : list Z) (data : list Z) : outcome ndarray :=
  if (z_prod (filter (fun n => negb (n =? 0)) shape) <? 2 ^ 63)%Z
     && (z_prod shape =? Z.of_nat (length data))%Z
  then Ok (mk_nd (map Z.to_nat shape) data)
  else Panic "invalid shape".

(* src/io/mod.rs:172-199 -- read_data *)
Definition read_data (p : profile) (reader : bytes) : outcome ndarray :=
  let? (h, reader) := header_from_reader reader in
  if h_fortran_order h then
    Err (Serialization "data can not be loaded from fortran-order arrays")
  else
  let? size := shape_size p (h_shape h) in
  let? _ := vec_zeros size 8 in
  let unknown {A} : outcome A :=
    Err (Serialization ("unknown type for data array, expected 64-bit floating points, got "
      +++ text_of (write_ascii (h_descriptor h)))) in
  let? e :=
    match h_descriptor h with
    | PyString s =>
        if String.eqb s "<f8" then Ok LittleEndian
        else if String.eqb s ">f8" then Ok BigEndian
        else unknown
    | _ => unknown
    end in
  let? (data, reader) := read_elements (decode e) 8 size reader in
  let? _ := check_for_extra_bytes reader in
  from_shape_vec (h_shape h) data.

(* src/io/mod.rs:212-232 -- write_data, on a machine of the given endianness *)
Definition write_data (e : endianness) (a : eqs_array) : outcome bytes :=
  let type_descriptor := match e with LittleEndian => "'<f8'" | BigEndian => "'>f8'" end in
  let? descriptor := expect_some "invalid dtype" (parse_literal (bytes_of type_descriptor)) in
  let? shape := array_shape a in
  let? head := header_to_bytes (mk_header descriptor false (map Z.of_nat shape)) in
  let? data := array_data a in
  Ok (head ++ flat_map (encode e 8) data).

(** * src/io/labels.rs *)

Definition invalid_dtype {A} : outcome A := Err (Serialization "invalid dtype for labels").

Definition endianness_eqb (e1 e2 : endianness) : bool :=
  match e1, e2 with
  | LittleEndian, LittleEndian | BigEndian, BigEndian => true
  | _, _ => false
  end.

(* src/io/labels.rs:87-124 -- loop over the fields of the dtype *)
Fixpoint check_fields (fields : list py_value) (names : list string) (e : option endianness)
  : outcome (list string * option endianness) :=
  match fields with
  | [] => Ok (names, e)
  | PyTuple [PyString name; PyString typ] :: rest =>
      let e :=
        match e with
        | None =>
            if String.eqb typ "<i4" then Some LittleEndian
            else if String.eqb typ ">i4" then Some BigEndian
            else None
        | some => some
        end in
      let expected :=
        if String.eqb typ "<i4" then Some LittleEndian
        else if String.eqb typ ">i4" then Some BigEndian
        else None in
      match expected, e with
      | Some e1, Some e2 =>
          if endianness_eqb e1 e2 then check_fields rest (names ++ [name]) e else invalid_dtype
      | _, _ => invalid_dtype
      end
  | _ :: _ => invalid_dtype
  end.

(* src/io/labels.rs:79-133 -- check_type_descriptor *)
Definition check_type_descriptor (descriptor : py_value) : outcome (list string * endianness) :=
  match descriptor with
  | PyList fields =>
      let? (names, e) := check_fields fields [] None in
      let? e := expect_some "failed to find endianness" e in
      Ok (names, e)
  | _ => invalid_dtype
  end.

(* src/io/labels.rs:14-37 -- read_npy_labels *)
Definition read_labels (p : profile) (reader : bytes) : outcome Labels :=
  let? (h, reader) := header_from_reader reader in
  if h_fortran_order h then
    Err (Serialization "Labels can not be loaded from fortran-order arrays")
  else
  match h_shape h with
  | [count] =>
      let? (names, e) := check_type_descriptor (h_descriptor h) in
      let? n := mul_usize p count (Z.of_nat (length names)) in
      let? _ := vec_zeros n 4 in
      let? (data, reader) := read_elements (decode_i32 e) 4 n reader in
      let? _ := check_for_extra_bytes reader in
      labels_build names (chunks_exact (length names) data)
  | _ => Err (Serialization "Expected a 1-D array when loading Labels")
  end.

(* src/io/labels.rs:44-53 -- the dtype of the labels, as text *)
Definition labels_dtype (e : endianness) (names : list string) : bytes :=
  let typ := match e with LittleEndian => "<i4" | BigEndian => ">i4" end in
  bytes_of "["
  ++ flat_map (fun name => bytes_of "('" ++ bytes_of name ++ bytes_of "', '" ++ bytes_of typ ++ bytes_of "'), ") names
  ++ bytes_of "]".

(* src/io/labels.rs:43-69 -- write_npy_labels *)
Definition write_labels (e : endianness) (l : Labels) : outcome bytes :=
  let? descriptor := expect_some "invalid dtype" (parse_literal (labels_dtype e (labels_names l))) in
  let? count := labels_count l in
  let? head := header_to_bytes (mk_header descriptor false [Z.of_nat count]) in
  let? entries := labels_iter l in
  Ok (head ++ flat_map (fun entry => flat_map (encode e 4) entry) entries).
