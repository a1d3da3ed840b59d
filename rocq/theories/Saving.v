(* Model of what is in a file after saving to it, src/io/mod.rs:117-232 and
   src/c_api/io.rs:56-71 *)
From Verif Require Import Base Labels Array Block Tensor Npy Io.
Local Open Scope string_scope.
Local Open Scope list_scope.
Local Open Scope nat_scope.

(** * Archives which are not finished *)

(* The files which were started, with what was written in them, and how it ended.
   When [save] returns early, ZipWriter::drop (zip crate, version 0.6) still writes
   the list of the files which were started: the file is an archive. *)
Definition progress : Type := archive * outcome unit.

(* the operator `?` *)
Definition and_then (first next : progress) : progress :=
  match snd first with
  | Ok _ => (fst first ++ fst next, snd next)
  | _ => first
  end.

(* src/io/labels.rs:43-69 -- what was written when write_npy_labels did not finish *)
Definition labels_left (e : endianness) (l : Labels) : bytes :=
  let head :=
    let? descriptor := expect_some "invalid dtype" (parse_literal (labels_dtype e (labels_names l))) in
    let? count := labels_count l in
    header_to_bytes (mk_header descriptor false [Z.of_nat count]) in
  match head with Ok head => head | _ => [] end.

(* src/io/mod.rs:212-232 -- what was written when write_data did not finish: the
   header, unless the shape can not be found *)
Definition data_left (e : endianness) (a : eqs_array) : bytes :=
  let type_descriptor := match e with LittleEndian => "'<f8'" | BigEndian => "'>f8'" end in
  let head :=
    let? descriptor := expect_some "invalid dtype" (parse_literal (bytes_of type_descriptor)) in
    let? shape := array_shape a in
    header_to_bytes (mk_header descriptor false (map Z.of_nat shape)) in
  match head with Ok head => head | _ => [] end.

(* archive.start_file, and then the content *)
Definition put_file (path : string) (content : outcome bytes) (left : bytes) : progress :=
  match content with
  | Ok file => ([(path, file)], Ok tt)
  | failure => ([(path, left)], let? _ := failure in Ok tt)
  end.

Definition put_labels (e : endianness) (path : string) (l : Labels) : progress :=
  put_file path (write_labels e l) (labels_left e l).

Definition put_data (e : endianness) (path : string) (data : eqs_array) : progress :=
  put_file path (write_data e data) (data_left e data).

(* src/io/mod.rs:138-142 and 157-161 *)
Fixpoint put_components (e : endianness) (directory : string) (i : nat) (components : list Labels) : progress :=
  match components with
  | [] => ([], Ok tt)
  | component :: rest =>
      and_then (put_labels e (component_path directory i) component) (put_components e directory (i + 1) rest)
  end.

(* src/io/mod.rs:148-162 *)
Fixpoint put_gradients (e : endianness) (block_i : nat) (gradients : list (string * BasicBlock)) : progress :=
  match gradients with
  | [] => ([], Ok tt)
  | (parameter, gradient) :: rest =>
      let directory := gradient_directory block_i parameter in
      and_then (put_data e (directory +++ "/data.npy") (bb_data gradient))
        (and_then (put_labels e (directory +++ "/samples.npy") (bb_samples gradient))
          (and_then (put_components e directory 0 (bb_components gradient))
            (put_gradients e block_i rest)))
  end.

(* src/io/mod.rs:129-163 *)
Fixpoint put_blocks (e : endianness) (block_i : nat) (blocks : list TensorBlock) : progress :=
  match blocks with
  | [] => ([], Ok tt)
  | block :: rest =>
      let directory := values_directory block_i in
      let values := tb_values block in
      and_then (put_data e (directory +++ "/data.npy") (bb_data values))
        (and_then (put_labels e (directory +++ "/samples.npy") (bb_samples values))
          (and_then (put_components e directory 0 (bb_components values))
            (and_then (put_labels e (directory +++ "/properties.npy") (bb_properties values))
              (and_then (put_gradients e block_i (tb_gradients block))
                (put_blocks e (block_i + 1) rest)))))
  end.

(* src/io/mod.rs:117-168 -- save, with everything written so far *)
Definition put_tensor (e : endianness) (t : TensorMap) : progress :=
  and_then (put_labels e "keys.npy" (tm_keys t)) (put_blocks e 0 (tm_blocks t)).

(** * Buffered files *)

(* The zip crate writes to a BufWriter (src/c_api/io.rs:66), which keeps up to
   8 KiB in memory. Content of the file, position in the file, bytes in the buffer,
   and what the operating system will do with the next writes: an error after some
   bytes, or no error. When nothing is left there are no more errors. *)
Record buffered := mk_buffered {
  f_content : bytes;
  f_position : nat;
  f_buffer : bytes;
  f_answers : list (option nat);
}.

Definition capacity : nat := 8 * 1024.

(* replace the bytes at this position; bytes which were never written are zero *)
Definition overwrite (content : bytes) (position : nat) (new : bytes) : bytes :=
  match new with
  | [] => content
  | _ =>
      firstn position content ++ repeat (ascii_of_nat 0) (position - length content) ++ new
      ++ skipn (position + length new) content
  end.

(* File::write_all: is everything written? *)
Definition raw_write (f : buffered) (new : bytes) : buffered * bool :=
  match f_answers f with
  | [] => (mk_buffered (overwrite (f_content f) (f_position f) new) (f_position f + length new) (f_buffer f) [], true)
  | None :: answers =>
      (mk_buffered (overwrite (f_content f) (f_position f) new) (f_position f + length new) (f_buffer f) answers, true)
  | Some n :: answers =>
      let new := firstn n new in
      (mk_buffered (overwrite (f_content f) (f_position f) new) (f_position f + length new) (f_buffer f) answers, false)
  end.

(* BufWriter::flush_buf: nothing is done if the buffer is empty; bytes which could
   not be written stay in the buffer *)
Definition flush_buf (f : buffered) : buffered * bool :=
  match f_buffer f with
  | [] => (f, true)
  | buffer =>
      let '(g, ok) := raw_write f buffer in
      (mk_buffered (f_content g) (f_position g) (skipn (f_position g - f_position f) buffer) (f_answers g), ok)
  end.

(* BufWriter::write_all, and BufWriter::seek to an absolute position. The zip crate
   also uses stream_position, which is a seek to the current position. *)
Inductive file_op :=
| WriteAll (new : bytes)
| SeekTo (position : nat).

Definition file_step (f : buffered) (op : file_op) : buffered * bool :=
  match op with
  | WriteAll new =>
      if length (f_buffer f) + length new <? capacity
      then (mk_buffered (f_content f) (f_position f) (f_buffer f ++ new) (f_answers f), true)
      else
        let '(f, ok) := if capacity <? length (f_buffer f) + length new then flush_buf f else (f, true) in
        if ok then
          if capacity <=? length new then raw_write f new
          else (mk_buffered (f_content f) (f_position f) (f_buffer f ++ new) (f_answers f), true)
        else (f, false)
  | SeekTo position =>
      let '(f, ok) := flush_buf f in
      if ok then (mk_buffered (f_content f) position (f_buffer f) (f_answers f), true) else (f, false)
  end.

(* the operations of the zip crate, until the first error *)
Fixpoint file_steps (f : buffered) (ops : list file_op) : buffered * bool :=
  match ops with
  | [] => (f, true)
  | op :: ops =>
      let '(f, ok) := file_step f op in
      if ok then file_steps f ops else (f, false)
  end.

(* src/c_api/io.rs:66-67 and src/io/mod.rs:165 -- File::create, the operations until
   the end of archive.finish(), and then BufWriter::drop, which ignores errors. The
   content of the file, and is there an error? After an error ZipWriter::drop does
   more operations, which are not modelled. *)
Definition write_through (answers : list (option nat)) (ops : list file_op) : bytes * bool :=
  let '(f, ok) := file_steps (mk_buffered [] 0 [] answers) ops in
  (f_content (fst (flush_buf f)), ok).
