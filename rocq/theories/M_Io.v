(** * Model of include/ulight/impl/io.hpp and src/main/cpp/io.cpp: file handles and loading files. *)
From Coq Require Import List NArith Bool Arith.
From Verif Require Import M_Base M_Utf8.
Import ListNotations.

(** ** File handles *)
(** io.hpp:40-43 (Unique_File): the pointer [m_file]; a FILE is named by a number. *)
Definition handle := option nat.
(** A program with some handles: [None] is a handle whose lifetime has ended. [next] is the name of
    the next FILE that std::fopen returns; [closed] are the arguments of the calls of std::fclose,
    last call first; [released] are the results of release(). *)
Record files := mk_files { handles : list (option handle); next : nat; closed : list nat; released : list nat }.

(** The operations of a history. The numbers name handles in order of construction. *)
Inductive op :=
| op_default                       (* Unique_File x; or fopen_unique that fails *)
| op_open                          (* fopen_unique that succeeds *)
| op_move_construct (i : nat)      (* Unique_File x { std::move(i) } *)
| op_move_assign (i j : nat)       (* i = std::move(j) *)
| op_swap (i j : nat)              (* swap(i, j) *)
| op_close (i : nat)               (* i.close() *)
| op_release (i : nat)             (* i.release() *)
| op_destroy (i : nat).            (* the lifetime of i ends *)

(** A handle in its lifetime *)
Definition alive (i : nat) (st : files) : option handle :=
  match nth_error (handles st) i with Some (Some h) => Some h | _ => None end.
Fixpoint put (l : list (option handle)) (i : nat) (h : option handle) : list (option handle) :=
  match l, i with
  | [], _ => []
  | _ :: l', O => h :: l'
  | x :: l', S i => x :: put l' i h
  end.
Definition store (i : nat) (h : option handle) (st : files) : files :=
  mk_files (put (handles st) i h) (next st) (closed st) (released st).
Definition construct (h : handle) (st : files) : files :=
  mk_files (handles st ++ [Some h]) (next st) (closed st) (released st).

(** io.hpp:72-77 (close): the pointer is kept *)
Definition close (h : handle) (st : files) : files :=
  match h with
  | Some f => mk_files (handles st) (next st) (f :: closed st) (released st)
  | None => st
  end.
(** io.hpp:67-70 (swap) *)
Definition swap_handles (i j : nat) (hi hj : handle) (st : files) : files :=
  store j (Some hi) (store i (Some hj) st).

(** One operation; [None] if it uses a handle outside of its lifetime. *)
Definition perform (o : op) (st : files) : option files :=
  match o with
  | op_default => Some (construct None st)                                     (* io.hpp:45 *)
  | op_open =>                                                                 (* io.hpp:47-50, 103-108 *)
    Some (construct (Some (next st)) (mk_files (handles st) (S (next st)) (closed st) (released st)))
  | op_move_construct i =>                                                     (* io.hpp:52-55 *)
    match alive i st with
    | Some h => Some (construct h (store i (Some None) st))
    | None => None
    end
  | op_move_assign i j =>                                                      (* io.hpp:60-65 *)
    match alive i st, alive j st with
    | Some hi, Some hj =>
      let st := swap_handles i j hi hj st in
      match alive j st with Some h => Some (close h st) | None => None end
    | _, _ => None
    end
  | op_swap i j =>                                                             (* io.hpp:67-70 *)
    match alive i st, alive j st with
    | Some hi, Some hj => Some (swap_handles i j hi hj st)
    | _, _ => None
    end
  | op_close i => match alive i st with Some h => Some (close h st) | None => None end
  | op_release i =>                                                            (* io.hpp:79-83 *)
    match alive i st with
    | Some h =>
      let st := store i (Some None) st in
      Some (match h with Some f => mk_files (handles st) (next st) (closed st) (f :: released st) | None => st end)
    | None => None
    end
  | op_destroy i =>                                                            (* io.hpp:97-100 *)
    match alive i st with
    | Some h => Some (store i None (close h st))
    | None => None
    end
  end.
Definition no_files : files := mk_files [] 0 [] [].
Fixpoint perform_all (os : list op) (st : files) : option files :=
  match os with
  | [] => Some st
  | o :: os' => match perform o st with Some st' => perform_all os' st' | None => None end
  end.

(** ** Loading files *)
(** io.hpp:27-38 (IO_Error_Code); write_error is never produced when loading *)
Inductive io_error := cannot_open | read_error | corrupted.
Inductive loaded (A : Type) := Loaded (a : A) | Not_loaded (e : io_error).
Arguments Loaded {A} a.
Arguments Not_loaded {A} e.

(** What std::fopen finds for a name: nothing, or a stream with the given bytes. Reading at
    the position [bad], if there is one, is an error (std::ferror); the end of the content may be that position,
    positions beyond the end are never reached. *)
Record stream := mk_stream { content : str; bad : option nat }.
Definition disk := str -> option stream.

(** The C string at the start of a buffer; [None] if there is no terminator in the buffer. *)
Fixpoint c_string (buffer : str) : option str :=
  match buffer with
  | [] => None
  | c :: b => if (c =? 0)%N then Some [] else match c_string b with Some s => Some (c :: s) | None => None end
  end.

(** io.cpp:37-45: the loop. [pos] is the position of the stream, [chunks] what was given to
    consume_chunk. std::fread reads as many bytes as asked for, unless the file ends or there is an error. *)
Fixpoint read_loop (fuel : nat) (block : nat) (s : stream) (pos : nat) (chunks : list str) : res (loaded (list str)) :=
  match fuel with
  | O => Fail FFuel
  | S fuel =>
    let chunk := firstn block (skipn pos (content s)) in
    match bad s with
    | Some k => if (pos <=? k) && (k <? pos + block) && (k <=? length (content s)) then Ok (Not_loaded read_error)
                else if length chunk =? block then read_loop fuel block s (pos + block) (chunks ++ [chunk])
                else Ok (Loaded (chunks ++ [chunk]))
    | None => if length chunk =? block then read_loop fuel block s (pos + block) (chunks ++ [chunk])
              else Ok (Loaded (chunks ++ [chunk]))
    end
  end.
(** io.cpp:19-48 (file_to_bytes_chunked); [block] is BUFSIZ *)
Definition file_to_bytes_chunked (block : nat) (d : disk) (path : str) : res (loaded (list str)) :=
  if block <? length path then Ok (Not_loaded cannot_open)
  else
    let buffer := path ++ repeat 0%N (block - length path) in
    match c_string buffer with
    | None => Fail FUB
    | Some name =>
      match d name with
      | None => Ok (Not_loaded cannot_open)
      | Some s => read_loop (length (content s) + 1) block s 0 []
      end
    end.
(** io.hpp:130-143 (file_to_bytes): the vector afterwards. On an error some chunks may have been
    appended; the model keeps only the code. *)
Definition file_to_bytes (block : nat) (d : disk) (out path : str) : res (loaded str) :=
  let* r := file_to_bytes_chunked block d path in
  Ok (match r with Loaded chunks => Loaded (out ++ concat chunks) | Not_loaded e => Not_loaded e end).
(** io.cpp:50-62 (load_utf8_file into a vector) *)
Definition load_utf8_file_into (block : nat) (d : disk) (out path : str) : res (loaded str) :=
  let initial_size := length out in
  let* r := file_to_bytes block d out path in
  match r with
  | Not_loaded e => Ok (Not_loaded e)
  | Loaded out =>
    let* v := is_valid (skipn initial_size out) in
    Ok (match v with Value _ => Loaded out | Unexpected _ => Not_loaded corrupted end)
  end.
(** io.cpp:64-71 (load_utf8_file) *)
Definition load_utf8_file (block : nat) (d : disk) (path : str) : res (loaded str) := load_utf8_file_into block d [] path.
(** io.cpp:73-92 (load_utf32le_file): std::memcpy on a little endian machine *)
Fixpoint units32 (bytes : str) : str :=
  match bytes with
  | a :: b :: c :: d :: rest => (a + 256 * (b + 256 * (c + 256 * d)))%N :: units32 rest
  | _ => []
  end.
Definition load_utf32le_file (block : nat) (d : disk) (path : str) : res (loaded str) :=
  let* r := file_to_bytes block d [] path in
  Ok (match r with
      | Not_loaded e => Not_loaded e
      | Loaded bytes => if negb (length bytes mod 4 =? 0) then Not_loaded corrupted else Loaded (units32 bytes)
      end).
