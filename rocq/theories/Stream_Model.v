(** Model of the standard streams as the code uses them (std::ifstream /
    std::ofstream / std::fstream in binary mode, C++11 semantics):

    - the file content is a byte list; one position;
    - reading past the end yields the available bytes and sets eofbit and failbit;
    - seekg first clears eofbit and does nothing when failbit is set; positions
      past the end are allowed (file buffers, not string buffers);
    - writing past the end fills the gap with zeros;
    - badbit (I/O errors of the device) never occurs; a write never fails. *)
From Coq Require Import ZArith List Bool.
Import ListNotations.
From Verif Require Import Outcome Bytes Float64.
Local Open Scope Z_scope.

(** ** input *)
Record istream := mkIs { is_data : list Z; is_pos : nat; is_eof : bool; is_fail : bool }.

Definition is_open (data : list Z) : istream := mkIs data 0 false false.
(** std::istream::clear() *)
Definition is_clear (s : istream) : istream := mkIs (is_data s) (is_pos s) false false.
(** std::istream::seekg(pos, beg) *)
Definition is_seek (s : istream) (pos : Z) : istream :=
  if is_fail s then mkIs (is_data s) (is_pos s) false true
  else if pos <? 0 then mkIs (is_data s) (is_pos s) false true
  else mkIs (is_data s) (Z.to_nat pos) false false.
(** std::istream::read(buf, n): the bytes stored in the buffer and the new state *)
Definition is_read (s : istream) (n : nat) : list Z * istream :=
  if is_eof s || is_fail s then ([], mkIs (is_data s) (is_pos s) (is_eof s) true)
  else
    let bs := firstn n (skipn (is_pos s) (is_data s)) in
    if (length bs <? n)%nat
    then (bs, mkIs (is_data s) (is_pos s + length bs) true true)
    else (bs, mkIs (is_data s) (is_pos s + n) false false).

(** The destination after [bs] was read over it: bytes not read keep their old
    value. *)
Definition patch (old bs : list Z) : list Z := bs ++ skipn (length bs) old.

(** private_utility.hpp:286-299 [read_n<T>] (check_stream_state is empty outside
    DEBUG builds, 262-279): throws if the stream is already unreadable, otherwise
    reads, silently accepting a short read. *)
Definition read_n (s : istream) (old : list Z) : outcome (list Z * istream) :=
  if is_fail s then Throw ERuntime
  else let (bs, s') := is_read s (length old) in Ok (patch old bs, s').
(** ... for an unsigned integer variable of [n] bytes holding [old] *)
Definition read_uint (s : istream) (n : nat) (old : Z) : outcome (Z * istream) :=
  let! (bs, s') := read_n s (le_enc n old) in Ok (le_dec bs, s').
(** ... for a double variable *)
Definition read_f64 (s : istream) (old : f64) : outcome (f64 * istream) :=
  let! (bs, s') := read_n s (le_enc 8 (f64_bits old)) in Ok (f64_of_bits (le_dec bs), s').
(** private_utility.hpp:338-357 [read_n<std::string>]: the buffer is fresh heap
    memory, so a short read leaves indeterminate characters in the string. *)
Definition read_string (s : istream) (n : nat) : outcome (list Z * istream) :=
  if is_fail s then Throw ERuntime
  else let (bs, s') := is_read s n in
       if (length bs <? n)%nat then UB UBUninit else Ok (bs, s').

(** ** output *)
Record ostream := mkOs { os_data : list Z; os_pos : Z; os_fail : bool }.

Definition os_open (data : list Z) : ostream := mkOs data 0 false.
(** The file after [bs] is written at [pos]. *)
Definition file_write (data : list Z) (pos : nat) (bs : list Z) : list Z :=
  match bs with
  | [] => data
  | _ => firstn pos data ++ repeat 0 (pos - length data) ++ bs ++ skipn (pos + length bs) data
  end.
(** seekp(pos, beg) and seekp(off, end) *)
Definition os_seek (s : ostream) (pos : Z) : ostream :=
  if os_fail s then s
  else if pos <? 0 then mkOs (os_data s) (os_pos s) true
  else mkOs (os_data s) pos false.
Definition os_seek_end (s : ostream) (off : Z) : ostream :=
  os_seek s (Z.of_nat (length (os_data s)) + off).
(** private_utility.hpp:381-393, 437-446 [write_n] *)
Definition os_write (s : ostream) (bs : list Z) : outcome ostream :=
  if os_fail s then Throw ERuntime
  else Ok (mkOs (file_write (os_data s) (Z.to_nat (os_pos s)) bs) (os_pos s + Z.of_nat (length bs)) false).
Fixpoint os_write_all (s : ostream) (chunks : list (list Z)) : outcome ostream :=
  match chunks with
  | [] => Ok s
  | c :: r => let! s1 := os_write s c in os_write_all s1 r
  end.
