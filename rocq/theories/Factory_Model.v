(** Model of /repo/src/factory.cpp: the functions that make readers and writers
    from streams, in a build without LASzip, and the guess of a file's type from
    its name. *)
From Coq Require Import ZArith List Bool String.
Import ListNotations.
From Verif Require Import Outcome Bytes CStr Schema_Model Header_Model Vlr_Model Point_Model Stream_Model Reader_Model Cached_Model.
Local Open Scope Z_scope.

(** src/reader.cpp:65-69, 166-169 [Reader(std::istream&)] on a stream in any state
    (detail/reader/reader.cpp:61-72, 127-143) *)
Definition reader_on (xml_schema : vlr -> outcome schema) (doy year : Z) (s : istream) : outcome reader :=
  let! h := header_new doy year in
  impl_read_header xml_schema s h (repeat 0 (Z.to_nat (get_record_length h))).
(** The same for the cached reader (cachedreader.cpp:62-93, src/reader.cpp:72-76,
    166-169). *)
Definition cached_on (xml_schema : vlr -> outcome schema) (doy year size : Z) (s : istream) : outcome cached :=
  let! h := header_new doy year in
  cached_read_header xml_schema
    (mkCached (mkRd s h (repeat 0 (Z.to_nat (get_record_length h))) 0 0 0) [] size 0 0 [] false).

(** factory.cpp:76-78, 91-93: a header reader of its own reads the header first;
    its header is dropped, the stream stays where it was left *)
Definition peek_header (xml_schema : vlr -> outcome schema) (doy year : Z) (s : istream) : outcome (header * istream) :=
  let! h := header_new doy year in read_header xml_schema s h.
(** factory.cpp:89-107 *)
Definition create_with_stream (xml_schema : vlr -> outcome schema) (doy year : Z) (s : istream) : outcome reader :=
  let! (h, s1) := peek_header xml_schema doy year s in
  if h_comp h then Throw EConfiguration else reader_on xml_schema doy year s1.
(** factory.cpp:74-87 *)
Definition create_cached (xml_schema : vlr -> outcome schema) (doy year size : Z) (s : istream) : outcome cached :=
  let! (h, s1) := peek_header xml_schema doy year s in
  if h_comp h then Throw EConfiguration else cached_on xml_schema doy year size s1.

(** factory.hpp:92-99 *)
Inductive file_type := FileUnknown | FileLAS | FileLAZ.
(** tolower in the C locale, on the bytes of a name (bytes above 127 stay) *)
Definition lower (c : Z) : Z := if (65 <=? c) && (c <=? 90) then c + 32 else c.
(** factory.cpp:134-142 *)
Fixpoint streq_loop (p q : list Z) : bool :=
  match p, q with
  | a :: p, b :: q => if negb (lower a =? lower b) then false else streq_loop p q
  | _, _ => true
  end.
Definition streq_insensitive (p q : list Z) : bool :=
  if negb (List.length p =? List.length q)%nat then false else streq_loop p q.
(** std::string::rfind('.'): the text from the last dot on, if there is one *)
Fixpoint from_last_dot (s : list Z) : option (list Z) :=
  match s with
  | [] => None
  | c :: r => match from_last_dot r with
              | Some e => Some e
              | None => if c =? 46 then Some (c :: r) else None
              end
  end.
(** factory.cpp:145-161 *)
Definition infer_file_type (name : list Z) : file_type :=
  match from_last_dot name with
  | None => FileUnknown
  | Some ext => if streq_insensitive ext (str ".laz") then FileLAZ
                else if streq_insensitive ext (str ".las") then FileLAS else FileUnknown
  end.
