(** Model of a Writer with its filters and transforms:
    /repo/src/writer.cpp:97-134, /repo/src/detail/writer/writer.cpp:59-129,
    /repo/include/liblas/detail/writer/writer.hpp:55-93.  LASWriter_SetOutputSRS
    and LASWriter_SetSRS (/repo/src/c_api.cpp:1843-1880) reach a file only through
    SetTransforms.  A filter is a function of the point, a transform turns a point
    into another or throws.  Not modelled: the compressing writer (same empty use,
    detail/writer/zipwriter.cpp:169-185), Writer::SetHeader after construction. *)
From Coq Require Import ZArith List Bool.
Import ListNotations.
From Verif Require Import Outcome Bytes Schema_Model Header_Model Vlr_Model Point_Model Stream_Model Writer_Model.
Local Open Scope Z_scope.

Definition pfilter : Type := point -> bool.
Definition ptransform : Type := point -> outcome point.

(** detail/writer/writer.hpp:75-83 (m_header_writer, m_filters, m_transforms, m_header) *)
Record fwriter := mkFWriter { fw_writer : writer; fw_filters : list pfilter; fw_transforms : list ptransform }.
(** writer.cpp:52-69, detail/writer/writer.cpp:56-63: both lists start empty *)
Definition fw_new (sv : schema -> vlr) (s : ostream) (h : header) : outcome fwriter :=
  let! w := writer_new sv s h in Ok (mkFWriter w [] []).
(** detail/writer/writer.cpp:114-117 *)
Definition fw_set_filters (f : fwriter) (l : list pfilter) : fwriter := mkFWriter (fw_writer f) l (fw_transforms f).
(** detail/writer/writer.cpp:118-121 *)
Definition fw_get_filters (f : fwriter) : list pfilter := fw_filters f.
(** detail/writer/writer.cpp:123-126 *)
Definition fw_set_transforms (f : fwriter) (l : list ptransform) : fwriter := mkFWriter (fw_writer f) (fw_filters f) l.
(** detail/writer/writer.cpp:127-130 *)
Definition fw_get_transforms (f : fwriter) : list ptransform := fw_transforms f.
(** writer.cpp:106-110, detail/writer/writer.cpp:90-97: neither list is looked at *)
Definition fw_write_point (f : fwriter) (p : point) : outcome fwriter :=
  let! w := write_point (fw_writer f) p in Ok (mkFWriter w (fw_filters f) (fw_transforms f)).
(** writer.cpp:112-117 *)
Definition fw_write_header (sv : schema -> vlr) (f : fwriter) : outcome fwriter :=
  let! w := writer_write_header sv (fw_writer f) in Ok (mkFWriter w (fw_filters f) (fw_transforms f)).

(** A history of calls on one writer. *)
Inductive wcall := CFilters (l : list pfilter) | CTransforms (l : list ptransform) | CPoint (p : point) | CHeader.
Definition fw_call (sv : schema -> vlr) (f : fwriter) (c : wcall) : outcome fwriter :=
  match c with
  | CFilters l => Ok (fw_set_filters f l)
  | CTransforms l => Ok (fw_set_transforms f l)
  | CPoint p => fw_write_point f p
  | CHeader => fw_write_header sv f
  end.
Fixpoint fw_calls (sv : schema -> vlr) (f : fwriter) (cs : list wcall) : outcome fwriter :=
  match cs with [] => Ok f | c :: cs => let! f := fw_call sv f c in fw_calls sv f cs end.
(** Open on the file [old], the calls, close. *)
Definition fw_session (sv : schema -> vlr) (old : list Z) (h : header) (cs : list wcall) : outcome (list Z) :=
  let! f := fw_new sv (os_open old) h in
  let! f := fw_calls sv f cs in writer_close (fw_writer f).
