(** Statement vocabulary: sessions of the modelled writer. *)
From Coq Require Import ZArith List Bool String.
Import ListNotations.
From Verif Require Import Outcome Bytes Float64 Vlr_Model Schema_Model Header_Model Point_Model Stream_Model Writer_Model.
Local Open Scope Z_scope.
Local Notation length := List.length (only parsing).

Fixpoint write_points (w : writer) (ps : list point) : outcome writer :=
  match ps with
  | [] => Ok w
  | p :: r => let! w1 := write_point w p in write_points w1 r
  end.

(** A whole session: open on the file [old] (empty: a new file), write, close. *)
Definition write_session (sv : schema -> vlr) (old : list Z) (h : header) (ps : list point) : outcome (list Z) :=
  let! w := writer_new sv (os_open old) h in
  let! w1 := write_points w ps in writer_close w1.
Definition write_file (sv : schema -> vlr) (h : header) (ps : list point) : outcome (list Z) :=
  write_session sv [] h ps.

(** The bytes of a point that go to the file. *)
Definition record_of (len : Z) (p : point) : list Z := firstn (Z.to_nat len) (p_data p).
Definition records (len : Z) (ps : list point) : list Z := List.concat (map (record_of len) ps).
(** A point with at least [len] bytes of data. *)
Definition point_fits (len : Z) (p : point) : Prop := len <= Z.of_nat (length (p_data p)) /\ p_data p <> [].
