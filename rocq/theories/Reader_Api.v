(** Statement vocabulary: histories of calls on the modelled reader, without
    filters and transforms. *)
From Coq Require Import ZArith List Bool String.
Import ListNotations.
From Verif Require Import Outcome Bytes Float64 Schema_Model Header_Model Vlr_Model Point_Model Stream_Model Reader_Model Reader_Spec.
Local Open Scope Z_scope.

Definition no_filter : option (unit -> point -> bool * unit) := None.
Definition no_transform (p : point) : outcome (list Z) := Ok (p_data p).

Definition ans {A} (o : outcome A) (f : A -> rans) : outcome rans :=
  match o with Ok a => Ok (f a) | Throw e => Ok (AError e) | UB u => UB u end.
Definition of_bool (b : bool) : rans := if b then ATrue else AFalse.

Definition rop_run (xml : vlr -> outcome schema) (r : reader) (o : rop) : reader * outcome rans :=
  match o with
  | RNext => let (rf, a) := reader_next no_filter no_transform r tt in (fst rf, ans a of_bool)
  | RAt n => let (r1, a) := reader_at no_transform r n in (r1, ans a of_bool)
  | RSeek n => let (r1, a) := reader_seek r n in (r1, ans a of_bool)
  | RReset => match reader_reset xml r with
              | Ok r1 => (r1, Ok ATrue)
              | Throw e => (r, Ok (AError e))
              | UB u => (r, UB u)
              end
  end.
(** Runs a history; undefined behaviour stops it. *)
Fixpoint rops_run (xml : vlr -> outcome schema) (r : reader) (ops : list rop)
  : outcome (reader * list (rans * list Z)) :=
  match ops with
  | [] => Ok (r, [])
  | o :: rest =>
      let (r1, a) := rop_run xml r o in
      let! a := a in
      let! (r2, obs) := rops_run xml r1 rest in Ok (r2, (a, r_data r1) :: obs)
  end.

(** Reads until ReadNextPoint returns false (or [fuel] calls): the points
    returned and the reader and filter state left behind. *)
Fixpoint read_all {FS} (flt : option (FS -> point -> bool * FS)) (fuel : nat) (r : reader) (fs : FS)
  : outcome (list (list Z) * bool * reader * FS) :=
  match fuel with
  | O => Ok ([], false, r, fs)
  | S k =>
      match reader_next flt no_transform r fs with
      | ((r1, fs1), Ok true) => let! (l, b, r2, fs2) := read_all flt k r1 fs1 in Ok (r_data r1 :: l, b, r2, fs2)
      | ((r1, fs1), Ok false) => Ok ([], true, r1, fs1)
      | (_, Throw e) => Throw e
      | (_, UB u) => UB u
      end
  end.
(** A filter without state. *)
Definition stateless (keep : point -> bool) : option (unit -> point -> bool * unit) := Some (fun _ p => (keep p, tt)).
