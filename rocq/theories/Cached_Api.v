(** Statement vocabulary for the cached reader: histories of calls on the model,
    and the cursor machine that describes its behaviour. *)
From Coq Require Import ZArith List Bool.
Import ListNotations.
From Verif Require Import Outcome Bytes Schema_Model Vlr_Model Point_Model Reader_Model Reader_Spec Reader_Api Cached_Model.
Local Open Scope Z_scope.

Definition crop_run (xml : vlr -> outcome schema) (q : cached) (o : rop) : cached * outcome rans :=
  match o with
  | RNext => let (qf, a) := creader_next no_filter no_transform q tt in (fst qf, ans a of_bool)
  | RAt n => let (q1, a) := creader_at no_transform q n in (q1, ans a of_bool)
  | RSeek n => let (q1, a) := creader_seek q n in (q1, ans a of_bool)
  | RReset => match cached_read_header xml q with
              | Ok q1 => (q1, Ok ATrue)
              | Throw e => (q, Ok (AError e))
              | UB u => (q, UB u)
              end
  end.
(** As [rops_run]: result and current point after every call. *)
Fixpoint crops_run (xml : vlr -> outcome schema) (q : cached) (ops : list rop)
  : outcome (cached * list (rans * list Z)) :=
  match ops with
  | [] => Ok (q, [])
  | o :: rest =>
      let (q1, a) := crop_run xml q o in
      let! a := a in
      let! (q2, obs) := crops_run xml q1 rest in Ok (q2, (a, r_data (q_rd q1)) :: obs)
  end.

(** The cached reader as a cursor: number [c] of the next record, whether any
    record has been read yet, current point. *)
Definition ccur_step (F : list Z) (st : Z * bool * list Z) (o : rop) : (Z * bool * list Z) * rans :=
  let '(c, t, p) := st in
  let n := f_npts F in
  match o with
  | RNext => if c =? n then (st, AFalse) else ((c + 1, true, file_record F c), ATrue)
  | RAt k => if k <? n then ((k, true, file_record F k), ATrue) else (st, AError EOutOfRange)
  | RSeek k => if k <? n then ((k, t, p), ATrue) else ((n, t, p), AFalse)
  | RReset => ((if t then 0 else c, t, p), ATrue)
  end.
Fixpoint ccur_run (F : list Z) (st : Z * bool * list Z) (ops : list rop) : list (rans * list Z) :=
  match ops with
  | [] => []
  | o :: r => let (st1, a) := ccur_step F st o in (a, snd st1) :: ccur_run F st1 r
  end.
(** Seeks at most to the end. *)
Definition seeks_to_end (F : list Z) (o : rop) : Prop :=
  match o with RSeek n => 0 <= n <= f_npts F | RAt n => 0 <= n | _ => True end.

(** Histories on which the cached reader is claimed to behave like the plain one:
    no ReadPointAt, Seek only to existing records, ... *)
Definition seeks_inside (F : list Z) (o : rop) : Prop :=
  match o with RSeek n => 0 <= n < f_npts F | RAt _ => False | _ => True end.
(** ... and no Reset between a Seek and the first read. *)
Fixpoint read_before_reset (ops : list rop) : Prop :=
  match ops with
  | [] => True
  | RNext :: _ | RAt _ :: _ => True
  | RReset :: _ => False
  | RSeek _ :: r => read_before_reset r
  end.
Fixpoint no_early_seek_reset (ops : list rop) : Prop :=
  match ops with
  | RReset :: r => no_early_seek_reset r
  | RSeek _ :: r => read_before_reset r
  | _ => True
  end.

(** The number of records held, given the cache size asked for (0: all). *)
Definition kept (F : list Z) (size : Z) : Z := if size =? 0 then f_npts F else Z.min size (f_npts F).
