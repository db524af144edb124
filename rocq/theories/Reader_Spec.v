(** Specification of reading: what a user expects of a reader over a complete
    file, as a cursor over the records of the file. *)
From Coq Require Import ZArith List Bool String.
Import ListNotations.
From Verif Require Import Outcome Bytes Float64 Stream_Proofs IO_Spec Float64_Proofs.
Local Open Scope Z_scope.
Local Notation length := List.length (only parsing).

Definition f_npts (F : list Z) : Z := u_at F 107 4.
Definition f_reclen (F : list Z) : Z := u_at F 105 2.
Definition f_doff (F : list Z) : Z := u_at F 96 4.
(** Record [k] of a file. *)
Definition file_record (F : list Z) (k : Z) : list Z :=
  slice F (Z.to_nat (f_doff F + k * f_reclen F)) (Z.to_nat (f_reclen F)).
(** All declared records are in the file. *)
Definition complete (F : list Z) : Prop :=
  0 < f_reclen F /\ (0 < f_npts F -> f_doff F + f_npts F * f_reclen F <= Z.of_nat (length F)).
(** Scale factors and offsets are finite numbers. *)
Definition finite_scaling (F : list Z) : Prop :=
  Forall (fun o => f64_fin (f64_of_bits (u_at F o 8)) = true) [131; 139; 147; 155; 163; 171]%nat.

(** Calls a user makes. *)
Inductive rop := RNext | RAt (n : Z) | RSeek (n : Z) | RReset.
(** Their results: true (success), false, or an exception. *)
Inductive rans := ATrue | AFalse | AError (e : exn).

(** Cursor machine: number of the next record, and the bytes of the current
    point. *)
Definition cur_step (F : list Z) (st : Z * list Z) (o : rop) : (Z * list Z) * rans :=
  let (c, p) := st in
  match o with
  | RNext => if c <? f_npts F then ((c + 1, file_record F c), ATrue) else ((c, p), AFalse)
  | RAt n => if n <? f_npts F then ((c, file_record F n), ATrue) else ((c, p), AError EOutOfRange)
  | RSeek n => if n <? f_npts F then ((n, p), ATrue)
               else if n =? f_npts F then ((c, p), AFalse) else ((c, p), AError ERuntime)
  | RReset => ((0, p), ATrue)
  end.
(** Observations of a history: after each call its result and the current point. *)
Fixpoint cur_run (F : list Z) (st : Z * list Z) (ops : list rop) : list (rans * list Z) :=
  match ops with
  | [] => []
  | o :: r => let (st1, a) := cur_step F st o in (a, snd st1) :: cur_run F st1 r
  end.

Definition is_at (o : rop) : bool := match o with RAt _ => true | _ => false end.
Definition rop_ok (o : rop) : Prop := match o with RAt n | RSeek n => 0 <= n | _ => True end.

(** The file ends with its last declared record. *)
Definition exact_end (F : list Z) : Prop :=
  0 < f_npts F -> f_doff F + f_npts F * f_reclen F = Z.of_nat (length F).

(** What the library does when ReadPointAt is mixed in: besides the number [c] of
    the next sequential record there is a second cursor [s] for the place in the
    file; [None] when reading ran into the end of the file.  Sequential reading
    counts with [c] but reads at [s]. *)
Definition two_step (F : list Z) (st : Z * option Z * list Z) (o : rop) : (Z * option Z * list Z) * rans :=
  let '(c, s, p) := st in
  let n := f_npts F in
  match o with
  | RNext =>
      if c <? n then
        match (if c =? 0 then Some 0 else s) with
        | Some j => if j <? n then ((c + 1, Some (j + 1), file_record F j), ATrue) else ((c + 1, None, p), ATrue)
        | None => ((c, None, p), AFalse)
        end
      else (st, AFalse)
  | RAt k => if k <? n then ((c, Some (k + 1), file_record F k), ATrue) else (st, AError EOutOfRange)
  | RSeek k => if k <? n then ((k, Some k, p), ATrue)
               else if k =? n then (st, AFalse) else (st, AError ERuntime)
  | RReset => ((0, Some 0, p), ATrue)
  end.
Fixpoint two_run (F : list Z) (st : Z * option Z * list Z) (ops : list rop) : list (rans * list Z) :=
  match ops with
  | [] => []
  | o :: r => let (st1, a) := two_step F st o in (a, snd st1) :: two_run F st1 r
  end.

(** Records number a, a+1, ..., n-1. *)
Definition records_from (F : list Z) (a : Z) : list (list Z) :=
  map (fun i => file_record F (a + Z.of_nat i)) (seq 0 (Z.to_nat (f_npts F - a))).
(** The last record is accepted and the two before it are not. *)
Definition isolated_last (F : list Z) (acc : list Z -> bool) : bool :=
  let n := f_npts F in
  (3 <=? n) && acc (file_record F (n - 1)) && negb (acc (file_record F (n - 2))) && negb (acc (file_record F (n - 3))).
