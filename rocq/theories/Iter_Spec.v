(** Specification of the STL-style iterators over a reader: what the calls of a
    user on them show, in terms of the records of the files alone. *)
From Coq Require Import ZArith List Bool.
Import ListNotations.
From Verif Require Import Outcome Reader_Spec.
Local Open Scope Z_scope.

(** Calls on iterators.  Iterators are numbered in order of creation; [Begin k]
    makes one over reader number [k], [End] a past-the-end one, [Copy i] a copy
    of [i], [Post i] the one [it++] returns. *)
Inductive iop := Begin (k : nat) | End | Copy (i : nat) | Pre (i : nat) | Post (i : nat) | Deref (i : nat) | Same (i j : nat).
(** What a call shows. *)
Inductive iobs := Nothing | Record (d : list Z) | Raised (e : exn) | Answer (b : bool).

(** One cursor per reader (the file, the number of its next record, the bytes of
    its current point); an iterator is a reader number or past the end. *)
Definition cursors := list (list Z * Z * list Z).
Definition place := option nat.

Definition set_nth {A} (l : list A) (k : nat) (x : A) : list A := firstn k l ++ match skipn k l with [] => [] | _ :: t => x :: t end.

(** Advances an iterator: the reader it belongs to goes to its next record, and
    the iterator becomes past-the-end if there is none. *)
Definition step_on (cs : cursors) (p : place) : option (cursors * place) :=
  match p with
  | None => Some (cs, None)
  | Some k => match nth_error cs k with
              | None => None
              | Some (F, c, d) =>
                  if c <? f_npts F then Some (set_nth cs k (F, c + 1, file_record F c), Some k) else Some (cs, None)
              end
  end.
(** One call; [None] if it names an iterator or a reader that does not exist. *)
Definition spec_step (st : cursors * list place) (o : iop) : option ((cursors * list place) * iobs) :=
  let (cs, its) := st in
  match o with
  | Begin k => match step_on cs (Some k) with Some (cs1, p) => Some ((cs1, its ++ [p]), Nothing) | None => None end
  | End => Some ((cs, its ++ [None]), Nothing)
  | Copy i => match nth_error its i with Some p => Some ((cs, its ++ [p]), Nothing) | None => None end
  | Pre i => match nth_error its i with
             | Some p => match step_on cs p with Some (cs1, p1) => Some ((cs1, set_nth its i p1), Nothing) | None => None end
             | None => None
             end
  | Post i => match nth_error its i with
              | Some p => match step_on cs p with Some (cs1, p1) => Some ((cs1, set_nth its i p1 ++ [p]), Nothing) | None => None end
              | None => None
              end
  | Deref i => match nth_error its i with
               | Some None => Some (st, Raised ERuntime)
               | Some (Some k) => match nth_error cs k with Some (_, _, d) => Some (st, Record d) | None => None end
               | None => None
               end
  | Same i j => match nth_error its i, nth_error its j with
                | Some p, Some q => Some (st, Answer (match p, q with
                                                      | Some a, Some b => Nat.eqb a b
                                                      | None, None => true
                                                      | _, _ => false
                                                      end))
                | _, _ => None
                end
  end.
Fixpoint spec_run (st : cursors * list place) (ops : list iop) : option (list iobs) :=
  match ops with
  | [] => Some []
  | o :: r => match spec_step st o with
              | Some (st1, x) => match spec_run st1 r with Some l => Some (x :: l) | None => None end
              | None => None
              end
  end.
(** A reader just opened: before its first record, the point all zeros. *)
Definition opened (F : list Z) : list Z * Z * list Z := (F, 0, repeat 0 (Z.to_nat (f_reclen F))).
