(** Specification vocabulary for filters: which points an ideal filter keeps. *)
From Coq Require Import ZArith List Bool.
Import ListNotations.
Local Open Scope Z_scope.

(** A list filter keeps the listed values; an empty list means "no restriction"
    (comment in filter.cpp). *)
Definition listed (l : list Z) (v : Z) : Prop := l = [] \/ In v l.

(** The points number [k], [2k], [3k], ... of a sequence, counted from 0. *)
Definition every_kth (k i : Z) : bool := (0 <? i) && (i mod k =? 0).

(** The elements of [l] whose (0-based) position satisfies [keep]. *)
Fixpoint keep_at {A} (keep : Z -> bool) (i : Z) (l : list A) : list A :=
  match l with
  | [] => []
  | x :: l => if keep i then x :: keep_at keep (i + 1) l else keep_at keep (i + 1) l
  end.
