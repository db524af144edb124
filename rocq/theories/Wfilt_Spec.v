(** What a writer's filters and transforms are for (writer.hpp:93-107): a point
    all filters accept is transformed, in the order of the list, and written; any
    other point is not. *)
From Coq Require Import ZArith List Bool.
Import ListNotations.
From Verif Require Import Outcome Bytes Point_Model Wfilt_Model.
Local Open Scope Z_scope.

Definition accepted (fs : list pfilter) (p : point) : bool := forallb (fun f => f p) fs.
Fixpoint transformed (ts : list ptransform) (p : point) : outcome point :=
  match ts with [] => Ok p | t :: ts => let! p := t p in transformed ts p end.
(** the points that should be in the file, with filters [fs] and transforms [ts] at the start *)
Fixpoint asked (fs : list pfilter) (ts : list ptransform) (cs : list wcall) : outcome (list point) :=
  match cs with
  | [] => Ok []
  | CFilters l :: cs => asked l ts cs
  | CTransforms l :: cs => asked fs l cs
  | CHeader :: cs => asked fs ts cs
  | CPoint p :: cs =>
      if accepted fs p then let! q := transformed ts p in let! l := asked fs ts cs in Ok (q :: l) else asked fs ts cs
  end.
(** the points handed to the writer *)
Fixpoint handed (cs : list wcall) : list point :=
  match cs with [] => [] | CPoint p :: cs => p :: handed cs | _ :: cs => handed cs end.
(** the calls without those that set filters and transforms *)
Definition setter (c : wcall) : bool := match c with CFilters _ | CTransforms _ => true | _ => false end.
Definition bare (cs : list wcall) : list wcall := filter (fun c => negb (setter c)) cs.
Definition rewrites (c : wcall) : bool := match c with CHeader => true | _ => false end.
(** the lists set last *)
Fixpoint last_filters (fs : list pfilter) (cs : list wcall) : list pfilter :=
  match cs with [] => fs | CFilters l :: cs => last_filters l cs | _ :: cs => last_filters fs cs end.
Fixpoint last_transforms (ts : list ptransform) (cs : list wcall) : list ptransform :=
  match cs with [] => ts | CTransforms l :: cs => last_transforms l cs | _ :: cs => last_transforms ts cs end.
(** no filter turns a handed point away and no transform changes one *)
Fixpoint idle (fs : list pfilter) (ts : list ptransform) (cs : list wcall) : Prop :=
  match cs with
  | [] => True
  | CFilters l :: cs => idle l ts cs
  | CTransforms l :: cs => idle fs l cs
  | CHeader :: cs => idle fs ts cs
  | CPoint p :: cs => accepted fs p = true /\ transformed ts p = Ok p /\ idle fs ts cs
  end.
