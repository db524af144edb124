(** Running filters over a sequence of points, as a reader does. *)
From Coq Require Import ZArith List Bool.
Import ListNotations.
From Verif Require Import Outcome Point_Model Filter_Model.
Local Open Scope Z_scope.

(** The points of [ps] accepted when each is offered in turn to the filters. *)
Fixpoint filter_points (fs : list filt) (ps : list point) : outcome (list point) :=
  match ps with
  | [] => Ok []
  | p :: ps => let! (b, fs1) := filter_point fs p in
               let! rest := filter_points fs1 ps in Ok (if b then p :: rest else rest)
  end.
Definition stateless_filt (f : filt) : bool := match f with FThin _ => false | _ => true end.
(** The verdict of one filter on one point. *)
Definition filt_keeps (f : filt) (p : point) : outcome bool := omap fst (filt_run f p).
