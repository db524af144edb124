(** Specification vocabulary for the spatial index. *)
From Coq Require Import ZArith List Bool.
Import ListNotations.
From Verif Require Import Outcome Bytes Float64 Chipper_Spec Index_Cell Index_Temp Index_Scan.
Local Open Scope Z_scope.
Local Notation length := List.length (only parsing).

(** The point ids a list of records (first id, how many) stands for. *)
Definition expand (m : runs) : list Z := flat_map (fun r => zseq (fst r) (Z.to_nat (snd r))) m.

Definition in_cell (k : Z) (p : placed) : bool := match p with Some (j, _) => j =? k | None => false end.
(** The positions in the file, counting from 0, of the points that lie in cell [k]. *)
Definition ids_of (k : Z) (ps : list placed) : list Z :=
  filter (fun i => in_cell k (nth (Z.to_nat i) ps None)) (zseq 0 (length ps)).
(** Every accepted point lies in one of the [n] cells. *)
Definition placed_in (n : Z) (ps : list placed) : Prop := Forall (fun p => match p with Some (k, _) => 0 <= k < n | None => True end) ps.

(** Two points of one cell follow each other with only rejected points, at least
    one, between them. *)
Definition rejoins (ps : list placed) : Prop :=
  exists a k z m z' b, ps = a ++ Some (k, z) :: repeat None (S m) ++ Some (k, z') :: b.
