(** Specification vocabulary for the chipper. *)
From Coq Require Import ZArith List Bool Permutation Sorting.Sorted.
Import ListNotations.
From Verif Require Import Outcome Bytes Float64 Float64_Proofs Chipper_Model.
Local Open Scope Z_scope.

(** A correct std::sort: for a strict weak order on the elements it permutes them
    so that no element is less than an earlier one. *)
Definition strict_weak_on (lt : ptref -> ptref -> bool) (l : list ptref) : Prop :=
  (forall a, In a l -> lt a a = false) /\
  (forall a b c, In a l -> In b l -> In c l -> lt a b = true -> lt b c = true -> lt a c = true) /\
  (forall a b c, In a l -> In b l -> In c l -> lt a b = false -> lt b c = false -> lt a c = false).
Definition is_sort (srt : sorter) : Prop :=
  forall lt l, strict_weak_on lt l -> Permutation l (srt lt l) /\ StronglySorted (fun a b => lt b a = false) (srt lt l).

(** 0, 1, ..., n-1 *)
Definition zseq (start : Z) (n : nat) : list Z := map (fun i => start + Z.of_nat i) (seq 0 n).
Definition all_ids (pts : list (f64 * f64)) : list Z := zseq 0 (length pts).

(** What the caller sees after Chip(): for every block its point ids and bounds
    (minx, miny, maxx, maxy). *)
Record chip_block := mkCB { cb_ids : list Z; cb_minx : f64; cb_miny : f64; cb_maxx : f64; cb_maxy : f64 }.
Fixpoint blocks_seen (c : chip) (l : list block) : outcome (list chip_block) :=
  match l with
  | [] => Ok []
  | b :: r => let! ids := block_ids c b in let! rest := blocks_seen c r in
              Ok (mkCB ids (b_minx b) (b_miny b) (b_maxx b) (b_maxy b) :: rest)
  end.
Definition chipped (srt : sorter) (junk : Z) (use_sort : bool) (threshold count : Z) (pts : list (f64 * f64)) : outcome (list chip_block) :=
  let! c := chip_run srt junk use_sort threshold count pts in blocks_seen c (c_blocks c).

Definition finite_points (pts : list (f64 * f64)) : Prop := Forall (fun p => f64_fin (fst p) = true /\ f64_fin (snd p) = true) pts.
Definition x_at (pts : list (f64 * f64)) (i : Z) : f64 := fst (nth (Z.to_nat i) pts (f64_zero, f64_zero)).
Definition y_at (pts : list (f64 * f64)) (i : Z) : f64 := snd (nth (Z.to_nat i) pts (f64_zero, f64_zero)).

(** [m] is the value of [f] at one of [ids] and no value of [f] there is less
    (greater). *)
Definition is_least (f : Z -> f64) (ids : list Z) (m : f64) : Prop :=
  (exists i, In i ids /\ f i = m) /\ forall i, In i ids -> f64_le m (f i) = true.
Definition is_greatest (f : Z -> f64) (ids : list Z) (m : f64) : Prop :=
  (exists i, In i ids /\ f i = m) /\ forall i, In i ids -> f64_le (f i) m = true.
Definition exact_bounds (pts : list (f64 * f64)) (b : chip_block) : Prop :=
  is_least (x_at pts) (cb_ids b) (cb_minx b) /\ is_greatest (x_at pts) (cb_ids b) (cb_maxx b) /\
  is_least (y_at pts) (cb_ids b) (cb_miny b) /\ is_greatest (y_at pts) (cb_ids b) (cb_maxy b).

(** Number of blocks asked for by the threshold: the size divided by it, rounded up. *)
Definition blocks_wanted (threshold size : Z) : Z := (size + threshold - 1) / threshold.
