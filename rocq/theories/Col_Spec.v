(** What las2col promises about its column files, whatever the threads do. *)
From Coq Require Import Arith List Bool ZArith Permutation.
Import ListNotations.
From Verif Require Import Outcome Col_Model.

(** A command line with at least one input file, one reading thread and one entry *)
Definition sensible (c : config) : Prop := 1 <= c_files c /\ 1 <= c_threads c /\ 1 <= c_entries c.

(** [s] comes about under some schedule *)
Definition reachable (c : config) (s : st) : Prop := exists l, run c l (start c) = Some (Ok s).

(** The bytes of column [j]: [values k j] are the bytes of the values of entry [j] in file [k] *)
Definition column (values : nat -> nat -> list Z) (s : st) (j : nat) : list Z :=
  List.concat (map (fun k => values k j) (outs s j)).

(** The columns of the files, in this order *)
Definition columns_of (values : nat -> nat -> list Z) (order : list nat) (j : nat) : list Z :=
  List.concat (map (fun k => values k j) order).

(** No thread can move (other than by waking for no reason) *)
Definition asleep (c : config) (s : st) : Prop := forall ch, spurious ch = false -> step c ch s = None.
