(** Model of Range<double> and Bounds<double>
    (/repo/include/liblas/bounds.hpp), the only instantiation the library uses.

    [std::vector::operator[]] past the end is undefined behaviour.  The member
    functions that modify [*this] return the new value.  [verify] (559-577) is
    only called in DEBUG builds and is not modelled. *)
From Coq Require Import ZArith List Bool.
Import ListNotations.
From Verif Require Import Outcome Bytes Float64 Header_Model Point_Model.
Local Open Scope Z_scope.

(** bounds.hpp:62-66 *)
Record range := mkRange { rg_min : f64; rg_max : f64 }.

(** std::numeric_limits<double>::max() and ::min() (the smallest positive
    normalised double). *)
Definition dbl_max : f64 := f64_of_me (2 ^ 53 - 1) 971.
Definition dbl_min : f64 := f64_of_me 1 (-1022).

(** bounds.hpp:70-71: the default range *)
Definition range_default : range := mkRange dbl_max dbl_min.

(** bounds.hpp:102-112 (operator== 92-95, operator!= 97-100) *)
Definition range_equal (a b : range) : bool :=
  compare_distance (rg_min a) (rg_min b) && compare_distance (rg_max a) (rg_max b).
(** bounds.hpp:114-117 *)
Definition range_overlaps (a b : range) : bool :=
  f64_lt (rg_min a) (rg_max b) && f64_gt (rg_max a) (rg_min b).
(** bounds.hpp:119-122 *)
Definition range_contains (a b : range) : bool :=
  f64_le (rg_min a) (rg_min b) && f64_le (rg_max b) (rg_max a).
(** bounds.hpp:124-127 *)
Definition range_contains_v (a : range) (v : f64) : bool :=
  f64_le (rg_min a) v && f64_le v (rg_max a).
(** bounds.hpp:129-132 *)
Definition range_empty (a : range) : bool :=
  compare_distance (rg_min a) dbl_max && compare_distance (rg_max a) dbl_min.
(** bounds.hpp:134-138 *)
Definition range_shift (a : range) (v : f64) : range :=
  mkRange (f64_add (rg_min a) v) (f64_add (rg_max a) v).
(** bounds.hpp:140-144 *)
Definition range_scale (a : range) (v : f64) : range :=
  mkRange (f64_mul (rg_min a) v) (f64_mul (rg_max a) v).
(** bounds.hpp:146-152 *)
Definition range_clip (a r : range) : range :=
  mkRange (if f64_gt (rg_min r) (rg_min a) then rg_min r else rg_min a)
          (if f64_lt (rg_max r) (rg_max a) then rg_max r else rg_max a).
(** bounds.hpp:154-160 *)
Definition range_grow_v (a : range) (v : f64) : range :=
  mkRange (if f64_lt v (rg_min a) then v else rg_min a)
          (if f64_gt v (rg_max a) then v else rg_max a).
(** bounds.hpp:162-166 *)
Definition range_grow (a r : range) : range :=
  range_grow_v (range_grow_v a (rg_min r)) (rg_max r).
(** bounds.hpp:168-171 *)
Definition range_length (a : range) : f64 := f64_sub (rg_max a) (rg_min a).

(** bounds.hpp:174-185: a Bounds is its vector of ranges *)
Definition bounds : Type := list range.

(** bounds.hpp:189-192 *)
Definition bounds_new : bounds := [].
(** bounds.hpp:206-227 *)
Definition bounds6 (minx miny minz maxx maxy maxz : f64) : bounds :=
  [mkRange minx maxx; mkRange miny maxy; mkRange minz maxz].
(** bounds.hpp:229-247 *)
Definition bounds4 (minx miny maxx maxy : f64) : bounds :=
  [mkRange minx maxx; mkRange miny maxy].

(** ranges[i] *)
Definition bnd_at (b : bounds) (i : nat) : outcome range :=
  match nth_error b i with Some r => Ok r | None => UB UBOutOfBounds end.

(** bounds.hpp:287-297, 307-317 *)
Definition bounds_min (b : bounds) (i : nat) : f64 :=
  match nth_error b i with Some r => rg_min r | None => f64_zero end.
Definition bounds_max (b : bounds) (i : nat) : f64 :=
  match nth_error b i with Some r => rg_max r | None => f64_zero end.

(** std::vector::resize(n), n >= size: default ranges appended *)
Definition bnd_resize (b : bounds) (n : nat) : bounds := b ++ repeat range_default (n - length b).
Fixpoint bnd_upd (b : bounds) (i : nat) (f : range -> range) : bounds :=
  match b, i with
  | [], _ => []
  | r :: b, O => f r :: b
  | r :: b, S i => r :: bnd_upd b i f
  end.
(** bounds.hpp:299-305, 319-325 *)
Definition bounds_set_min (b : bounds) (i : nat) (v : f64) : bounds :=
  bnd_upd (bnd_resize b (S i)) i (fun r => mkRange v (rg_max r)).
Definition bounds_set_max (b : bounds) (i : nat) (v : f64) : bounds :=
  bnd_upd (bnd_resize b (S i)) i (fun r => mkRange (rg_min r) v).

(** bounds.hpp:387-398 *)
Definition bounds_dimension (b : bounds) : nat := length b.
Definition bounds_set_dimension (b : bounds) (d : nat) : bounds := bnd_resize b d.

(** bounds.hpp:401-408: the loop indexes [other.ranges] without a size check *)
Fixpoint bounds_equal (a b : bounds) : outcome bool :=
  match a, b with
  | [], _ => Ok true
  | _ :: _, [] => UB UBOutOfBounds
  | r :: a, s :: b => if negb (range_equal r s) then Ok false else bounds_equal a b
  end.
(** bounds.hpp:411-427 *)
Fixpoint bounds_intersects (a b : bounds) : outcome bool :=
  match a, b with
  | [], _ => Ok false
  | _ :: _, [] => UB UBOutOfBounds
  | r :: a, s :: b => if range_overlaps r s then Ok true else bounds_intersects a b
  end.
(** bounds.hpp:430-437 *)
Fixpoint bounds_contains (a b : bounds) : outcome bool :=
  match a, b with
  | [], _ => Ok true
  | _ :: _, [] => UB UBOutOfBounds
  | r :: a, s :: b => if negb (range_contains r s) then Ok false else bounds_contains a b
  end.

(** bounds.hpp:440-477 *)
Definition bounds_contains_xyz (b : bounds) (x y z : f64) : bool :=
  match b with
  | rx :: ry :: rest =>
      if negb (range_contains_v rx x) then false
      else if negb (range_contains_v ry y) then false
      else match rest with
           | [] => true
           | rz :: _ =>
               if negb (range_contains_v rz z)
               then compare_distance (range_length rz) f64_zero
               else true
           end
  | _ => false
  end.
Definition bounds_contains_point (b : bounds) (p : point) : outcome bool :=
  if (length b <? 2)%nat then Ok false
  else let! x := get_x p in let! y := get_y p in let! z := get_z p in
       Ok (bounds_contains_xyz b x y z).

(** bounds.hpp:479-494 *)
Fixpoint bnd_map2 (f : range -> f64 -> range) (b : bounds) (ds : list f64) : bounds :=
  match b, ds with r :: b, d :: ds => f r d :: bnd_map2 f b ds | _, _ => b end.
Definition bounds_shift (b : bounds) (ds : list f64) : outcome bounds :=
  if (length b =? length ds)%nat then Ok (bnd_map2 range_shift b ds) else Throw ERuntime.
(** bounds.hpp:497-512 *)
Definition bounds_scale (b : bounds) (ds : list f64) : outcome bounds :=
  if (length b =? length ds)%nat then Ok (bnd_map2 range_scale b ds) else Throw ERuntime.

(** bounds.hpp:515-521 *)
Fixpoint bounds_clip (a r : bounds) : outcome bounds :=
  match a, r with
  | [], _ => Ok []
  | _ :: _, [] => UB UBOutOfBounds
  | x :: a, y :: r => let! rest := bounds_clip a r in Ok (range_clip x y :: rest)
  end.
(** bounds.hpp:524-530 *)
Fixpoint bounds_grow (a r : bounds) : outcome bounds :=
  match a, r with
  | [], _ => Ok []
  | _ :: _, [] => UB UBOutOfBounds
  | x :: a, y :: r => let! rest := bounds_grow a r in Ok (range_grow x y :: rest)
  end.
(** bounds.hpp:533-538 *)
Definition bounds_grow_point (b : bounds) (p : point) : outcome bounds :=
  match b with
  | rx :: ry :: rz :: rest =>
      let! x := get_x p in let! y := get_y p in let! z := get_z p in
      Ok (range_grow_v rx x :: range_grow_v ry y :: range_grow_v rz z :: rest)
  | _ => UB UBOutOfBounds
  end.
(** bounds.hpp:540-548: the accumulator starts at T() = 0 *)
Definition bounds_volume (b : bounds) : f64 :=
  fold_left (fun o r => f64_mul o (range_length r)) b f64_zero.
(** bounds.hpp:550-557 *)
Definition bounds_empty (b : bounds) : bool := existsb range_empty b.
