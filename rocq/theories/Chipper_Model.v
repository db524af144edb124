(** Model of the chipper: /repo/src/chipper.cpp, /repo/include/liblas/chipper.hpp.

    The points are given by what Load() uses of them: GetX() and GetY(), in the
    order ReadNextPoint() delivers them.  Memory-mapped storage (m_use_maps) is
    an allocator choice and is not modelled.  [std::sort] does not say where
    equal elements go, so the sorting function is a parameter [srt] taking the
    comparison; the theorems hold for every correct one.  A vector access outside
    its bounds is undefined behaviour. *)
From Coq Require Import ZArith List Bool.
Import ListNotations.
From Verif Require Import Outcome Bytes Float64 Header_Model Cached_Model.
Local Open Scope Z_scope.

(** chipper.hpp:22-31 *)
Record ptref := mkRef { t_pos : f64; t_id : Z; t_o : Z }.
Definition set_o (r : ptref) (o : Z) : ptref := mkRef (t_pos r) (t_id r) o.
Definition pos_lt (a b : ptref) : bool := f64_lt (t_pos a) (t_pos b).
Definition ref0 : ptref := mkRef f64_zero 0 0.
Definition sorter : Type := (ptref -> ptref -> bool) -> list ptref -> list ptref.

(** chipper.hpp:14-19, 34-75: the RefLists m_xvec, m_yvec, m_spare and their
    directions; 79-96: a block refers to one of them *)
Inductive dir := DirX | DirY | DirNone.
Inductive slot := SX | SY | SS.
Record block := mkBlock { b_list : slot; b_left : Z; b_right : Z; b_minx : f64; b_miny : f64; b_maxx : f64; b_maxy : f64 }.
Record chip := mkChip {
  c_x : list ptref; c_y : list ptref; c_s : list ptref;
  c_dx : dir; c_dy : dir; c_ds : dir;
  c_blocks : list block }.
Definition vec (c : chip) (s : slot) : list ptref := match s with SX => c_x c | SY => c_y c | SS => c_s c end.
Definition dirof (c : chip) (s : slot) : dir := match s with SX => c_dx c | SY => c_dy c | SS => c_ds c end.
Definition set_vec (c : chip) (s : slot) (v : list ptref) : chip :=
  match s with
  | SX => mkChip v (c_y c) (c_s c) (c_dx c) (c_dy c) (c_ds c) (c_blocks c)
  | SY => mkChip (c_x c) v (c_s c) (c_dx c) (c_dy c) (c_ds c) (c_blocks c)
  | SS => mkChip (c_x c) (c_y c) v (c_dx c) (c_dy c) (c_ds c) (c_blocks c)
  end.
Definition set_dir (c : chip) (s : slot) (d : dir) : chip :=
  match s with
  | SX => mkChip (c_x c) (c_y c) (c_s c) d (c_dy c) (c_ds c) (c_blocks c)
  | SY => mkChip (c_x c) (c_y c) (c_s c) (c_dx c) d (c_ds c) (c_blocks c)
  | SS => mkChip (c_x c) (c_y c) (c_s c) (c_dx c) (c_dy c) d (c_blocks c)
  end.
Definition add_block (c : chip) (b : block) : chip :=
  mkChip (c_x c) (c_y c) (c_s c) (c_dx c) (c_dy c) (c_ds c) (c_blocks c ++ [b]).

(** v[left], ..., v[right], read one after the other *)
Definition vrange (v : list ptref) (left right : Z) : outcome (list ptref) :=
  if right <? left then Ok []
  else if (0 <=? left) && (right <? Z.of_nat (length v))
  then Ok (firstn (Z.to_nat (right + 1 - left)) (skipn (Z.to_nat left) v))
  else UB UBOutOfBounds.

(** for each x of [l], numbered from [i]: target[key(x)].m_oindex = number *)
Fixpoint relink (key : ptref -> Z) (l : list ptref) (i : Z) (target : list ptref) : outcome (list ptref) :=
  match l with
  | [] => Ok target
  | x :: r => let! y := vget target (key x) in let! t := vset target (key x) (set_o y i) in relink key r (i + 1) t
  end.

(** chipper.cpp:188-222.  [junk]: the indeterminate m_oindex of the local [ref]. *)
Fixpoint numbered (junk : Z) (i : Z) (l : list f64) : list ptref :=
  match l with [] => [] | x :: r => mkRef x i junk :: numbered junk ((i + 1) mod 2 ^ 32) r end.
Definition load (srt : sorter) (junk : Z) (spare : list ptref) (pts : list (f64 * f64)) : outcome chip :=
  let xs := srt pos_lt (numbered junk 0 (map fst pts)) in
  let! ys := relink t_id xs 0 (numbered junk 0 (map snd pts)) in
  let ys := srt pos_lt ys in
  let! xs := relink t_o ys 0 xs in
  Ok (mkChip xs ys spare DirX DirY DirNone []).

(** chipper.cpp:224-239 *)
Definition num_partitions (threshold size : Z) : outcome Z :=
  if threshold =? 0 then UB UBDivZero
  else Ok (size / threshold + (if size mod threshold =? 0 then 0 else 1)).
Fixpoint boundaries (n : nat) (total step : f64) : outcome (list Z) :=
  match n with
  | O => Ok []
  | S k =>
      let total := f64_add total step in
      let! b := f64_to_uint32 (sround total) in
      let! r := boundaries k total step in Ok (b :: r)
  end.
Definition partition (threshold size : Z) : outcome (list Z) :=
  let! n := num_partitions threshold size in
  let! r := boundaries (Z.to_nat n) f64_zero (f64_div (f64_of_Z size) (f64_of_Z n)) in
  Ok (0 :: r).

(** chipper.cpp:416-437 *)
Definition emit (c : chip) (wide : slot) (widemin widemax : Z) (narrow : slot) (narrowmin narrowmax : Z) : outcome chip :=
  let! w1 := vget (vec c wide) widemin in
  let! w2 := vget (vec c wide) widemax in
  let! n1 := vget (vec c narrow) narrowmin in
  let! n2 := vget (vec c narrow) narrowmax in
  Ok (add_block c
       (match dirof c wide with
        | DirX => mkBlock wide widemin widemax (t_pos w1) (t_pos n1) (t_pos w2) (t_pos n2)
        | _ => mkBlock wide widemin widemax (t_pos n1) (t_pos w1) (t_pos n2) (t_pos w2)
        end)).

(** chipper.cpp:366-382: the loop from [i] on, [l1], [l2] as int64_t, -1 when
    not found yet *)
Fixpoint find_left (l : list ptref) (i center l1 l2 : Z) : Z * Z :=
  match l with
  | [] => (l1, l2)
  | x :: r =>
      if (l1 <? 0) && (t_o x <? center)
      then if 0 <=? l2 then (i, l2) else find_left r (i + 1) center i l2
      else if (l2 <? 0) && (center <=? t_o x)
      then if 0 <=? l1 then (l1, i) else find_left r (i + 1) center l1 i
      else find_left r (i + 1) center l1 l2
  end.
(** chipper.cpp:384-399: the same downwards; [l] is the range reversed *)
Fixpoint find_right (l : list ptref) (i center r1 r2 : Z) : Z * Z :=
  match l with
  | [] => (r1, r2)
  | x :: r =>
      if (r1 <? 0) && (t_o x <? center)
      then if 0 <=? r2 then (i, r2) else find_right r (i - 1) center i r2
      else if (r2 <? 0) && (center <=? t_o x)
      then if 0 <=? r1 then (r1, i) else find_right r (i - 1) center r1 i
      else find_right r (i - 1) center r1 r2
  end.
(** chipper.cpp:342-414 *)
Definition u32 (z : Z) : Z := z mod 2 ^ 32.
Definition final_split (part : list Z) (c : chip) (wide narrow : slot) (pleft pright : Z) : outcome chip :=
  let! lo := vget part pleft in
  let! r0 := vget part pright in
  let hi := u32 (r0 - 1) in
  let! center := vget part (u32 (pright - 1)) in
  let! mid := vrange (vec c narrow) lo hi in
  let (left1, left2) := find_left mid lo center (-1) (-1) in
  let (right1, right2) := find_right (rev mid) hi center (-1) (-1) in
  let! c1 := emit c wide lo (u32 (center - 1)) narrow (u32 left1) (u32 right1) in
  emit c1 wide center hi narrow (u32 left2) (u32 right2).

(** chipper.cpp:84-114 *)
Definition side_lt (center : Z) (a b : ptref) : bool :=
  if (t_o a <? center) && (center <=? t_o b) then true
  else if (center <=? t_o a) && (t_o b <? center) then false
  else pos_lt a b.
Definition sort_range (srt : sorter) (v : list ptref) (lo center hi : Z) : outcome (list ptref) :=
  let! mid := vrange v lo hi in
  Ok (firstn (Z.to_nat lo) v ++ srt (side_lt center) mid ++ skipn (Z.to_nat (hi + 1)) v).

(** chipper.cpp:319-335: the copying loop *)
Fixpoint scatter (center : Z) (l : list ptref) (lstart rstart : Z) (spare wide : list ptref) : outcome (list ptref * list ptref) :=
  match l with
  | [] => Ok (spare, wide)
  | x :: r =>
      if t_o x <? center
      then let! spare := vset spare lstart x in
           let! w := vget wide (t_o x) in
           let! wide := vset wide (t_o x) (set_o w lstart) in
           scatter center r (lstart + 1) rstart spare wide
      else let! spare := vset spare rstart x in
           let! w := vget wide (t_o x) in
           let! wide := vset wide (t_o x) (set_o w rstart) in
           scatter center r lstart (rstart + 1) spare wide
  end.
(** chipper.cpp:302-337.  The three lists are different objects. *)
Definition rearrange_narrow (srt : sorter) (use_sort : bool) (c : chip) (wide narrow spare : slot) (lo center hi : Z) : outcome chip :=
  if use_sort
  then
    let! n := sort_range srt (vec c narrow) lo center hi in
    let! mid := vrange n lo hi in
    let! w := relink t_o mid lo (vec c wide) in
    Ok (set_vec (set_vec c narrow n) wide w)
  else
    let! mid := vrange (vec c narrow) lo hi in
    let! (s, w) := scatter center mid lo center (vec c spare) (vec c wide) in
    Ok (set_vec (set_vec c spare s) wide w).

(** chipper.cpp:259-300; [rec] is DecideSplit *)
Definition split (srt : sorter) (use_sort : bool) (part : list Z)
    (rec : chip -> slot -> slot -> slot -> Z -> Z -> outcome chip)
    (c : chip) (wide narrow spare : slot) (pleft pright : Z) : outcome chip :=
  let! lo := vget part pleft in
  let! r0 := vget part pright in
  let hi := u32 (r0 - 1) in
  if u32 (pright - pleft) =? 1 then emit c wide lo hi narrow lo hi
  else if u32 (pright - pleft) =? 2 then final_split part c wide narrow pleft pright
  else
    let pcenter := u32 (pleft + pright) / 2 in
    let! center := vget part pcenter in
    let! c1 := rearrange_narrow srt use_sort c wide narrow spare lo center hi in
    let d := dirof c1 narrow in
    let c2 := set_dir c1 spare d in
    let! c4 :=
      if use_sort
      then let! c3 := rec c2 wide narrow spare pleft pcenter in rec c3 wide narrow spare pcenter pright
      else let! c3 := rec c2 wide spare narrow pleft pcenter in rec c3 wide spare narrow pcenter pright in
    Ok (set_dir c4 narrow d).
(** chipper.cpp:241-257.  The recursion of the code is bounded by [fuel]; running
    out of it is [UBDiverge]. *)
Fixpoint decide_split (srt : sorter) (use_sort : bool) (part : list Z) (fuel : nat)
    (c : chip) (v1 v2 spare : slot) (pleft pright : Z) : outcome chip :=
  match fuel with
  | O => UB UBDiverge
  | S k =>
      let! lo := vget part pleft in
      let! r0 := vget part pright in
      let hi := u32 (r0 - 1) in
      let! a2 := vget (vec c v1) hi in
      let! a1 := vget (vec c v1) lo in
      let! b2 := vget (vec c v2) hi in
      let! b1 := vget (vec c v2) lo in
      let v1range := f64_sub (t_pos a2) (t_pos a1) in
      let v2range := f64_sub (t_pos b2) (t_pos b1) in
      if f64_gt v1range v2range
      then split srt use_sort part (decide_split srt use_sort part k) c v1 v2 spare pleft pright
      else split srt use_sort part (decide_split srt use_sort part k) c v2 v1 spare pleft pright
  end.

(** chipper.cpp:139-145, 147-186.  [count]: the point count of the header, the
    size of m_spare (not allocated when sorting). *)
Definition chip_run (srt : sorter) (junk : Z) (use_sort : bool) (threshold count : Z) (pts : list (f64 * f64)) : outcome chip :=
  let! c := load srt junk (if use_sort then [] else repeat ref0 (Z.to_nat count)) pts in
  let! part := partition threshold (u32 (Z.of_nat (length (c_x c)))) in
  decide_split srt use_sort part (length part) c SX SY SS 0 (u32 (Z.of_nat (length part) - 1)).

(** chipper.cpp:117-124 *)
Definition block_ids (c : chip) (b : block) : outcome (list Z) :=
  let! l := vrange (vec c (b_list b)) (b_left b) (b_right b) in Ok (map t_id l).
