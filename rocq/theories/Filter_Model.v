(** Model of the point filters (/repo/src/filter.cpp,
    /repo/include/liblas/filter.hpp).

    A filter that reads a point may run into the point's undefined behaviour, so
    the results are outcomes.  Only ThinFilter has a state that changes. *)
From Coq Require Import ZArith List Bool.
Import ListNotations.
From Verif Require Import Outcome Bytes Float64 Classif_Model Header_Model Point_Model Bounds_Model.
Local Open Scope Z_scope.

(** filter.hpp:68-73 *)
Inductive ftype := eExclusion | eInclusion.
Definition is_inclusion (t : ftype) : bool := match t with eInclusion => true | eExclusion => false end.

(** filter.cpp:65-78 and 159-172, the common loop: [output] starts true; an equal
    element decides and stops, any other one sets it to false. *)
Fixpoint list_loop (t : ftype) (v : Z) (output : bool) (l : list Z) : bool :=
  match l with
  | [] => output
  | x :: l => if v =? x then (if is_inclusion t then true else false) else list_loop t v false l
  end.

(** filter.cpp:59-79: classifications are compared as whole flag bytes
    (classification.hpp:213-216) *)
Definition classification_filter (t : ftype) (classes : list Z) (p : point) : outcome bool :=
  let! c := get_classification p in Ok (list_loop t c true classes).

(** filter.cpp:95-102: the type is not looked at *)
Definition bounds_filter (t : ftype) (b : bounds) (p : point) : outcome bool :=
  bounds_contains_point b p.

(** filter.cpp:106-133; the counter is a uint32_t *)
Record thin := mkThin { th_amount : Z; th_count : Z }.
Definition thin_new (amount : Z) : thin := mkThin (amount mod 2 ^ 32) 0.
Definition thin_filter (f : thin) : bool * thin :=
  if th_amount f =? th_count f then (true, mkThin (th_amount f) ((0 + 1) mod 2 ^ 32))
  else (false, mkThin (th_amount f) ((th_count f + 1) mod 2 ^ 32)).

(** filter.cpp:143-173 *)
Definition return_filter (t : ftype) (returns : list Z) (last_only : bool) (p : point) : outcome bool :=
  if last_only
  then let! rn := get_return_number p in let! nr := get_number_of_returns p in
       let is_last := rn =? nr in
       Ok (match t with eExclusion => false | eInclusion => is_last end)
  else let! r := get_return_number p in Ok (list_loop t r true returns).

(** filter.cpp:184-197 *)
Definition validation_filter (t : ftype) (p : point) : outcome bool :=
  let! v := is_valid p in
  Ok (if v then match t with eInclusion => true | eExclusion => false end else false).

(** filter.cpp:200-204, 206-215: the second constructor takes the limits in the
    order red, blue, green and passes (high_red, high_blue, high_green) to
    Color(red, green, blue) *)
Record color_limits := mkLim { cl_low : color; cl_high : color }.
Definition color_filter2 (low high : color) : color_limits := mkLim low high.
Definition color_filter6 (low_red high_red low_blue high_blue low_green high_green : Z) : outcome color_limits :=
  let! lo := color_make low_red low_green low_blue in
  let! hi := color_make high_red high_blue high_green in
  Ok (mkLim lo hi).
(** filter.cpp:217-224 *)
Definition do_exclude (t : ftype) : bool := is_inclusion t.
(** filter.cpp:227-253 *)
Definition color_filter (t : ftype) (lim : color_limits) (p : point) : outcome bool :=
  let! c := get_color p in
  Ok (if c_red c <? c_red (cl_low lim) then negb (do_exclude t)
      else if c_red (cl_high lim) <? c_red c then negb (do_exclude t)
      else if c_blue c <? c_blue (cl_low lim) then negb (do_exclude t)
      else if c_blue (cl_high lim) <? c_blue c then negb (do_exclude t)
      else if c_green c <? c_green (cl_low lim) then negb (do_exclude t)
      else if c_green (cl_high lim) <? c_green c then negb (do_exclude t)
      else do_exclude t).

(** filter.hpp:228-230, 312-337 [ContinuousValueFilter<T>]: [None] is an empty
    boost::function, which throws bad_function_call (a std::runtime_error). *)
Definition value_filter {T} (t : ftype) (cmp : option (T -> T -> bool)) (value : T) (v : T) : outcome bool :=
  match cmp with
  | None => Throw ERuntime
  | Some c => Ok (if c v value then (if is_inclusion t then true else false)
                  else (if is_inclusion t then false else true))
  end.

(** ** the expression constructor, filter.hpp:260-310 *)
Inductive cmp_op := OpGe | OpGt | OpLe | OpLt | OpEq.

(** std::string::find_first_of(c) / find_last_of(c), None = npos *)
Fixpoint find_first (c : Z) (s : list Z) : option nat :=
  match s with
  | [] => None
  | x :: s => if x =? c then Some O else option_map S (find_first c s)
  end.
Fixpoint find_last (c : Z) (s : list Z) : option nat :=
  match s with
  | [] => None
  | x :: s => match find_last c s with
              | Some i => Some (S i)
              | None => if x =? c then Some O else None
              end
  end.
(** filter.hpp:347-362: every character of the predicate occurs somewhere *)
Definition has_predicate (s pred : list Z) : bool :=
  match pred with
  | [] => false
  | _ => forallb (fun c => match find_first c s with Some _ => true | None => false end) pred
  end.
Definition ch_gt : Z := 62.
Definition ch_eq : Z := 61.
Definition ch_lt : Z := 60.
Definition pos_after (o : option nat) : nat := match o with Some i => S i | None => O end.
(** The comparison and the rest of the string that is converted to a number
    ([boost::lexical_cast] is not modelled). *)
Definition parse_filter (s : list Z) : option cmp_op * list Z :=
  let gt := has_predicate s [ch_gt] in
  let gte := has_predicate s [ch_gt; ch_eq] in
  let lt := has_predicate s [ch_lt] in
  let lte := has_predicate s [ch_lt; ch_eq] in
  let eq := has_predicate s [ch_eq; ch_eq] in
  let '(op, pos) :=
    if gte then (Some OpGe, pos_after (find_first ch_eq s))
    else if gt then (Some OpGt, pos_after (find_first ch_gt s))
    else if lte then (Some OpLe, pos_after (find_first ch_eq s))
    else if lt then (Some OpLt, pos_after (find_first ch_lt s))
    else if eq then (Some OpEq, pos_after (find_last ch_eq s))
    else (None, O) in
  (op, skipn pos s).

(** ** the filters of a reader *)
Inductive filt :=
| FClass (t : ftype) (l : list Z)
| FBounds (t : ftype) (b : bounds)
| FThin (f : thin)
| FReturn (t : ftype) (l : list Z) (last_only : bool)
| FValid (t : ftype)
| FColor (t : ftype) (lim : color_limits).

Definition filt_run (f : filt) (p : point) : outcome (bool * filt) :=
  match f with
  | FClass t l => omap (fun b => (b, f)) (classification_filter t l p)
  | FBounds t bn => omap (fun b => (b, f)) (bounds_filter t bn p)
  | FThin th => let (b, th1) := thin_filter th in Ok (b, FThin th1)
  | FReturn t l lo => omap (fun b => (b, f)) (return_filter t l lo p)
  | FValid t => omap (fun b => (b, f)) (validation_filter t p)
  | FColor t lim => omap (fun b => (b, f)) (color_filter t lim p)
  end.
(** detail/reader/reader.cpp:105-123 [FilterPoint]: the filters after the first
    one that rejects are not called *)
Fixpoint filter_point (fs : list filt) (p : point) : outcome (bool * list filt) :=
  match fs with
  | [] => Ok (true, [])
  | f :: fs =>
      let! (b, f1) := filt_run f p in
      if negb b then Ok (false, f1 :: fs)
      else let! (b2, fs1) := filter_point fs p in Ok (b2, f1 :: fs1)
  end.
