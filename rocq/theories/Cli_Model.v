(** Model of the filter options of the command-line programs
    (/repo/apps/laskernel.cpp:254-329 Make...Filter, 331-362 the options, 405-862
    GetFilters), shared by las2las, las2txt, lasinfo and ts2las.

    Simplifications: the command line has already been split into options by
    boost::program_options, so the model starts from the values of the options
    (type [cli]).  Texts are lists of character codes.  The messages printed with
    --verbose are not modelled.  [boost::lexical_cast] and [atoi] are modelled for
    the integer types in the C locale; [boost::lexical_cast<double>] and [atof] are
    parameters.  [boost::bad_lexical_cast] and [boost::bad_any_cast] (classes
    derived from std::bad_cast) are rendered as [EInvalidArgument]. *)
From Coq Require Import ZArith List Bool.
Import ListNotations.
From Verif Require Import Outcome Bytes Float64 Classif_Model Header_Model Point_Model Bounds_Model Filter_Model.
Local Open Scope Z_scope.
Local Notation length := List.length (only parsing).

Definition text : Type := list Z.

(** laskernel.cpp:336-357: [None] = the option was not given.  --thin has the
    default value 0 (343). *)
Record cli := mkCli {
  o_keep_classes : option (list Z); o_drop_classes : option (list Z);
  o_keep_returns : option (list Z); o_drop_returns : option (list Z);
  o_minx : option f64; o_maxx : option f64; o_miny : option f64; o_maxy : option f64; o_minz : option f64; o_maxz : option f64;
  o_extent : option text;
  o_keep_intensity : option text; o_drop_intensity : option text;
  o_keep_angle : option text; o_drop_angle : option text;
  o_keep_time : option text; o_drop_time : option text;
  o_keep_color : option text; o_drop_color : option text;
  o_thin : Z; o_last : bool; o_first : bool; o_valid : bool }.

(** ** text to numbers *)
Definition digit (c : Z) : option Z := if (48 <=? c) && (c <=? 57) then Some (c - 48) else None.
(** every character a digit *)
Fixpoint digits_from (acc : Z) (s : text) : option Z :=
  match s with
  | [] => Some acc
  | c :: s => match digit c with Some d => digits_from (acc * 10 + d) s | None => None end
  end.
Definition digits (s : text) : option Z := match s with [] => None | _ => digits_from 0 s end.
(** boost::lexical_cast<uintN_t>: an optional sign and digits; a value that does
    not fit fails, a negative one wraps around *)
Definition lex_unsigned (bits : Z) (s : text) : outcome Z :=
  let '(neg, d) := match s with
                   | c :: r => if c =? 45 then (true, digits r) else if c =? 43 then (false, digits r) else (false, digits s)
                   | [] => (false, None) end in
  match d with
  | None => Throw EInvalidArgument
  | Some v => if v <? 2 ^ bits then Ok (if neg then (- v) mod 2 ^ bits else v) else Throw EInvalidArgument
  end.
(** boost::lexical_cast<intN_t> *)
Definition lex_signed (bits : Z) (s : text) : outcome Z :=
  let '(neg, d) := match s with
                   | c :: r => if c =? 45 then (true, digits r) else if c =? 43 then (false, digits r) else (false, digits s)
                   | [] => (false, None) end in
  match d with
  | None => Throw EInvalidArgument
  | Some v => if neg then (if v <=? 2 ^ (bits - 1) then Ok (- v) else Throw EInvalidArgument)
              else if v <? 2 ^ (bits - 1) then Ok v else Throw EInvalidArgument
  end.
(** atoi: white space, an optional sign, digits, then anything; no digits give 0; a
    value outside int is undefined *)
Definition is_blank (c : Z) : bool := ((9 <=? c) && (c <=? 13)) || (c =? 32).
Fixpoint skip_blank (s : text) : text := match s with c :: r => if is_blank c then skip_blank r else s | [] => [] end.
Fixpoint digits_prefix (acc : Z) (s : text) : Z :=
  match s with
  | [] => acc
  | c :: s => match digit c with Some d => digits_prefix (acc * 10 + d) s | None => acc end
  end.
Definition atoi (s : text) : outcome Z :=
  let v := match skip_blank s with
           | c :: r => if c =? 45 then - digits_prefix 0 r else if c =? 43 then digits_prefix 0 r else digits_prefix 0 (c :: r)
           | [] => 0 end in
  if in_signedb 32 v then Ok v else UB UBIntOverflow.

(** boost::tokenizer with boost::char_separator(seps): the maximal runs of other
    characters (empty tokens are dropped) *)
Fixpoint tokens_from (seps : list Z) (cur : text) (s : text) : list text :=
  match s with
  | [] => match cur with [] => [] | _ => [cur] end
  | c :: s => if existsb (Z.eqb c) seps
              then match cur with [] => tokens_from seps [] s | _ => cur :: tokens_from seps [] s end
              else tokens_from seps (cur ++ [c]) s
  end.
Definition tokens (seps : list Z) (s : text) : list text := tokens_from seps [] s.

(** ** filters: those of Filter_Model and ContinuousValueFilter<T> for the three
    getters used here (laskernel.cpp:293-320) *)
Inductive cfilt :=
| CF (f : filt)
| CIntensity (t : ftype) (op : option cmp_op) (value : Z)
| CAngle (t : ftype) (op : option cmp_op) (value : Z)
| CTime (t : ftype) (op : option cmp_op) (value : f64).
(** filter.hpp:271-305 *)
Definition cmp_Z (o : cmp_op) (a b : Z) : bool :=
  match o with OpGe => b <=? a | OpGt => b <? a | OpLe => a <=? b | OpLt => a <? b | OpEq => a =? b end.
Definition cmp_d (o : cmp_op) (a b : f64) : bool :=
  match o with OpGe => f64_ge a b | OpGt => f64_gt a b | OpLe => f64_le a b | OpLt => f64_lt a b | OpEq => f64_eq a b end.
Definition cfilt_run (f : cfilt) (p : point) : outcome (bool * cfilt) :=
  match f with
  | CF g => let! (b, g1) := filt_run g p in Ok (b, CF g1)
  | CIntensity t op v => let! x := get_intensity p in omap (fun b => (b, f)) (value_filter t (option_map cmp_Z op) v x)
  | CAngle t op v => let! x := get_scan_angle p in omap (fun b => (b, f)) (value_filter t (option_map cmp_Z op) v x)
  | CTime t op v => let! x := get_time p in omap (fun b => (b, f)) (value_filter t (option_map cmp_d op) v x)
  end.
(** detail/reader/reader.cpp:105-123, as [Filter_Model.filter_point] *)
Fixpoint cfilter_point (fs : list cfilt) (p : point) : outcome (bool * list cfilt) :=
  match fs with
  | [] => Ok (true, [])
  | f :: fs =>
      let! (b, f1) := cfilt_run f p in
      if negb b then Ok (false, f1 :: fs)
      else let! (b2, fs1) := cfilter_point fs p in Ok (b2, f1 :: fs1)
  end.
(** the points of a sequence that are accepted when each is offered in turn *)
Fixpoint cfilter_points (fs : list cfilt) (ps : list point) : outcome (list point) :=
  match ps with
  | [] => Ok []
  | p :: ps => let! (b, fs1) := cfilter_point fs p in
               let! rest := cfilter_points fs1 ps in Ok (if b then p :: rest else rest)
  end.

Section Readers.
(** boost::lexical_cast<double> ([None] = bad_lexical_cast) and atof *)
Variable lexd : text -> option f64.
Variable atof : text -> f64.

(** laskernel.cpp:293-320 with the constructor filter.hpp:260-310 *)
Definition make_intensity (s : text) (t : ftype) : outcome cfilt :=
  let '(op, num) := parse_filter s in let! v := lex_unsigned 16 num in Ok (CIntensity t op v).
Definition make_angle (s : text) (t : ftype) : outcome cfilt :=
  let '(op, num) := parse_filter s in let! v := lex_signed 32 num in Ok (CAngle t op v).
Definition make_time (s : text) (t : ftype) : outcome cfilt :=
  let '(op, num) := parse_filter s in
  match lexd num with Some v => Ok (CTime t op v) | None => Throw EInvalidArgument end.

Definition ch_dash : Z := 45.
Definition ch_comma : Z := 44.
(** laskernel.cpp:254-263 *)
Definition is_dual_range (s : text) : bool := match find_first ch_dash s with Some _ => true | None => false end.

(** laskernel.cpp:624-646, 662-684, 701-723: the three --keep-... options *)
Definition keep_value (make : text -> ftype -> outcome cfilt) (s : text) : outcome (list cfilt) :=
  match find_first ch_dash s with
  | Some dash =>
      let low := firstn dash s in let high := skipn (S dash) s in
      let! a := make ([ch_gt; ch_eq] ++ low) eInclusion in
      let! b := make ([ch_lt; ch_eq] ++ high) eInclusion in Ok [a; b]
  | None => let! a := make s eInclusion in Ok [a]
  end.
(** laskernel.cpp:647-660, 685-698, 724-737: the three --drop-... options *)
Definition drop_value (make : text -> ftype -> outcome cfilt) (s : text) : outcome (list cfilt) :=
  if is_dual_range s then Throw ERuntime else let! a := make s eExclusion in Ok [a].

(** laskernel.cpp:756-767 and 792-803: the numbers of one colour *)
Fixpoint color_values (l : list text) : outcome (list Z) :=
  match l with
  | [] => Ok []
  | c :: l => let! v := atoi c in
              if (v <? 0) || (65535 <? v) then Throw ERuntime
              else let! r := color_values l in Ok (v mod 2 ^ 16 :: r)
  end.
(** laskernel.cpp:751-770, 787-806; a missing number is a read past the vector *)
Fixpoint colors_of (l : list text) : outcome (list color) :=
  match l with
  | [] => Ok []
  | t :: l => let! vs := color_values (tokens [ch_comma] t) in
              let! c := match vs with a :: b :: c :: _ => color_make a b c | _ => UB UBOutOfBounds end in
              let! r := colors_of l in Ok (c :: r)
  end.
(** laskernel.cpp:739-774, 775-810 *)
Definition make_color (s : text) (t : ftype) : outcome (list cfilt) :=
  let! cs := colors_of (tokens [ch_dash] s) in
  match cs with
  | lo :: hi :: _ => Ok [CF (FColor t (color_filter2 lo hi))]
  | _ => UB UBOutOfBounds
  end.

(** laskernel.cpp:411-433, 435-459 *)
Fixpoint class_list (l : list Z) : outcome (list Z) :=
  match l with
  | [] => Ok []
  | c :: l => let! k := class_make c false false false in let! r := class_list l in Ok (k :: r)
  end.
Definition make_classes (l : list Z) (t : ftype) : outcome (list cfilt) :=
  let! ks := class_list l in Ok [CF (FClass t ks)].

(** an option that may be absent *)
Definition opt {A B} (o : option A) (f : A -> outcome (list B)) : outcome (list B) :=
  match o with Some a => f a | None => Ok [] end.

(** laskernel.cpp:505-557: the box set by --minx ... --maxz, in this order; the
    flag tells whether one of them was given *)
Definition set_side (set : bounds -> nat -> f64 -> bounds) (i : nat) (o : option f64) (e : bounds * bool) : bounds * bool :=
  match o with Some v => (set (fst e) i v, true) | None => e end.
Definition side_box (o : cli) : bounds * bool :=
  set_side bounds_set_max 2 (o_maxz o) (set_side bounds_set_min 2 (o_minz o)
  (set_side bounds_set_max 1 (o_maxy o) (set_side bounds_set_min 1 (o_miny o)
  (set_side bounds_set_max 0 (o_maxx o) (set_side bounds_set_min 0 (o_minx o) (bounds_new, false)))))).

(** laskernel.cpp:69 (laskernel.hpp): ",| " *)
Definition separators : list Z := [44; 124; 32].
(** laskernel.cpp:559-622 *)
Definition extent_box (s : text) : outcome bounds :=
  match map atof (tokens separators s) with
  | [a; b; c; d] => Ok (bounds4 a b c d)
  | [a; b; c; d; e; f] => Ok (bounds6 a b c d e f)
  | _ => Throw ERuntime
  end.
Definition extent_filter (o : cli) (s : text) : outcome (list cfilt) :=
  let! b := extent_box s in
  let! b := if snd (side_box o) then bounds_grow b (fst (side_box o)) else Ok b in
  Ok [CF (FBounds eInclusion b)].

(** laskernel.cpp:405-862.  --drop-returns reads the value of --keep-returns (484);
    if that option is absent the conversion throws. *)
Definition get_filters (o : cli) : outcome (list cfilt) :=
  let! f1 := opt (o_keep_classes o) (fun l => make_classes l eInclusion) in
  let! f2 := opt (o_drop_classes o) (fun l => make_classes l eExclusion) in
  let! f3 := opt (o_keep_returns o) (fun l => Ok [CF (FReturn eInclusion l false)]) in
  let! f4 := opt (o_drop_returns o) (fun _ => match o_keep_returns o with
                                              | Some l => Ok [CF (FReturn eExclusion l false)]
                                              | None => Throw EInvalidArgument end) in
  let! f5 := opt (o_extent o) (extent_filter o) in
  let! f6 := opt (o_keep_intensity o) (keep_value make_intensity) in
  let! f7 := opt (o_drop_intensity o) (drop_value make_intensity) in
  let! f8 := opt (o_keep_angle o) (keep_value make_angle) in
  let! f9 := opt (o_drop_angle o) (drop_value make_angle) in
  let! f10 := opt (o_keep_time o) (keep_value make_time) in
  let! f11 := opt (o_drop_time o) (drop_value make_time) in
  let! f12 := opt (o_keep_color o) (fun s => make_color s eInclusion) in
  let! f13 := opt (o_drop_color o) (fun s => make_color s eExclusion) in
  let f14 := if o_thin o =? 0 then [] else [CF (FThin (thin_new (o_thin o)))] in
  if o_first o && o_last o then Throw ERuntime
  else
    let f15 := if o_last o then [CF (FReturn eInclusion [] true)] else [] in
    let f16 := if o_first o then [CF (FReturn eInclusion [1] false)] else [] in
    let f17 := if o_valid o then [CF (FValid eInclusion)] else [] in
    let f18 := if snd (side_box o) then match o_extent o with Some _ => [] | None => [CF (FBounds eInclusion (fst (side_box o)))] end else [] in
    Ok (f1 ++ f2 ++ f3 ++ f4 ++ f5 ++ f6 ++ f7 ++ f8 ++ f9 ++ f10 ++ f11 ++ f12 ++ f13 ++ f14 ++ f15 ++ f16 ++ f17 ++ f18).
End Readers.
