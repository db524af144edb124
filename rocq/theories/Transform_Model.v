(** Model of TranslationTransform (/repo/src/transform.cpp:223-434,
    /repo/include/liblas/transform.hpp:100-141).  The reprojection and
    colour-fetching transforms call GDAL and are not modelled. *)
From Coq Require Import ZArith List Bool String Ascii.
Import ListNotations.
From Verif Require Import Outcome Bytes Float64 Point_Model Coord_Api.
Local Open Scope Z_scope.

(** transform.hpp:110-129.  The dimension name is "X", "Y" or "Z" in every
    operation the parser makes; here it is the axis. *)
Inductive oper := OpMultiply | OpDivide | OpSubtract | OpAdd.
Record operation := mkOperation { o_oper : oper; o_dim : axis; o_value : f64 }.

(** private_utility.hpp:225-237 [compare_distance<int32_t>]: epsilon is 0.  The
    subtraction is a signed one; [wrap] says whether the compiler makes it wrap
    around (as -fwrapv does) or it is undefined behaviour (the C++ rule). *)
Definition compare_distance_int (wrap : bool) (actual expected : Z) : outcome bool :=
  let diff := actual - expected in
  if in_signedb 32 diff then Ok ((diff <=? 0) && (diff >=? - 0))
  else if wrap then Ok ((to_signed 32 (diff mod 2 ^ 32) <=? 0) && (to_signed 32 (diff mod 2 ^ 32) >=? - 0))
  else UB UBIntOverflow.

Definition int32_max : Z := 2147483647.
Definition int32_min : Z := -2147483648.

(** transform.cpp:409-425, one coordinate: [||] stops at the first hit. *)
Definition check_raw (wrap : bool) (v : Z) : outcome unit :=
  let! hi := compare_distance_int wrap v int32_max in
  if hi then Throw EDomain else
  let! lo := compare_distance_int wrap v int32_min in
  if lo then Throw EDomain else Ok tt.

(** transform.cpp:342-402 *)
Definition op_value (o : oper) (x v : f64) : f64 :=
  match o with
  | OpMultiply => f64_mul x v | OpDivide => f64_div x v
  | OpAdd => f64_add x v | OpSubtract => f64_sub x v
  end.
Definition apply_op (op : operation) (p : point) : outcome point :=
  let! x := get_coord (o_dim op) p in set_coord (o_dim op) p (op_value (o_oper op) x (o_value op)).

(** transform.cpp:335-428.  When it throws, the point passed by reference keeps
    the changes made so far; that state is not returned here. *)
Fixpoint transform (wrap : bool) (ops : list operation) (p : point) : outcome point :=
  match ops with
  | [] => Ok p
  | op :: rest =>
      let! p1 := apply_op op p in
      let! x := get_raw_x p1 in let! _ := check_raw wrap x in
      let! y := get_raw_y p1 in let! _ := check_raw wrap y in
      let! z := get_raw_z p1 in let! _ := check_raw wrap z in
      transform wrap rest p1
  end.

(** ** transform.cpp:241-334 [GetOperation] *)

(** [expr.find(c) != npos] *)
Fixpoint has_char (c : ascii) (s : string) : bool :=
  match s with EmptyString => false | String a r => Ascii.eqb a c || has_char c r end.
(** [s.substr(s.find_last_of(c) + 1, s.size())] when [c] occurs in [s] *)
Fixpoint after_last (c : ascii) (s : string) : string :=
  match s with
  | EmptyString => EmptyString
  | String a r => if has_char c r then after_last c r else if Ascii.eqb a c then r else after_last c r
  end.
(** boost::erase_all(expression, " ") *)
Fixpoint erase_spaces (s : string) : string :=
  match s with
  | EmptyString => EmptyString
  | String a r => if Ascii.eqb a " " then erase_spaces r else String a (erase_spaces r)
  end.

(** [cast] is boost::lexical_cast<double>: a parameter; [None] is
    bad_lexical_cast (reported as ERuntime); liblas::invalid_expression is
    reported as its base class, ELiblas. *)
Definition get_operation (cast : string -> option f64) (expr : string) : outcome operation :=
  if negb (has_char "x" expr) && negb (has_char "y" expr) && negb (has_char "z" expr) then Throw ELiblas else
  let e := erase_spaces expr in
  let fx := has_char "x" e in let fy := has_char "y" e in let fz := has_char "z" e in
  if fx && fy && fz then Throw ELiblas else
  let d0 := if fx then Some AxX else None in
  let d1 := if fy then Some AxY else d0 in
  let d2 := if fz then Some AxZ else d1 in
  match d2 with
  | None => Throw ELiblas
  | Some d =>
      let o0 := if has_char "*" e then Some (OpMultiply, after_last "*" e) else None in
      let o1 := if has_char "/" e then Some (OpDivide, after_last "/" e) else o0 in
      let o2 := if has_char "+" e then Some (OpAdd, after_last "+" e) else o1 in
      let o3 := if has_char "-" e then Some (OpSubtract, after_last "-" e) else o2 in
      match o3 with
      | None => Throw ELiblas
      | Some (o, out) => match cast out with Some v => Ok (mkOperation o d v) | None => Throw ERuntime end
      end
  end.

(** boost::tokenizer with char_separator(" "): the non-empty pieces. *)
Fixpoint tokens_from (cur : string) (s : string) : list string :=
  match s with
  | EmptyString => match cur with EmptyString => [] | _ => [cur] end
  | String a r =>
      if Ascii.eqb a " " then match cur with EmptyString => tokens_from EmptyString r | _ => cur :: tokens_from EmptyString r end
      else tokens_from (cur ++ String a EmptyString) r
  end.
Fixpoint get_operations (cast : string -> option f64) (l : list string) : outcome (list operation) :=
  match l with [] => Ok [] | s :: r => let! o := get_operation cast s in let! os := get_operations cast r in Ok (o :: os) end.

(** transform.cpp:223-239 *)
Definition translation_new (cast : string -> option f64) (expression : string) : outcome (list operation) :=
  match expression with
  | EmptyString => Throw ERuntime
  | _ => get_operations cast (tokens_from EmptyString expression)
  end.
