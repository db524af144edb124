(** Model of the schema's XML record: the property tree of a schema
    (/repo/src/dimension.cpp:146-173, /repo/src/schema.cpp:384-478, 548-572, 751-782) and the parts of the bundled
    property_tree library it uses (/repo/include/liblas/external/property_tree).

    Simplifications: a dimension's description is the empty string and its minimum and maximum are unset (Schema_Model
    does not represent these members; they are printed but do not influence the layout).  The conversion between a
    tree and XML text (write_xml, read_xml) is not modelled: it is a pair of functions the definitions take as
    arguments. *)
From Coq Require Import ZArith NArith List Bool String Ascii Decimal DecimalString DecimalN.
Import ListNotations.
From Verif Require Import Outcome Bytes CStr Vlr_Model Schema_Model.
Local Open Scope Z_scope.

(** ptree.hpp:34-: a node has data and an ordered list of named children *)
Inductive ptree := Node (data : string) (kids : list (string * ptree)).
Definition pt_data (t : ptree) : string := match t with Node d _ => d end.
Definition pt_kids (t : ptree) : list (string * ptree) := match t with Node _ k => k end.
Definition pt_empty : ptree := Node "" [].
Definition leaf (s : string) : ptree := Node s [].

(** detail/ptree_implementation.hpp [find]: the first child with that key *)
Fixpoint kid (k : string) (l : list (string * ptree)) : option ptree :=
  match l with
  | [] => None
  | (n, t) :: r => if String.eqb n k then Some t else kid k r
  end.
(** [walk_path]/[force_path] (ptree_implementation.hpp:845-895): descend into the first child with that key, which is
    created at the end when missing *)
Fixpoint at_kid (k : string) (f : ptree -> ptree) (l : list (string * ptree)) : list (string * ptree) :=
  match l with
  | [] => [(k, f pt_empty)]
  | (n, t) :: r => if String.eqb n k then (n, f t) :: r else (n, t) :: at_kid k f r
  end.
(** [put] and [add_child] at a path; paths are given already split at the dots *)
Fixpoint put (path : list string) (v : string) (t : ptree) : ptree :=
  match path with
  | [] => Node v (pt_kids t)
  | k :: r => Node (pt_data t) (at_kid k (put r v) (pt_kids t))
  end.
Fixpoint add_child (path : list string) (c : ptree) (t : ptree) : ptree :=
  match path with
  | [] => t
  | [k] => Node (pt_data t) (pt_kids t ++ [(k, c)])
  | k :: r => Node (pt_data t) (at_kid k (add_child r c) (pt_kids t))
  end.
(** [get_child]: a missing path is a ptree_bad_path, a std::runtime_error (exceptions.hpp:25-60) *)
Fixpoint get_child (path : list string) (t : ptree) : outcome ptree :=
  match path with
  | [] => Ok t
  | k :: r => match kid k (pt_kids t) with Some c => get_child r c | None => Throw ERuntime end
  end.

(** ** Values (stream_translator.hpp:30-45, 148-200) *)
Definition dec (n : Z) : string := NilEmpty.string_of_uint (N.to_uint (Z.to_N n)).
Definition bit (b : bool) : string := dec (if b then 1 else 0).

Definition is_digit (c : ascii) : bool := (48 <=? Z.of_nat (nat_of_ascii c)) && (Z.of_nat (nat_of_ascii c) <=? 57).
Definition is_space (c : ascii) : bool :=
  let n := Z.of_nat (nat_of_ascii c) in (n =? 32) || ((9 <=? n) && (n <=? 13)).
Fixpoint skip_ws (s : string) : string :=
  match s with String c r => if is_space c then skip_ws r else s | EmptyString => s end.
(** the digits at the front: their value (with those read before), whether there were any, and the rest *)
Fixpoint digits (v : Z) (any : bool) (s : string) : Z * bool * string :=
  match s with
  | String c r => if is_digit c then digits (10 * v + (Z.of_nat (nat_of_ascii c) - 48)) true r else (v, any, s)
  | EmptyString => (v, any, s)
  end.
(** [iss >> e; iss >> ws], then the text has to be used up; [e] an unsigned integer of [w] bits.  A sign is accepted
    and a negated value taken modulo 2^w, as strtoull does. *)
Definition read_uint (w : Z) (s : string) : option Z :=
  let s1 := skip_ws s in
  let '(neg, s2) := match s1 with
                    | String c r => if Ascii.eqb c "-" then (true, r) else if Ascii.eqb c "+" then (false, r) else (false, s1)
                    | EmptyString => (false, s1) end in
  let '(v, any, r) := digits 0 false s2 in
  if negb any then None
  else if 2 ^ w <=? v then None
  else match skip_ws r with
       | EmptyString => Some (if neg : bool then (- v) mod 2 ^ w else v)
       | _ => None
       end.
(** [bool]: a number that has to be 0 or 1, or else one of the words *)
Definition read_bool (s : string) : option bool :=
  match read_uint 63 s with
  | Some 0 => Some false
  | Some 1 => Some true
  | Some _ => None
  | None => if String.eqb (skip_ws s) "true" then Some true
            else if String.eqb (skip_ws s) "false" then Some false else None
  end.
(** [get<T>(path)]: text of another form is a ptree_bad_data, a std::runtime_error *)
Definition get_uint (w : Z) (path : list string) (t : ptree) : outcome Z :=
  let! c := get_child path t in match read_uint w (pt_data c) with Some v => Ok v | None => Throw ERuntime end.
Definition get_bool (path : list string) (t : ptree) : outcome bool :=
  let! c := get_child path t in match read_bool (pt_data c) with Some v => Ok v | None => Throw ERuntime end.
Definition get_string (path : list string) (t : ptree) : outcome string :=
  let! c := get_child path t in Ok (pt_data c).

(** ** The tree of a schema *)
(** dimension.cpp:146-173; 162-170 (minimum, maximum) is left out, see above *)
Definition dim_tree (d : dim) : ptree :=
  let t1 := put ["name"%string] (d_name d) pt_empty in
  let t2 := put ["description"%string] "" t1 in
  let t3 := put ["position"%string] (dec (d_pos d)) t2 in
  let t4 := put ["active"%string] (bit (d_active d)) t3 in
  let t5 := put ["size"%string] (dec (d_bits d)) t4 in
  let t6 := put ["integer"%string] (bit (d_integer d)) t5 in
  let t7 := put ["signed"%string] (bit (d_signed d)) t6 in
  let t8 := put ["required"%string] (bit (d_required d)) t7 in
  let t9 := put ["byteoffset"%string] (dec (d_byteoff d)) t8 in
  let t10 := put ["bitoffset"%string] (dec (d_bitoff d)) t9 in
  put ["bytesize"%string] (dec (dim_bytesize d)) t10.

(** version.cpp:129-131, las_version.h:61; the value plays no role *)
Definition liblas_version : string := "1.8.2".

(** schema.cpp:460-478, with the text written for the version (473) as an argument *)
Definition schema_tree_with (version : string) (s : schema) : ptree :=
  let t0 := fold_left (fun t d => add_child ["LASSchema"; "dimensions"; "dimension"]%string (dim_tree d) t) (by_pos (s_dims s)) pt_empty in
  let t1 := put ["LASSchema"; "version"]%string version t0 in
  let t2 := put ["LASSchema"; "liblas"]%string liblas_version t1 in
  put ["LASSchema"; "formatid"]%string (dec (s_format s)) t2.
(** schema.cpp:460-478 *)
Definition schema_tree (s : schema) : ptree := schema_tree_with "1.0" s.

(** schema.cpp:414-446: one dimension; 423-431, 440-446 (minimum, maximum) are left out *)
Definition load_dim (v : ptree) : outcome dim :=
  let! size := get_uint 32 ["size"%string] v in
  let! name := get_string ["name"%string] v in
  let! _ := get_string ["description"%string] v in
  let! issigned := get_bool ["signed"%string] v in
  let! isinteger := get_bool ["integer"%string] v in
  let! isactive := get_bool ["active"%string] v in
  let! isrequired := get_bool ["required"%string] v in
  let! pos := get_uint 32 ["position"%string] v in
  let! d := dim_new name size in
  Ok (mkDim (d_name d) (d_bits d) isrequired isactive (d_numeric d) issigned isinteger pos (d_byteoff d) (d_bitoff d)).
(** schema.cpp:411-448 *)
Fixpoint load_dims (l : list (string * ptree)) (c : container) : outcome container :=
  match l with
  | [] => Ok c
  | (_, v) :: r => let! d := load_dim v in load_dims r (mi_insert c d)
  end.
(** schema.cpp:404-458 and the constructor 566-571.  The members of the new object are not initialised, but
    SetDataFormatId sets all it uses (schema.cpp:296-307). *)
Definition load_schema (t : ptree) : outcome schema :=
  let! dims := get_child ["LASSchema"; "dimensions"]%string t in
  let! c := load_dims (pt_kids dims) [] in
  let! pf := get_uint 32 ["LASSchema"; "formatid"]%string t in
  let! _ := get_uint 16 ["LASSchema"; "version"]%string t in
  match set_format (mkSchema 0 0 0 0 []) pf with
  | (s, Ok _) => Ok (calculate_sizes (mkSchema (s_format s) (s_nextpos s) (s_bits s) (s_basebits s) c))
  | (_, Throw e) => Throw e
  | (_, UB u) => UB u
  end.

(** schema.cpp:751-782.  [print] is write_xml; the length is cast to 16 bits first (762), and text that does not fit
    is refused (769-775). *)
Definition schema_get_vlr (print : ptree -> list Z) (s : schema) : outcome vlr :=
  let text := print (schema_tree s) in
  let! v := vlr_set_user vlr_new (str "liblas") in
  let v := vlr_set_size (vlr_set_id v 7) (Z.of_nat (List.length text) mod 2 ^ 16) in
  if 65535 <? Z.of_nat (List.length text) then Throw ERuntime
  else vlr_set_desc (vlr_set_data v text) (str "http://liblas.org/schema/").
(** schema.cpp:384-402, 566-571: [parse] is read_xml, which throws xml_parser_error, a std::runtime_error, on text
    it cannot parse *)
Definition schema_of_vlr (parse : list Z -> outcome ptree) (v : vlr) : outcome schema :=
  let! t := parse (v_data v) in load_schema t.

(** ** Printing (dimension.cpp:197-219) *)
(** 205-213: [pad_size] is 30 minus the length of the quoted name, an unsigned 64-bit subtraction *)
Definition pad_steps (name : string) : Z := (30 - (Z.of_nat (String.length name) + 2)) mod 2 ^ 64.
