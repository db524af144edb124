(** Model of Dimension and Schema (/repo/src/dimension.cpp, /repo/src/schema.cpp
    and their headers).

    Simplifications: a dimension's description, min/max, scale, offset and
    "finite precision" members are not represented (they influence neither the
    layout nor the record length); XML (de)serialisation of the schema
    (schema.cpp:384-470, 748-782) is outside the model. *)
From Coq Require Import ZArith List Bool String.
Import ListNotations.
From Verif Require Import Outcome Bytes.
Local Open Scope Z_scope.

(** dimension.hpp:186-203 *)
Record dim := mkDim {
  d_name : string;
  d_bits : Z;          (* size_t *)
  d_required : bool;
  d_active : bool;
  d_numeric : bool;
  d_signed : bool;
  d_integer : bool;
  d_pos : Z;           (* uint32_t *)
  d_byteoff : Z;       (* size_t *)
  d_bitoff : Z }.      (* size_t *)

(** dimension.cpp:62-83 constructor; 0 bits is rejected *)
Definition dim_new (name : string) (bits : Z) : outcome dim :=
  if bits =? 0 then Throw ERuntime
  else Ok (mkDim name bits false false false false false 0 0 0).

Definition dim_set_pos (d : dim) (p : Z) : dim :=
  mkDim (d_name d) (d_bits d) (d_required d) (d_active d) (d_numeric d) (d_signed d) (d_integer d)
        p (d_byteoff d) (d_bitoff d).
Definition dim_set_off (d : dim) (byte bit : Z) : dim :=
  mkDim (d_name d) (d_bits d) (d_required d) (d_active d) (d_numeric d) (d_signed d) (d_integer d)
        (d_pos d) byte bit.
(** dimension.hpp:205-233 [SetRequired]/[SetActive] functors *)
Definition dim_set_req (d : dim) (r a : bool) : dim :=
  mkDim (d_name d) (d_bits d) r a (d_numeric d) (d_signed d) (d_integer d)
        (d_pos d) (d_byteoff d) (d_bitoff d).

(** dimension.cpp:127-144 *)
Definition dim_bytesize (d : dim) : Z :=
  if 0 <? d_bits d mod 8
  then if 8 <? d_bits d then d_bits d / 8 + 1 else 1
  else d_bits d / 8.

(** dimension.cpp:175-195 (on the represented members) *)
Definition dim_eqb (a b : dim) : bool :=
  String.eqb (d_name a) (d_name b) && (d_bits a =? d_bits b) &&
  Bool.eqb (d_required a) (d_required b) && Bool.eqb (d_active a) (d_active b) &&
  Bool.eqb (d_numeric a) (d_numeric b) && Bool.eqb (d_signed a) (d_signed b) &&
  Bool.eqb (d_integer a) (d_integer b) && (d_pos a =? d_pos b) &&
  (d_byteoff a =? d_byteoff b) && (d_bitoff a =? d_bitoff b).

(** ** The container (schema.hpp:81-93)

    boost::multi_index with three indices: unique by position (operator<),
    random access (insertion order), unique by name.  It is a list in insertion
    order; the operations below keep both uniqueness conditions the way
    multi_index does, by refusing the operation. *)
Definition container := list dim.

(** insertion into a position-sorted list *)
Fixpoint insert_pos (d : dim) (l : list dim) : list dim :=
  match l with
  | [] => [d]
  | x :: r => if d_pos d <? d_pos x then d :: l else x :: insert_pos d r
  end.
(** iteration order of the position index *)
Definition by_pos (c : container) : list dim := fold_right insert_pos [] c.

Definition find_name (c : container) (n : string) : option dim :=
  find (fun d => String.eqb (d_name d) n) c.

(** [m_index.insert(d)]: refused when an element with the same position or the
    same name exists. *)
Definition mi_insert (c : container) (d : dim) : container :=
  if existsb (fun x => (d_pos x =? d_pos d) || String.eqb (d_name x) (d_name d)) c
  then c else c ++ [d].

(** [name_index.replace(it, d)] where [it] is the element named [d_name d]:
    refused when another element has the position of [d]. *)
Definition mi_replace (c : container) (d : dim) : container :=
  if existsb (fun x => (d_pos x =? d_pos d) && negb (String.eqb (d_name x) (d_name d))) c
  then c
  else map (fun x => if String.eqb (d_name x) (d_name d) then d else x) c.

(** [m_index.erase(key)] on the first index: the element with the key's
    position. *)
Definition mi_erase (c : container) (d : dim) : container :=
  filter (fun x => negb (d_pos x =? d_pos d)) c.

(** schema.hpp:142-150.  Sizes are size_t (mod 2^64), positions uint32_t. *)
Record schema := mkSchema {
  s_format : Z;
  s_nextpos : Z;
  s_bits : Z;
  s_basebits : Z;
  s_dims : container }.

Definition two64 : Z := 2 ^ 64.

(** schema.cpp:605-642 loop body over the position index, returning the updated
    dimensions in that order. *)
Fixpoint calc_loop (byte_offset bit_offset : Z) (l : list dim) : list dim :=
  match l with
  | [] => []
  | t :: r =>
      let bit1 := bit_offset + d_bits t mod 8 in
      let t' := dim_set_off t byte_offset bit1 in
      t' :: (if bit1 mod 8 =? 0
             then calc_loop (byte_offset + dim_bytesize t) 0 r
             else calc_loop byte_offset bit1 r)
  end.

Definition sum_bits (l : list dim) : Z := fold_left (fun a d => (a + d_bits d) mod two64) l 0.

(** [position_index.replace(i, t)]: same position and name, always succeeds. *)
Definition put_back (updated : list dim) (d : dim) : dim :=
  match find (fun x => d_pos x =? d_pos d) updated with Some x => x | None => d end.

Definition calculate_sizes (s : schema) : schema :=
  let ord := by_pos (s_dims s) in
  let upd := calc_loop 0 0 ord in
  mkSchema (s_format s) (s_nextpos s) (sum_bits ord)
           (sum_bits (filter d_required ord)) (map (put_back upd) (s_dims s)).

(** schema.cpp:674-691 *)
Definition add_dimension (s : schema) (d : dim) : schema :=
  let d1 := dim_set_pos d (s_nextpos s) in
  let s1 := mkSchema (s_format s) ((s_nextpos s + 1) mod 2 ^ 32) (s_bits s) (s_basebits s)
              (match find_name (s_dims s) (d_name d) with
               | Some _ => mi_replace (s_dims s) d
               | None => mi_insert (s_dims s) d1
               end) in
  calculate_sizes s1.

Definition mkReq (name : string) (bits : Z) (num sg int : bool) : dim :=
  mkDim name bits true true num sg int 0 0 0.

(** schema.cpp:76-229 [add_record0_dimensions]: the dimensions are added as not
    required, then all are made required and active (222-227). *)
Definition record0_dims : list dim :=
  let mk n b num sg int := mkDim n b false false num sg int 0 0 0 in
  [ mk "X" 32 true true true; mk "Y" 32 true true true; mk "Z" 32 true true true;
    mk "Intensity" 16 true false true;
    mk "Return Number" 3 true false true; mk "Number of Returns" 3 true false true;
    mk "Scan Direction" 1 true false true; mk "Flightline Edge" 1 true false true;
    mk "Classification" 8 false false false; mk "Scan Angle Rank" 8 true true true;
    mk "User Data" 8 false false false; mk "Point Source ID" 16 true false true ]%string.

Definition map_dims (f : dim -> dim) (s : schema) : schema :=
  mkSchema (s_format s) (s_nextpos s) (s_bits s) (s_basebits s) (map f (s_dims s)).

Definition add_record0 (s : schema) : schema :=
  map_dims (fun d => dim_set_req d true true) (fold_left add_dimension record0_dims s).

(** schema.cpp:231-272 *)
Definition color_dims : list dim :=
  [ mkReq "Red" 16 true false true; mkReq "Green" 16 true false true; mkReq "Blue" 16 true false true ]%string.
Definition add_color (s : schema) : schema := fold_left add_dimension color_dims s.
(** schema.cpp:274-294 *)
Definition time_dims : list dim := [ mkReq "Time" 64 true false false ]%string.
Definition add_time (s : schema) : schema := fold_left add_dimension time_dims s.

(** schema.cpp:296-356.  The result carries the schema as it is when the
    function returns or throws: the exception for an unknown format (336-339) is
    thrown after the dimensions have been cleared and re-added. *)
Definition update_required (s : schema) (fmt : Z) : schema * outcome unit :=
  let user := by_pos (filter (fun d => negb (d_required d)) (s_dims s)) in
  let s0 := mkSchema (s_format s) 0 (s_bits s) (s_basebits s) [] in
  let s1 := add_record0 s0 in
  let finish s2 := (calculate_sizes (fold_left add_dimension user s2), Ok tt) in
  if fmt =? 3 then finish (add_color (add_time s1))
  else if fmt =? 2 then finish (add_color s1)
  else if fmt =? 1 then finish (add_time s1)
  else if fmt =? 0 then finish s1
  else (s1, Throw ERuntime).

(** schema.cpp:655-660 *)
Definition set_format (s : schema) (fmt : Z) : schema * outcome unit :=
  match update_required s fmt with
  | (s1, Ok _) =>
      (calculate_sizes (mkSchema fmt (s_nextpos s1) (s_bits s1) (s_basebits s1) (s_dims s1)), Ok tt)
  | r => r
  end.

(** schema.cpp:66-74 *)
Definition schema_new (fmt : Z) : outcome schema :=
  match update_required (mkSchema fmt 0 0 0 []) fmt with
  | (s, Ok _) => Ok s
  | (_, Throw e) => Throw e
  | (_, UB u) => UB u
  end.

(** schema.cpp:662-666 *)
Definition remove_dimension (s : schema) (d : dim) : schema :=
  calculate_sizes (mkSchema (s_format s) (s_nextpos s) (s_bits s) (s_basebits s) (mi_erase (s_dims s) d)).

(** schema.cpp:719-732 *)
Definition set_dimension (s : schema) (d : dim) : outcome schema :=
  match find_name (s_dims s) (d_name d) with
  | Some _ => Ok (mkSchema (s_format s) (s_nextpos s) (s_bits s) (s_basebits s) (mi_replace (s_dims s) d))
  | None => Throw ERuntime
  end.

(** schema.cpp:668-672, 649-653, 644-647 *)
Definition schema_bytes (s : schema) : Z := s_bits s / 8.
Definition schema_base_bytes (s : schema) : Z := s_basebits s / 8.
(** schema.cpp:695-706 *)
Definition get_dimension (s : schema) (n : string) : option dim := find_name (s_dims s) n.
(** schema.cpp:708-717: [t <= size] then [at(t)], which throws for [t = size];
    indexed by insertion order *)
Definition get_dimension_at (s : schema) (t : Z) : outcome (option dim) :=
  if t <=? Z.of_nat (List.length (s_dims s))
  then match nth_error (s_dims s) (Z.to_nat t) with
       | Some d => Ok (Some d) | None => Throw EOutOfRange end
  else Ok None.
(** schema.cpp:586-602 *)
Definition is_custom (s : schema) : bool := existsb (fun d => negb (d_required d)) (by_pos (s_dims s)).

(** schema.cpp:784-798: walks this schema's dimensions only; the other one is
    indexed without a bound check *)
Fixpoint schema_eq_loop (cur other : list dim) : outcome bool :=
  match cur with
  | [] => Ok true
  | d :: r => match other with
              | [] => UB UBOutOfBounds
              | o :: ro => if dim_eqb o d then schema_eq_loop r ro else Ok false
              end
  end.
Definition schema_eq (a b : schema) : outcome bool := schema_eq_loop (s_dims a) (s_dims b).
