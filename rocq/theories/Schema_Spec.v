(** Specification of record layouts, independent of schema.cpp. *)
From Coq Require Import ZArith List Bool String.
Import ListNotations.
Local Open Scope Z_scope.

Record field := mkField { f_name : string; f_bits : Z; f_required : bool }.

(** LAS 1.2 point data record formats 0-3: fields in file order. *)
Definition std_fields (fmt : Z) : list field :=
  let r n b := mkField n b true in
  [ r "X" 32; r "Y" 32; r "Z" 32; r "Intensity" 16; r "Return Number" 3; r "Number of Returns" 3;
    r "Scan Direction" 1; r "Flightline Edge" 1; r "Classification" 8; r "Scan Angle Rank" 8;
    r "User Data" 8; r "Point Source ID" 16 ]%string
  ++ (if (fmt =? 1) || (fmt =? 3) then [ r "Time" 64 ]%string else [])
  ++ (if (fmt =? 2) || (fmt =? 3) then [ r "Red" 16; r "Green" 16; r "Blue" 16 ]%string else []).

Definition std_names : list string := map f_name (std_fields 3).

Definition total_bits (fs : list field) : Z := fold_right (fun f s => f_bits f + s) 0 fs.
(** Bit at which field [i] starts: the sizes of the fields before it. *)
Definition start_bit (fs : list field) (i : nat) : Z := total_bits (firstn i fs).

(** Schema operations. *)
Inductive sop :=
| SOAdd (name : string) (bits : Z) (numeric signed integer : bool)  (* AddDimension of a new custom dimension *)
| SORemove (name : string)             (* RemoveDimension of a custom dimension looked up by name *)
| SOFormat (fmt : Z).                  (* SetDataFormatId *)

Definition drop_field (name : string) (fs : list field) : list field :=
  filter (fun f => negb (String.eqb (f_name f) name)) fs.
Definition custom_fields (fs : list field) : list field := filter (fun f => negb (f_required f)) fs.

Definition sop_spec (fs : list field) (o : sop) : list field :=
  match o with
  | SOAdd n b _ _ _ => fs ++ [mkField n b false]
  | SORemove n => drop_field n fs
  | SOFormat f => std_fields f ++ custom_fields fs
  end.

(** Admissible operations: whole-byte custom dimensions with a fresh,
    non-standard name; removal of custom dimensions; formats 0-3. *)
Definition sop_ok (fs : list field) (o : sop) : Prop :=
  match o with
  | SOAdd n b _ _ _ => 0 < b /\ b mod 8 = 0 /\ ~ In n std_names /\ ~ In n (map f_name fs)
  | SORemove n => exists f, In f fs /\ f_name f = n /\ f_required f = false
  | SOFormat f => 0 <= f <= 3
  end.
Fixpoint sops_ok (fs : list field) (os : list sop) : Prop :=
  match os with [] => True | o :: r => sop_ok fs o /\ sops_ok (sop_spec fs o) r end.

(** Byte offsets of the standard fields (LAS 1.2, tables for formats 0-3). *)
Definition std_offsets (fmt : Z) : list (string * Z) :=
  [ ("X", 0); ("Y", 4); ("Z", 8); ("Intensity", 12); ("Return Number", 14); ("Number of Returns", 14);
    ("Scan Direction", 14); ("Flightline Edge", 14); ("Classification", 15); ("Scan Angle Rank", 16);
    ("User Data", 17); ("Point Source ID", 18) ]%string
  ++ (if (fmt =? 1) || (fmt =? 3) then [ ("Time", 20) ]%string else [])
  ++ (if fmt =? 2 then [ ("Red", 20); ("Green", 22); ("Blue", 24) ]%string else [])
  ++ (if fmt =? 3 then [ ("Red", 28); ("Green", 30); ("Blue", 32) ]%string else []).

(** Record length of the standard formats. *)
Definition std_length (fmt : Z) : Z :=
  if fmt =? 0 then 20 else if fmt =? 1 then 28 else if fmt =? 2 then 26 else 34.
