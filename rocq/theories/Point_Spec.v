(** Specification vocabulary for point records, independent of point.cpp: the
    LAS 1.2 point record layouts as bit ranges of the record read as one
    little-endian integer. *)
From Coq Require Import ZArith List Bool.
Import ListNotations.
From Verif Require Import Bytes.
Local Open Scope Z_scope.

(** The attributes of a point. *)
Inductive attr :=
| ARawX | ARawY | ARawZ | AIntensity | AScanFlags
| AReturnNumber | ANumberOfReturns | AScanDirection | AFlightLineEdge
| AClassification | AScanAngleRank | AUserData | APointSourceId
| ATime | ARed | AGreen | ABlue.

(** Where an attribute lives in a record of the given point data format:
    (first bit, width, signed).  Bit [8*i+j] of the record is bit [j] of byte
    [i].  LAS 1.2 specification, tables of point data record formats 0-3. *)
Definition attr_range (fmt : Z) (a : attr) : option (Z * Z * bool) :=
  match a with
  | ARawX => Some (0, 32, true)
  | ARawY => Some (32, 32, true)
  | ARawZ => Some (64, 32, true)
  | AIntensity => Some (96, 16, false)
  | AScanFlags => Some (112, 8, false)
  | AReturnNumber => Some (112, 3, false)
  | ANumberOfReturns => Some (115, 3, false)
  | AScanDirection => Some (118, 1, false)
  | AFlightLineEdge => Some (119, 1, false)
  | AClassification => Some (120, 8, false)
  | AScanAngleRank => Some (128, 8, true)
  | AUserData => Some (136, 8, false)
  | APointSourceId => Some (144, 16, false)
  | ATime => if (fmt =? 1) || (fmt =? 3) then Some (160, 64, false) else None
  | ARed => if fmt =? 2 then Some (160, 16, false) else if fmt =? 3 then Some (224, 16, false) else None
  | AGreen => if fmt =? 2 then Some (176, 16, false) else if fmt =? 3 then Some (240, 16, false) else None
  | ABlue => if fmt =? 2 then Some (192, 16, false) else if fmt =? 3 then Some (256, 16, false) else None
  end.

(** Record length in bytes of the formats of LAS 1.2. *)
Definition format_bytes (fmt : Z) : Z :=
  if fmt =? 0 then 20 else if fmt =? 1 then 28 else if fmt =? 2 then 26 else 34.

(** [w] bits of [R] from bit [s] on. *)
Definition bits_at (R s w : Z) : Z := (R / 2 ^ s) mod 2 ^ w.
(** [R] with those bits replaced by the low [w] bits of [v]. *)
Definition put_bits (R s w v : Z) : Z := R + 2 ^ s * (v mod 2 ^ w - bits_at R s w).
(** Meaning of a [w]-bit pattern. *)
Definition decode_bits (sign : bool) (w b : Z) : Z := if sign then to_signed w b else b.

(** Two attributes share no bit. *)
Definition ranges_disjoint (r1 r2 : Z * Z * bool) : Prop :=
  let '(s1, w1, _) := r1 in let '(s2, w2, _) := r2 in s1 + w1 <= s2 \/ s2 + w2 <= s1.

Definition value_fits (sign : bool) (w v : Z) : Prop :=
  if sign then in_signed w v else in_unsigned w v.

(** ** A point as an abstract record of independent attributes

    The scan flag byte is not independent: it is the concatenation of the four
    flag fields.  [aview] reads any attribute, [aset] writes one. *)
Definition attr_eq_dec (a b : attr) : {a = b} + {a <> b}.
Proof. decide equality. Defined.

Definition flag_byte (rn nr dir edge : Z) : Z := rn + 8 * nr + 64 * dir + 128 * edge.

Definition aview (m : attr -> Z) (a : attr) : Z :=
  match a with
  | AScanFlags => flag_byte (m AReturnNumber) (m ANumberOfReturns) (m AScanDirection) (m AFlightLineEdge)
  | _ => m a
  end.

Definition upd (m : attr -> Z) (a : attr) (v : Z) : attr -> Z :=
  fun b => if attr_eq_dec b a then v else m b.

Definition aset (m : attr -> Z) (a : attr) (v : Z) : attr -> Z :=
  match a with
  | AScanFlags => upd (upd (upd (upd m AReturnNumber (v mod 8)) ANumberOfReturns (v / 8 mod 8))
                        AScanDirection (v / 64 mod 2)) AFlightLineEdge (v / 128)
  | _ => upd m a v
  end.

(** Public write operations on a point. *)
Inductive pop := PSet (a : attr) (v : Z) | PColor (r g b : Z).
Definition aop (m : attr -> Z) (o : pop) : attr -> Z :=
  match o with
  | PSet a v => aset m a v
  | PColor r g b => aset (aset (aset m ARed r) AGreen g) ABlue b
  end.
Definition is_color (a : attr) : bool := match a with ARed | AGreen | ABlue => true | _ => false end.

(** Arguments in the domain of the attribute, attribute present in the format. *)
Definition pop_ok (fmt : Z) (o : pop) : Prop :=
  match o with
  | PSet a v => is_color a = false /\
      exists s w sg, attr_range fmt a = Some (s, w, sg) /\ value_fits sg w v
  | PColor r g b => attr_range fmt ARed <> None /\ in_unsigned 16 r /\ in_unsigned 16 g /\ in_unsigned 16 b
  end.
