(** Model of VariableRecord (/repo/src/variablerecord.cpp,
    /repo/include/liblas/variablerecord.hpp). *)
From Coq Require Import ZArith List Bool.
Import ListNotations.
From Verif Require Import Outcome Bytes CStr.
Local Open Scope Z_scope.

(** variablerecord.hpp:139-144; char arrays are byte lists of length 16 / 32. *)
Record vlr := mkVlr {
  v_data : list Z;
  v_desc : list Z;
  v_user : list Z;
  v_reserved : Z;
  v_id : Z;
  v_size : Z }.

Definition eUserIdSize : nat := 16.
Definition eDescriptionSize : nat := 32.

(** variablerecord.cpp:59-67 *)
Definition vlr_new : vlr :=
  mkVlr (repeat 0 40) (repeat 0 eDescriptionSize) (repeat 0 eUserIdSize) 43707 0 0. (* 0xAABB *)

(** variablerecord.cpp:107-121, 156-170 *)
Definition vlr_get_user (pad : bool) (v : vlr) : list Z :=
  let tmp := until_nul (v_user v) in
  if pad && (length tmp <? length (v_user v))%nat then pad_to (length (v_user v)) tmp else tmp.
Definition vlr_get_desc (pad : bool) (v : vlr) : list Z :=
  let tmp := until_nul (v_desc v) in
  if pad && (length tmp <? length (v_desc v))%nat then pad_to (length (v_desc v)) tmp else tmp.

(** variablerecord.cpp:123-134: size check, then zero fill and copy *)
Definition vlr_set_user (v : vlr) (id : list Z) : outcome vlr :=
  if (length (v_user v) <? length id)%nat then Throw EInvalidArgument
  else Ok (mkVlr (v_data v) (v_desc v) (pad_to (length (v_user v)) id) (v_reserved v) (v_id v) (v_size v)).
(** variablerecord.cpp:172-180 *)
Definition vlr_set_desc (v : vlr) (text : list Z) : outcome vlr :=
  if (length (v_desc v) <? length text)%nat then Throw EInvalidArgument
  else Ok (mkVlr (v_data v) (pad_to (length (v_desc v)) text) (v_user v) (v_reserved v) (v_id v) (v_size v)).
(** variablerecord.cpp:102-105, 141-144, 151-154, 188-191 *)
Definition vlr_set_reserved (v : vlr) (x : Z) : vlr :=
  mkVlr (v_data v) (v_desc v) (v_user v) (x mod 2 ^ 16) (v_id v) (v_size v).
Definition vlr_set_id (v : vlr) (x : Z) : vlr :=
  mkVlr (v_data v) (v_desc v) (v_user v) (v_reserved v) (x mod 2 ^ 16) (v_size v).
Definition vlr_set_size (v : vlr) (x : Z) : vlr :=
  mkVlr (v_data v) (v_desc v) (v_user v) (v_reserved v) (v_id v) (x mod 2 ^ 16).
Definition vlr_set_data (v : vlr) (d : list Z) : vlr :=
  mkVlr d (v_desc v) (v_user v) (v_reserved v) (v_id v) (v_size v).

(** variablerecord.cpp:193-200: the payload is not compared *)
Definition vlr_equal (a b : vlr) : bool :=
  (v_id a =? v_id b) && zlist_eqb (v_user a) (v_user b) && zlist_eqb (v_desc a) (v_desc b)
  && (v_reserved a =? v_reserved b) && (v_size a =? v_size b).

(** variablerecord.cpp:202-212 *)
Definition vlr_total_size (v : vlr) : Z := 2 + 16 + 2 + 2 + 32 + Z.of_nat (length (v_data v)).

(** Type invariant of the C++ object: array lengths, integer widths. *)
Definition vlr_wf (v : vlr) : Prop :=
  length (v_user v) = eUserIdSize /\ length (v_desc v) = eDescriptionSize /\
  bytes_ok (v_user v) /\ bytes_ok (v_desc v) /\ bytes_ok (v_data v) /\
  in_unsigned 16 (v_reserved v) /\ in_unsigned 16 (v_id v) /\ in_unsigned 16 (v_size v).
