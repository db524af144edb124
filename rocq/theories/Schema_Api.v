(** Statement vocabulary: the schema operations of the model as a state machine,
    and what a caller observes of a schema. *)
From Coq Require Import ZArith List Bool String.
Import ListNotations.
From Verif Require Import Outcome Bytes Schema_Model Schema_Spec.
Local Open Scope Z_scope.

(** A custom dimension as a user builds it (any numeric/signed/integer flags). *)
Definition user_dim (n : string) (bits : Z) (num sg int : bool) : dim :=
  mkDim n bits false false num sg int 0 0 0.

Definition sop_run (s : schema) (o : sop) : outcome schema :=
  match o with
  | SOAdd n b num sg int => Ok (add_dimension s (user_dim n b num sg int))
  | SORemove n => match get_dimension s n with Some d => Ok (remove_dimension s d) | None => Throw EInvalidArgument end
  | SOFormat f => let (s1, r) := set_format s f in let! _ := r in Ok s1
  end.
Fixpoint sops_run (s : schema) (os : list sop) : outcome schema :=
  match os with [] => Ok s | o :: r => let! s1 := sop_run s o in sops_run s1 r end.

(** The fields of a schema in record order. *)
Definition field_of (d : dim) : field := mkField (d_name d) (d_bits d) (d_required d).
Definition schema_fields (s : schema) : list field := map field_of (by_pos (s_dims s)).
(** What is observed: fields, byte offsets, sizes. *)
Definition schema_shows (s : schema) (fs : list field) : Prop :=
  schema_fields s = fs /\
  map d_byteoff (by_pos (s_dims s)) = map (fun i => start_bit fs i / 8) (seq 0 (List.length fs)) /\
  s_bits s = total_bits fs mod 2 ^ 64 /\
  s_basebits s = total_bits (filter f_required fs) mod 2 ^ 64.
