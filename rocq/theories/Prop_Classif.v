(** C03: the classification byte.  [class_byte] (Classif_Proofs.v) is the LAS bit
    encoding of an abstract classification (class number, three flags);
    [cop_spec] updates exactly one component. *)
From Coq Require Import ZArith List Bool.
Import ListNotations.
From Verif Require Import Outcome Bytes Classif_Model Classif_Proofs.
Local Open Scope Z_scope.

(** One call: accepted arguments change exactly the addressed component, class
    numbers over 31 throw. *)
Theorem C03_step : forall a o, 0 <= ac_cls a < 32 -> cop_typed o ->
  if cop_accepts o
  then cop_run (class_byte a) o = Ok (class_byte (cop_spec a o)) /\ 0 <= ac_cls (cop_spec a o) < 32
  else cop_run (class_byte a) o = Throw EOutOfRange.
Proof. exact class_step. Qed.
Print Assumptions C03_step.

(** Every history of calls, rejected ones having no effect. *)
Theorem C03_history : forall os a, 0 <= ac_cls a < 32 -> Forall cop_typed os ->
  let a' := fold_left cop_spec (filter cop_accepts os) a in
  cops_run (class_byte a) os = Ok (class_byte a') /\ 0 <= ac_cls a' < 32.
Proof. exact class_history. Qed.
Print Assumptions C03_history.

Theorem C03_read : forall a, 0 <= ac_cls a < 32 ->
  class_get (class_byte a) = ac_cls a /\ class_is_synthetic (class_byte a) = ac_syn a /\
  class_is_keypoint (class_byte a) = ac_key a /\ class_is_withheld (class_byte a) = ac_wit a.
Proof. exact class_read. Qed.
Print Assumptions C03_read.

(** Every byte is such an encoding, so the theorems above cover every object. *)
Theorem C03_every_byte : forall f, 0 <= f < 256 -> exists a, 0 <= ac_cls a < 32 /\ class_byte a = f.
Proof. exact class_byte_surj. Qed.
Print Assumptions C03_every_byte.

Theorem C03_constructor : forall cls s k w, in_unsigned 32 cls ->
  class_make cls s k w = if cls <=? 31 then Ok (class_byte (mkAclass cls s k w)) else Throw EOutOfRange.
Proof. exact class_make_ok. Qed.
Print Assumptions C03_constructor.

Example C03_instance :
  cops_run (class_byte (mkAclass 31 true false true)) [CSetClass 40; CSetClass 2; CSetKeyPoint true; CSetSynthetic false]
  = Ok 194 /\ Forall cop_typed [CSetClass 40; CSetClass 2; CSetKeyPoint true; CSetSynthetic false].
Proof.
  split; [vm_compute; reflexivity|].
  repeat (apply Forall_cons; [cbn [cop_typed]; unfold in_unsigned; first [exact I | split; [discriminate|reflexivity]]|]).
  apply Forall_nil.
Qed.
