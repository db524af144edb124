(** Vocabulary for the summary theorems. *)
From Coq Require Import ZArith List Bool String.
Import ListNotations.
From Verif Require Import Outcome Bytes Float64 Classif_Model Header_Model Point_Model Point_Spec Point_Api.
Local Open Scope Z_scope.
Local Notation length := List.length (only parsing).

(** [vs] are the results of the accessor [get] on the points [ps]. *)
Definition values_of {V} (get : point -> outcome V) (ps : list point) (vs : list V) : Prop :=
  Forall2 (fun p v => get p = Ok v) ps vs.

(** [m] is the smallest / largest of the integers [vs]. *)
Definition least (vs : list Z) (m : Z) : Prop := In m vs /\ forall v, In v vs -> m <= v.
Definition greatest (vs : list Z) (m : Z) : Prop := In m vs /\ forall v, In v vs -> v <= m.
(** The same for doubles; with a NaN among them "nothing is smaller" is all that
    can be said. *)
Definition least_f (vs : list f64) (m : f64) : Prop := In m vs /\ forall v, In v vs -> f64_lt v m = false.
Definition greatest_f (vs : list f64) (m : f64) : Prop := In m vs /\ forall v, In v vs -> f64_lt m v = false.

(** Number of entries of [vs] with the property. *)
Definition number_of {V} (f : V -> bool) (vs : list V) : Z := Z.of_nat (length (filter f vs)).

(** Integer-valued accessors of a point. *)
Inductive quantity := QAttr (a : attr) | QClass.
Definition q_get (q : quantity) (p : point) : outcome Z :=
  match q with
  | QAttr a => api_get a p
  | QClass => let! c := get_classification p in Ok (class_get c)
  end.
(** The quantities of a summary (time apart). *)
Definition summarised (q : quantity) : Prop :=
  match q with QAttr (ATime | AScanFlags | AClassification) => False | _ => True end.
(** The point format stores the quantity. *)
Definition present (fmt : Z) (q : quantity) : Prop :=
  match q with QAttr a => attr_range fmt a <> None | QClass => True end.

(** A point whose header's schema has the time and colour dimensions exactly if
    its format has them. *)
Definition usual_point (fmt : Z) (p : point) : Prop :=
  point_wf p /\ p_format p = fmt /\
  (has_dim (p_hdr p) "Time" = true <-> attr_range fmt ATime <> None) /\
  (has_dim (p_hdr p) "Red" && has_dim (p_hdr p) "Green" && has_dim (p_hdr p) "Blue" = true <->
   attr_range fmt ARed <> None).

(** A header to give to the summary before feeding points like [p]: same format,
    record length, scale and offset. *)
Definition fitting_header (h : header) (p : point) : Prop :=
  get_format h = p_format p /\ get_record_length h = Z.of_nat (length (p_data p)) /\
  scaling_differs h (p_hdr p) = false.
