(** Specification vocabulary for VLR lists and text fields. *)
From Coq Require Import ZArith List Bool String.
Import ListNotations.
From Verif Require Import Outcome Bytes CStr Vlr_Model Header_Model.
Local Open Scope Z_scope.

(** [t] is the part of [s] before its first NUL, or all of [s]. *)
Definition c_string_of (s t : list Z) : Prop :=
  ~ In 0 t /\ (s = t \/ exists r, s = t ++ 0 :: r).

(** VLR list operations of Header. *)
Inductive vop :=
| VAdd (v : vlr)                        (* AddVLR *)
| VDelete (i : Z)                       (* DeleteVLR(uint32_t) *)
| VDeleteBy (name : list Z) (id : Z)    (* DeleteVLRs(string, uint16_t) *)
| VGeoref.                              (* SetGeoreference *)

(** The VLRs that [DeleteVLRs(name, id)] is to remove. *)
Definition vlr_matches (name : list Z) (id : Z) (v : vlr) : Prop :=
  c_string_of (v_user v) name /\ v_id v = id.

(** [l'] is [l] without the elements satisfying [P], in order. *)
Inductive without {A} (P : A -> Prop) : list A -> list A -> Prop :=
| wo_nil : without P [] []
| wo_drop x l l' : P x -> without P l l' -> without P (x :: l) l'
| wo_keep x l l' : ~ P x -> without P l l' -> without P (x :: l) (x :: l').

Definition is_geotiff_vlr (v : vlr) : Prop :=
  exists id, In id [34735; 34736; 34737] /\ vlr_matches (str "LASF_Projection") id v.

(** Effect of an operation on the list of VLRs; the flag says an exception is
    thrown.  [srs] are the VLRs of the spatial reference. *)
Inductive vstep (srs : list vlr) : list vlr -> vop -> list vlr -> bool -> Prop :=
| vs_add l v : vstep srs l (VAdd v) (l ++ [v]) false
| vs_del a v b i : Z.of_nat (List.length a) = i -> vstep srs (a ++ v :: b) (VDelete i) (a ++ b) false
| vs_del_range l i : Z.of_nat (List.length l) <= i -> vstep srs l (VDelete i) l true
| vs_by l l' name id : without (vlr_matches name id) l l' -> vstep srs l (VDeleteBy name id) l' false
| vs_geo l l' : without is_geotiff_vlr l l' -> vstep srs l VGeoref (l' ++ srs) false.

Inductive vsteps (srs : list vlr) : list vlr -> list vop -> list vlr -> Prop :=
| vss_nil l : vsteps srs l [] l
| vss_cons l o l1 e os l2 : vstep srs l o l1 e -> vsteps srs l1 os l2 -> vsteps srs l (o :: os) l2.

(** The implementation side; an exception is caught and the header kept. *)
Definition vop_run (h : header) (o : vop) : outcome header :=
  match o with
  | VAdd v => Ok (add_vlr h v)
  | VDelete i => delete_vlr h i
  | VDeleteBy n id => Ok (delete_vlrs h n id)
  | VGeoref => Ok (set_georeference h)
  end.
Fixpoint vops_run (h : header) (os : list vop) : outcome header :=
  match os with
  | [] => Ok h
  | o :: r => match vop_run h o with Ok h1 => vops_run h1 r | Throw _ => vops_run h r | UB u => UB u end
  end.
Definition vop_typed (o : vop) : Prop :=
  match o with VDelete i => 0 <= i | _ => True end.
