(** Statement vocabulary for writing through the C API (C65, C66). *)
From Coq Require Import ZArith List Bool String.
Import ListNotations.
From Verif Require Import Outcome Vlr_Model Schema_Model Header_Model Point_Model CApi_Model CApi_Spec CApiW_Model.
Local Open Scope Z_scope.
Local Notation length := List.length (only parsing).

(** ** C65 *)

(** a call that, to writer n (on file f), at most writes points *)
Definition only_points (n f : nat) (c : wcall) : Prop :=
  match c with
  | WHeader w _ | WOwned w | WSetHeader w _ | WDestroy w => w <> At n
  | WCreate g _ _ => g <> Some f
  | _ => True
  end.
(** the points that LASWriter_WritePoint has accepted for writer n, as they were at
    the time of the call *)
Section run.
Context (sv : schema -> vlr) (dh : header) (xml : vlr -> outcome schema) (doy year : Z).
Fixpoint accepted (n : nat) (s : wst) (l : list wcall) : list point :=
  match l with
  | [] => []
  | c :: l =>
      match wstep sv dh xml doy year s c with
      | Ok (t, r) =>
          match c, r, match c with WPoint _ p => point_at dh (w_c s) p | _ => UB UBNull end with
          | WPoint (At k) _, R (Num 0), Ok (q, _) => if Nat.eqb k n then [q] else []
          | _, _, _ => []
          end ++ accepted n t l
      | _ => []
      end
  end.
End run.
(** what was in file f before a writer in this mode (1: write, 2: append) opened it *)
Definition kept_bytes (s : wst) (f : nat) (mode : Z) : list Z :=
  match w_files s f with Data d => if mode =? 2 then d else [] | _ => [] end.
(** no live writer has file f *)
Definition not_open (s : wst) (f : nat) : Prop := forall n x, nth_error (w_wrs s) n = Some (Some x) -> cw_file x <> f.

(** functions that return LASErrorEnum, and what each answers when it fails *)
Definition wstatus (c : wcall) : bool := match c with Plain c => returns_status c | WPoint _ _ | WHeader _ _ | WOwned _ => true | _ => false end.
Definition wfailure (c : wcall) (r : wres) : Prop :=
  match c with
  | Plain c => exists x, r = R x /\ failure_answer c x
  | OpenFile _ => r = R (RPtr Null)
  | WCreate _ _ _ => r = WPtr Null
  | WPoint _ _ | WHeader _ _ | WOwned _ => r = R (Num 3)
  | WSetHeader _ _ | WDestroy _ => r = R Nothing
  | WGetHeader _ => exists n, r = R (HPtr (At n))
  end.
Definition wabout_errors (c : wcall) : bool := match c with Plain c => about_errors c | _ => false end.
Definition wseek (c : wcall) : bool := match c with Plain c => is_seek_call c | _ => false end.
Definition werror_added (c : wcall) (s t : wst) : Prop :=
  exists e, c_errs (w_c t) = e :: c_errs (w_c s) /\ e_code e = 3 /\ String.prefix (wname c) (e_method e) = true.
(** the writer a call is about *)
Definition writer_of (c : wcall) : ptr := match c with WPoint w _ | WHeader w _ | WOwned w | WSetHeader w _ | WDestroy w => w | _ => Null end.
