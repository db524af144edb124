(** Model of the C API's writer functions (/repo/src/c_api.cpp:1660-1883) over the
    models of the C++ writer (Writer_Model.v) and of the other C API functions
    (CApi_Model.v).

    Files have numbers for names; a file that is being written has a buffer in its
    writer and gets its contents when the writer is destroyed (until then it is
    empty, or in append mode as it was).  Simplifications: no two writers have the
    same file open; a stream that could be opened does not fail; error messages are
    left out.  Not modelled: LASWriter_SetInputSRS, LASWriter_SetOutputSRS and
    LASWriter_SetSRS; builds with LASzip. *)
From Coq Require Import ZArith List Bool String.
Import ListNotations.
From Verif Require Import Outcome Vlr_Model Schema_Model Header_Model Point_Model Stream_Model Writer_Model Reader_Model CApi_Model.
Local Open Scope Z_scope.
Local Notation length := List.length (only parsing).

(** what there is under a file name; Denied: it cannot be opened for writing, or does
    not exist and cannot be created *)
Inductive fentry := Missing | Denied | Data (d : list Z).
(** a liblas::Writer: m_header and the counter are in cw_w; cw_first is the header the
    point writer took at the first WritePoint (detail/writer/writer.cpp:90-97,
    detail/writer/point.cpp:55-63) *)
Record cwriter := mkCW { cw_file : nat; cw_w : writer; cw_first : option header }.
Record wst := mkW { w_c : cst; w_files : nat -> fentry; w_wrs : list (option cwriter) }.
Definition set_c (s : wst) (c : cst) : wst := mkW c (w_files s) (w_wrs s).
Definition set_wrs (s : wst) l : wst := mkW (w_c s) (w_files s) l.
Definition set_file (s : wst) (n : nat) (e : fentry) : wst := mkW (w_c s) (fun k => if Nat.eqb k n then e else w_files s k) (w_wrs s).
Inductive wres := R (r : res) | WPtr (p : ptr).
Definition wfail (s : wst) (m : string) (rc : wres) : outcome (wst * wres) := Ok (set_c s (push (w_c s) LE_Failure m), rc).

Inductive wcall :=
  | Plain (c : call)
  | OpenFile (f : option nat)                                  (* LASReader_Create *)
  | WCreate (f : option nat) (h : ptr) (mode : Z) | WDestroy (w : ptr)
  | WPoint (w : ptr) (p : pptr) | WHeader (w h : ptr) | WOwned (w : ptr) | WSetHeader (w h : ptr) | WGetHeader (w : ptr).
Definition wname (c : wcall) : string :=
  match c with
  | Plain c => name_of c | OpenFile _ => "LASReader_Create" | WCreate _ _ _ => "LASWriter_Create" | WDestroy _ => "LASWriter_Destroy"
  | WPoint _ _ => "LASWriter_WritePoint" | WHeader _ _ => "LASWriter_WriteHeader" | WOwned _ => "LASWriter_WriteOwnedHeader"
  | WSetHeader _ _ => "LASWriter_SetHeader" | WGetHeader _ => "LASWriter_GetHeader"
  end.

(** VALIDATE_LAS_POINTER1(hHeader->get(), ...) *)
Definition whdr_valid (s : wst) (m : string) (rc : wres) (p : ptr) (k : header -> outcome (wst * wres)) : outcome (wst * wres) :=
  match p with
  | Null => UB UBNull
  | At n => let! o := object (c_hdrs (w_c s)) n in match o with None => wfail s m rc | Some h => k h end
  end.
Definition put_wr (s : wst) (n : nat) (w : cwriter) : wst := set_wrs s (put (w_wrs s) n w).
(** detail/writer/writer.cpp:66-73 on a writer in the table; if the header cannot be
    written the writer keeps the header it has *)
Definition again (sv : schema -> vlr) (s : wst) (m : string) (n : nat) (x : cwriter) : outcome (wst * wres) :=
  match writer_write_header sv (cw_w x) with
  | Ok w => Ok (put_wr s n (mkCW (cw_file x) w (cw_first x)), R (Num LE_None))
  | Throw _ => wfail (put_wr s n x) m (R (Num LE_Failure))
  | UB u => UB u
  end.
Definition with_hdr (x : cwriter) (h : header) : cwriter := mkCW (cw_file x) (mkWriter (w_os (cw_w x)) h (w_count (cw_w x))) (cw_first x).

Definition wstep (sv : schema -> vlr) (dh : header) (xml : vlr -> outcome schema) (doy year : Z) (s : wst) (c : wcall) : outcome (wst * wres) :=
  let m := wname c in
  match c with
  | Plain c => let! (c', r) := cstep dh xml doy year (w_c s) c in Ok (set_c s c', R r)
  (* 231-266, liblas.hpp:119-150 *)
  | OpenFile f =>
      match f with
      | None => wfail s m (R (RPtr Null))
      | Some n => match w_files s n with
                  | Data d => let! (c', r) := cstep dh xml doy year (w_c s) (RdCreate d) in Ok (set_c s c', R r)
                  | _ => wfail s m (R (RPtr Null))
                  end
      end
  (* 1660-1712, liblas.hpp:166-182: a stream that could not be opened is the null
     pointer, which is dereferenced; if the writer cannot be made the stream is
     never closed, so nothing gets to the file *)
  | WCreate f h mode => whdr_valid s m (WPtr Null) h (fun x =>
      match f with
      | None => wfail s m (WPtr Null)
      | Some n =>
          if (2 <? mode) || (mode <? 1) then wfail s m (WPtr Null)
          else match w_files s n, mode =? 2 with
               | Denied, _ | Missing, true => UB UBNull
               | e, a =>
                   let old := match e, a with Data d, true => d | _, _ => [] end in
                   let s := set_file s n (Data old) in
                   match writer_new sv (os_open old) x with
                   | Ok w => Ok (set_wrs s (w_wrs s ++ [Some (mkCW n w None)]), WPtr (At (length (w_wrs s))))
                   | Throw _ => wfail s m (WPtr Null)
                   | UB u => UB u
                   end
               end
      end)
  (* 1714-1734: hWriter is not checked; WritePoint returns true, always *)
  | WPoint w p =>
      match p with
      | PNull => wfail s m (R (Num LE_Failure))
      | _ =>
          let! (q, _) := point_at dh (w_c s) p in
          match w with
          | Null => UB UBNull
          | At n =>
              let! x := object (w_wrs s) n in
              let h := match cw_first x with Some h => h | None => w_hdr (cw_w x) end in
              match write_point (mkWriter (w_os (cw_w x)) h (w_count (cw_w x))) q with
              | Ok w' => Ok (put_wr s n (mkCW (cw_file x) (mkWriter (w_os w') (w_hdr (cw_w x)) (w_count w')) (Some h)), R (Num LE_None))
              | Throw _ => wfail (put_wr s n (mkCW (cw_file x) (cw_w x) (Some h))) m (R (Num LE_Failure))
              | UB u => UB u
              end
          end
      end
  (* 1736-1751 *)
  | WHeader w h => whdr_valid s m (R (Num LE_Failure)) h (fun y =>
      match w with
      | Null => wfail s m (R (Num LE_Failure))
      | At n => let! x := object (w_wrs s) n in again sv s m n (with_hdr x y)
      end)
  (* 1753-1766 *)
  | WOwned w => match w with Null => wfail s m (R (Num LE_Failure)) | At n => let! x := object (w_wrs s) n in again sv s m n x end
  (* 1769-1779 *)
  | WSetHeader w h =>
      match w, h with
      | Null, _ | _, Null => wfail s m (R Nothing)
      | At n, At k =>
          let! o := object (c_hdrs (w_c s)) k in
          match o with
          | None => Ok (s, R Nothing)
          | Some y => let! x := object (w_wrs s) n in Ok (put_wr s n (with_hdr x y), R Nothing)
          end
      end
  (* 1781-1820: a pointer that is not in the table of writers is reported *)
  | WDestroy w =>
      match w with
      | Null => wfail s m (R Nothing)
      | At n =>
          match nth_error (w_wrs s) n with
          | Some (Some x) =>
              match writer_close (cw_w x) with
              | Ok d => Ok (set_file (set_wrs s (drop (w_wrs s) n)) (cw_file x) (Data d), R Nothing)
              | Throw e => Throw e | UB u => UB u
              end
          | _ => wfail s m (R Nothing)
          end
      end
  (* 1877-1883 *)
  | WGetHeader w =>
      match w with
      | Null => let (c', r) := new_hdr (w_c s) None in wfail (set_c s c') m (R r)
      | At n => let! x := object (w_wrs s) n in let (c', r) := new_hdr (w_c s) (Some (w_hdr (cw_w x))) in Ok (set_c s c', R r)
      end
  end.
Fixpoint wrun (sv : schema -> vlr) (dh : header) (xml : vlr -> outcome schema) (doy year : Z) (s : wst) (l : list wcall) : outcome (wst * list wres) :=
  match l with
  | [] => Ok (s, [])
  | c :: l => let! (s, r) := wstep sv dh xml doy year s c in let! (s, rs) := wrun sv dh xml doy year s l in Ok (s, r :: rs)
  end.
