(** The threads of las2col (apps/las2col.c): reading threads (readFile, 334-524),
    writing threads (writeFile, 304-332) and main (946-1061), as a transition system
    whose runs are the interleavings of the threads.

    The shared state is guarded by one mutex.  A step is either one critical section
    (from the acquisition of the mutex to its release, or to the pthread_cond_wait
    that releases it), or one access outside: the writers' tests of [stop] and their
    fwrite.  pthread_cond_wait puts the thread to sleep; a broadcast on its condition
    variable, or a spurious wakeup, makes it compete for the mutex again.  The body of
    a file is read in one step: it touches no shared data.

    Simplifications: malloc, pthread_create and fwrite succeed; sleep(1) is no
    synchronisation; the entry letters are distinct, so no two columns share a file.
    What a file's columns hold is modelled in Cols_Model; here a column is the list
    of the files whose values were given to fwrite. *)
From Coq Require Import Arith List Bool.
Import ListNotations.
From Verif Require Import Outcome.

(** What the command line fixes: the input files, how many reading threads, how many
    entries; whether LASReader_Create opens a file (358-363), and whether the file
    passes the checks made while it is read (366-370, 400-432). *)
Record config := mkConfig { c_files : nat; c_threads : nat; c_entries : nat; c_opens : nat -> bool; c_passes : nat -> bool }.

(** where a reading thread is *)
Inductive rpc :=
  | RClaim              (* 347: about to lock and take the next file *)
  | RRead (k : nat)     (* 365-504: reading file k *)
  | RPut (k : nat)      (* 507/514: about to lock and hand over file k *)
  | RSleep (k : nat)    (* 515: waiting on readCond *)
  | REnd.               (* 351 *)
(** where a writing thread is *)
Inductive wpc :=
  | WTop                (* 308: about to test stop *)
  | WCheck              (* 309-310: about to lock and test for data *)
  | WSleep              (* 312: waiting on writeTCond *)
  | WGo                 (* 317: about to test stop again *)
  | WWrite              (* 321: about to call fwrite *)
  | WClear              (* 322: about to lock and clear its values *)
  | WFlush              (* 326-329: about to flush and wake main *)
  | WEnd.               (* 318/331 *)
(** where main is *)
Inductive mpc :=
  | MTake               (* 981: about to lock and look at the slot *)
  | MSleep              (* 985: waiting on mainCond for data *)
  | MLock               (* 1002: about to lock again *)
  | MWait               (* 1005: waiting on mainCond for the writers *)
  | MCheck              (* 1006: woken, about to look at the values *)
  | MStop               (* 1024: about to tell the writers to stop *)
  | MJoin               (* 1030: joining the writers *)
  | MDestroy            (* 1036: about to destroy the lock *)
  | MExit.              (* 1041-1061: the lock is gone, the process not yet *)

(** The shared variables: files_in_index, data, dataWriteT (the file it stands for and,
    for each entry, whether its values pointer is not NULL), stop; whether the mutex has
    been destroyed; what has been written to the columns; the threads; main's
    writeIndex and num_files; the status, once the process has ended. *)
Record st := mkSt { next : nat; slots : nat -> option nat; cur : option (nat * (nat -> bool)); stopped : bool; dead : bool;
  outs : nat -> list nat; rds : nat -> rpc; wrs : nat -> wpc; mn : mpc; wi : nat; left : nat; quit : option nat }.

Definition upd {A} (f : nat -> A) (i : nat) (x : A) : nat -> A := fun j => if Nat.eqb j i then x else f j.

(** las2col.c:946-979: the start *)
Definition start (c : config) : st :=
  mkSt 0 (fun _ => None) None false false (fun _ => []) (fun _ => RClaim) (fun _ => WTop) MTake 0 (c_files c) None.

(** broadcasts *)
Definition wake_r (p : rpc) : rpc := match p with RSleep k => RPut k | _ => p end.
Definition wake_w (p : wpc) : wpc := match p with WSleep => WCheck | _ => p end.
Definition wake_m (p : mpc) : mpc := match p with MSleep => MTake | MWait => MCheck | _ => p end.

Definition set_r s i p := mkSt (next s) (slots s) (cur s) (stopped s) (dead s) (outs s) (upd (rds s) i p) (wrs s) (mn s) (wi s) (left s) (quit s).
Definition set_w s j p := mkSt (next s) (slots s) (cur s) (stopped s) (dead s) (outs s) (rds s) (upd (wrs s) j p) (mn s) (wi s) (left s) (quit s).
Definition set_m s p := mkSt (next s) (slots s) (cur s) (stopped s) (dead s) (outs s) (rds s) (wrs s) p (wi s) (left s) (quit s).
Definition set_quit s q := mkSt (next s) (slots s) (cur s) (stopped s) (dead s) (outs s) (rds s) (wrs s) (mn s) (wi s) (left s) (Some q).

(** las2col.c:334-524: one step of reading thread i *)
Definition r_step (c : config) (i : nat) (s : st) : option (outcome st) :=
  match rds s i with
  | RClaim =>
      (* 347-364 *)
      if dead s then Some (UB UBNull)
      else if next s <? c_files c then
        if c_opens c (next s)
        then Some (Ok (mkSt (S (next s)) (slots s) (cur s) (stopped s) (dead s) (outs s) (upd (rds s) i (RRead (next s))) (wrs s) (mn s) (wi s) (left s) (quit s)))
        else Some (Ok (set_quit s 1))
      else Some (Ok (set_r s i REnd))
  | RRead k => if c_passes c k then Some (Ok (set_r s i (RPut k))) else Some (Ok (set_quit s 1))
  | RPut k =>
      (* 507-520 *)
      if dead s then Some (UB UBNull)
      else match slots s (k mod c_threads c) with
      | Some _ => Some (Ok (set_r s i (RSleep k)))
      | None => Some (Ok (mkSt (next s) (upd (slots s) (k mod c_threads c) (Some k)) (cur s) (stopped s) (dead s) (outs s) (upd (rds s) i RClaim) (wrs s) (wake_m (mn s)) (wi s) (left s) (quit s)))
      end
  | RSleep _ | REnd => None
  end.

(** las2col.c:304-332: one step of the writing thread of entry j *)
Definition w_step (j : nat) (s : st) : option (outcome st) :=
  match wrs s j with
  | WTop => Some (Ok (set_w s j (if stopped s then WEnd else WCheck)))
  | WCheck =>
      if dead s then Some (UB UBNull)
      else
        let nothing := match cur s with None => true | Some (_, vals) => negb (vals j) end in
        Some (Ok (set_w s j (if negb (stopped s) && nothing then WSleep else WGo)))
  | WGo => Some (Ok (set_w s j (if stopped s then WEnd else WWrite)))
  | WWrite =>
      (* dataWriteT[id].values is used without a test *)
      match cur s with
      | Some (k, vals) =>
          if vals j
          then Some (Ok (mkSt (next s) (slots s) (cur s) (stopped s) (dead s) (upd (outs s) j (outs s j ++ [k])) (rds s) (upd (wrs s) j WClear) (mn s) (wi s) (left s) (quit s)))
          else Some (UB UBNull)
      | None => Some (UB UBNull)
      end
  | WClear =>
      if dead s then Some (UB UBNull)
      else match cur s with
      | Some (k, vals) =>
          Some (Ok (mkSt (next s) (slots s) (Some (k, upd vals j false)) (stopped s) (dead s) (outs s) (rds s) (upd (wrs s) j WFlush) (mn s) (wi s) (left s) (quit s)))
      | None => Some (UB UBNull)
      end
  | WFlush => Some (Ok (mkSt (next s) (slots s) (cur s) (stopped s) (dead s) (outs s) (rds s) (upd (wrs s) j WTop) (wake_m (mn s)) (wi s) (left s) (quit s)))
  | WSleep | WEnd => None
  end.

Definition is_end (p : wpc) : bool := match p with WEnd => true | _ => false end.
Definition no_values (c : config) (vals : nat -> bool) : bool := forallb (fun j => negb (vals j)) (seq 0 (c_entries c)).

(** las2col.c:979-1061: one step of main *)
Definition m_step (c : config) (s : st) : option (outcome st) :=
  match mn s with
  | MTake =>
      (* 981-1000; num_files is not 0 *)
      match slots s (wi s) with
      | None => Some (Ok (mkSt (next s) (slots s) None (stopped s) (dead s) (outs s) (rds s) (wrs s) MSleep (wi s) (left s) (quit s)))
      | Some k =>
          Some (Ok (mkSt (next s) (upd (slots s) (wi s) None) (Some (k, fun _ => true)) (stopped s) (dead s) (outs s)
            (fun i => wake_r (rds s i)) (fun j => wake_w (wrs s j)) MLock (S (wi s) mod c_threads c) (left s) (quit s)))
      end
  | MLock =>
      (* 1002-1005: done is 0, so main sleeps without looking *)
      Some (Ok (set_m s MWait))
  | MCheck =>
      (* 1006-1020, 979 *)
      match cur s with
      | None => Some (UB UBNull)
      | Some (_, vals) =>
          if no_values c vals
          then Some (Ok (mkSt (next s) (slots s) None (stopped s) (dead s) (outs s) (rds s) (wrs s)
                 (match left s with S (S _) => MTake | _ => MStop end) (wi s) (left s - 1) (quit s)))
          else Some (Ok (set_m s MWait))
      end
  | MStop =>
      Some (Ok (mkSt (next s) (slots s) (cur s) true (dead s) (outs s) (rds s) (fun j => wake_w (wrs s j)) MJoin (wi s) (left s) (quit s)))
  | MJoin => if forallb (fun j => is_end (wrs s j)) (seq 0 (c_entries c)) then Some (Ok (set_m s MDestroy)) else None
  | MDestroy => Some (Ok (mkSt (next s) (slots s) (cur s) (stopped s) true (outs s) (rds s) (wrs s) MExit (wi s) (left s) (quit s)))
  | MExit => Some (Ok (set_quit s 0))
  | MSleep | MWait => None
  end.

(** Who moves: a thread, or a sleeping thread that wakes for no reason *)
Inductive choice := Reader (i : nat) | Writer (j : nat) | Main | SpuriousR (i : nat) | SpuriousW (j : nat) | SpuriousM.
Definition spurious (ch : choice) : bool := match ch with SpuriousR _ | SpuriousW _ | SpuriousM => true | _ => false end.

(** None: that thread does not exist, has ended or sleeps *)
Definition step (c : config) (ch : choice) (s : st) : option (outcome st) :=
  match quit s with
  | Some _ => None
  | None =>
      match ch with
      | Reader i => if i <? c_threads c then r_step c i s else None
      | Writer j => if j <? c_entries c then w_step j s else None
      | Main => m_step c s
      | SpuriousR i => if i <? c_threads c then match rds s i with RSleep _ => Some (Ok (set_r s i (wake_r (rds s i)))) | _ => None end else None
      | SpuriousW j => if j <? c_entries c then match wrs s j with WSleep => Some (Ok (set_w s j WCheck)) | _ => None end else None
      | SpuriousM => match mn s with MSleep | MWait => Some (Ok (set_m s (wake_m (mn s)))) | _ => None end
      end
  end.

(** A schedule, run from a state *)
Fixpoint run (c : config) (l : list choice) (s : st) : option (outcome st) :=
  match l with
  | [] => Some (Ok s)
  | ch :: r => match step c ch s with Some (Ok s') => run c r s' | x => match r with [] => x | _ => None end end
  end.
