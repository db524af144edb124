(** Model of the cached reader: /repo/src/detail/reader/cachedreader.cpp,
    created by ReaderFactory::CreateCached (/repo/src/factory.cpp:74-87) and used
    through class Reader (/repo/src/reader.cpp).  The stream is taken as freshly
    opened (CreateCached has already read the header once; reading it again
    starts with seekg(0)).  A cached point is its record bytes: its header is the
    reader's header object throughout. *)
From Coq Require Import ZArith List Bool.
Import ListNotations.
From Verif Require Import Outcome Bytes Float64 Schema_Model Header_Model Vlr_Model Point_Model Stream_Model Reader_Model.
Local Open Scope Z_scope.

(** cachedreader.hpp:88-99 on top of ReaderImpl *)
Record cached := mkCached {
  q_rd : reader; q_mask : list Z; q_csize : Z; q_start : Z; q_rpos : Z;
  q_cache : list (option (list Z)); q_init : bool }.
Definition q_with (q : cached) (r : reader) : cached :=
  mkCached r (q_mask q) (q_csize q) (q_start q) (q_rpos q) (q_cache q) (q_init q).
Definition q_at (q : cached) (rpos : Z) : cached :=
  mkCached (q_rd q) (q_mask q) (q_csize q) (q_start q) rpos (q_cache q) (q_init q).
Definition q_masked (q : cached) (m : list Z) : cached :=
  mkCached (q_rd q) m (q_csize q) (q_start q) (q_rpos q) (q_cache q) (q_init q).

(** v[i] = x on a std::vector *)
Definition vset {A} (l : list A) (i : Z) (x : A) : outcome (list A) :=
  if (0 <=? i) && (i <? Z.of_nat (length l)) then Ok (list_set l (Z.to_nat i) x) else UB UBOutOfBounds.
Definition vget {A} (l : list A) (i : Z) : outcome A :=
  match (if i <? 0 then None else nth_error l (Z.to_nat i)) with Some x => Ok x | None => UB UBOutOfBounds end.

(** for (uint32_t i = 0; i < n; ++i) m_mask[from + i] = 0; *)
Fixpoint unmark (mask : list Z) (from : Z) (n : nat) : outcome (list Z) :=
  match n with
  | O => Ok mask
  | S k => let! m := vset mask from 0 in unmark m (from + 1) k
  end.
(** (std::min)(m_cache_size, header_size - position), size_t arithmetic *)
Definition span (q : cached) (position : Z) : nat :=
  Z.to_nat (Z.min (q_csize q) ((h_npts (r_hdr (q_rd q)) - position) mod 2 ^ 64)).

(** cachedreader.cpp:282-308, for a reader part [r] that has been reset by
    ReaderImpl::Reset (in the code that is the last step) *)
Definition cached_reset_to (q : cached) (r : reader) : outcome cached :=
  match q_mask q with
  | [] => Ok (q_with q r)
  | _ => let! m := unmark (q_mask q) (q_start q) (span (q_with q r) (q_start q)) in
         Ok (mkCached r m (q_csize q) 0 0 (q_cache q) false)
  end.
Definition cached_reset (q : cached) : outcome cached :=
  let r := q_rd q in cached_reset_to q (impl_reset (r_is r) (r_hdr r) (r_data r)).

(** cachedreader.cpp:310-319; ReaderImpl::Seek is detail/reader/reader.cpp:266-282.
    The read position is changed before ReaderImpl::Seek may throw. *)
Definition cached_seek (q : cached) (n : Z) : cached * outcome unit :=
  let q1 := if n <? 1 then cached_reset q else Ok q in
  match q1 with
  | Ok q1 =>
      let q2 := q_at q1 n in
      let r := q_rd q2 in
      if r_size r =? n then (q2, Throw EOutOfRange)
      else if r_size r <? n then (q2, Throw ERuntime)
      else
        let s := is_seek (is_clear (r_is r)) (n * get_record_length (r_hdr r) + h_doff (r_hdr r)) in
        (q_with q2 (mkRd s (r_hdr r) (r_data r) (r_size r) (n mod 2 ^ 32) (r_recsize r)), Ok tt)
  | Throw e => (q, Throw e)
  | UB u => (q, UB u)
  end.

(** cachedreader.cpp:131-154 *)
Definition read_uncached (tr : point -> outcome (list Z)) (r0 : reader) : reader * outcome unit :=
  let r := if r_current r0 =? 0
           then rd_stream r0 (is_seek (is_clear (r_is r0)) (h_doff (r_hdr r0))) else r0 in
  if r_size r <=? r_current r then (r, Throw EOutOfRange)
  else match read_record (r_is r) (r_data r) (Z.to_nat (r_recsize r)) with
       | Ok (d, s) =>
           let r1 := rd_read r s d ((r_current r + 1) mod 2 ^ 32) in
           match tr (r_point r1) with
           | Ok d1 => (rd_data r1 d1, Ok tt)
           | Throw e => (r1, Throw e)
           | UB u => (r1, UB u)
           end
       | Throw e => (r, Throw e)
       | UB u => (r, UB u)
       end.

(** cachedreader.cpp:117-128: the filling loop from cache slot [i] on.  Only
    out_of_range is caught. *)
Fixpoint fill (tr : point -> outcome (list Z)) (n : nat) (i : Z) (q : cached) : cached * outcome unit :=
  match n with
  | O => (q, Ok tt)
  | S k =>
      match vset (q_mask q) (r_current (q_rd q)) 1 with
      | Ok m =>
          let q1 := q_masked q m in
          match read_uncached tr (q_rd q1) with
          | (r1, Ok _) =>
              let q2 := q_with q1 r1 in
              match vset (q_cache q2) i (Some (r_data r1)) with
              | Ok c => fill tr k (i + 1) (mkCached r1 (q_mask q2) (q_csize q2) (q_start q2) (q_rpos q2) c (q_init q2))
              | Throw e => (q2, Throw e)
              | UB u => (q2, UB u)
              end
          | (r1, Throw EOutOfRange) => (q_with q1 r1, Ok tt)
          | (r1, Throw e) => (q_with q1 r1, Throw e)
          | (r1, UB u) => (q_with q1 r1, UB u)
          end
      | Throw e => (q, Throw e)
      | UB u => (q, UB u)
      end
  end.

(** cachedreader.cpp:95-129 *)
Definition cache_data (tr : point -> outcome (list Z)) (q : cached) (position : Z) : cached * outcome unit :=
  let old := q_start q in
  let left := span q position in
  match unmark (q_mask q) old (span q old) with
  | Ok m =>
      let q1 := mkCached (q_rd q) m (q_csize q) position (q_rpos q) (q_cache q) (q_init q) in
      let (q2, o) := if r_current (q_rd q1) =? position then (q1, Ok tt) else cached_seek q1 position in
      match o with
      | Ok _ => fill tr left 0 (q_at q2 position)
      | Throw e => (q2, Throw e)
      | UB u => (q2, UB u)
      end
  | Throw e => (q, Throw e)
  | UB u => (q, UB u)
  end.

(** *m_point = *m_cache[i]: a null slot is dereferenced *)
Definition load_cached (q : cached) (i : Z) : cached * outcome unit :=
  match vget (q_cache q) i with
  | Ok (Some d) => (q_with q (rd_data (q_rd q) d), Ok tt)
  | Ok None => (q, UB UBNull)
  | Throw e => (q, Throw e)
  | UB u => (q, UB u)
  end.

(** cachedreader.cpp:156-223; cache_position is an int32_t *)
Definition read_cached (tr : point -> outcome (list Z)) (q : cached) (position : Z) : cached * outcome unit :=
  let cpos := to_signed 32 ((position - q_start q) mod 2 ^ 32) in
  let q0 := if q_init q then q
            else mkCached (q_rd q) (repeat 0 (Z.to_nat (h_npts (r_hdr (q_rd q))))) (q_csize q) (q_start q) (q_rpos q)
                   (repeat None (Z.to_nat (q_csize q))) true in
  match vget (q_mask q0) position with
  | Ok 1 => load_cached (q_at q0 position) cpos
  | Ok _ =>
      match cache_data tr q0 position with
      | (q1, Ok _) =>
          let cpos := to_signed 32 ((position - q_start q1) mod 2 ^ 32) in
          if cpos <? 0 then (q1, Throw ERuntime)
          else match vget (q_mask q1) position with
               | Ok 1 => if Z.of_nat (length (q_cache q1)) <? cpos then (q1, Throw ERuntime) else load_cached q1 cpos
               | Ok _ => (q1, Throw ERuntime)
               | Throw e => (q1, Throw e)
               | UB u => (q1, UB u)
               end
      | (q1, Throw e) => (q1, Throw e)
      | (q1, UB u) => (q1, UB u)
      end
  | Throw e => (q0, Throw e)
  | UB u => (q0, UB u)
  end.
(** ReadCachedPoint(m_cache_read_position); ++m_cache_read_position; *)
Definition read_step (tr : point -> outcome (list Z)) (q : cached) : cached * outcome unit :=
  match read_cached tr q (q_rpos q mod 2 ^ 32) with
  | (q1, Ok _) => (q_at q1 (q_rpos q1 + 1), Ok tt)
  | (q1, o) => (q1, o)
  end.

(** cachedreader.cpp:242-255: the loop *)
Fixpoint cached_loop {FS} (flt : FS -> point -> bool * FS) (tr : point -> outcome (list Z)) (fuel : nat) (q : cached) (fs : FS)
  : (cached * FS) * outcome bool :=
  match fuel with
  | O => ((q, fs), UB UBDiverge)
  | S k =>
      let (keep, fs1) := flt fs (r_point (q_rd q)) in
      if keep then ((q, fs1), Ok false)
      else match read_step tr q with
           | (q1, Ok _) => if r_current (q_rd q1) =? r_size (q_rd q1) then ((q1, fs1), Ok true) else cached_loop flt tr k q1 fs1
           | (q1, Throw e) => ((q1, fs1), Throw e)
           | (q1, UB u) => ((q1, fs1), UB u)
           end
  end.
(** cachedreader.cpp:225-260 *)
Definition cached_next {FS} (flt : option (FS -> point -> bool * FS)) (tr : point -> outcome (list Z)) (q : cached) (fs : FS)
  : (cached * FS) * outcome unit :=
  if q_rpos q =? r_size (q_rd q) then ((q, fs), Throw EOutOfRange)
  else match read_step tr q with
       | (q1, Ok _) =>
           match flt with
           | None => ((q1, fs), Ok tt)
           | Some f =>
               let (keep, fs1) := f fs (r_point (q_rd q1)) in
               if keep then ((q1, fs1), Ok tt)
               else match read_step tr q1 with
                    | (q2, Ok _) =>
                        match cached_loop f tr (length (q_mask q2) + 3) q2 fs1 with
                        | (qf, Ok true) => (qf, Throw EOutOfRange)
                        | (qf, Ok false) => (qf, Ok tt)
                        | (qf, Throw e) => (qf, Throw e)
                        | (qf, UB u) => (qf, UB u)
                        end
                    | (q2, Throw e) => ((q2, fs1), Throw e)
                    | (q2, UB u) => ((q2, fs1), UB u)
                    end
           end
       | (q1, Throw e) => ((q1, fs), Throw e)
       | (q1, UB u) => ((q1, fs), UB u)
       end.

(** cachedreader.cpp:262-280 *)
Definition cached_at (tr : point -> outcome (list Z)) (q : cached) (n : Z) : cached * outcome unit :=
  if r_size (q_rd q) <=? n then (q, Throw EOutOfRange)
  else match read_cached tr q (n mod 2 ^ 32) with
       | (q1, Ok _) => (q_at q1 n, Ok tt)
       | (q1, o) => (q1, o)
       end.

(** cachedreader.cpp:71-93.  ReaderImpl::ReadHeader ends with the virtual Reset(),
    here CachedReaderImpl::Reset. *)
Definition cached_read_header (xml_schema : vlr -> outcome schema) (q : cached) : outcome cached :=
  let! r := impl_read_header xml_schema (r_is (q_rd q)) (r_hdr (q_rd q)) (r_data (q_rd q)) in
  let! q1 := cached_reset_to q r in
  let n := h_npts (r_hdr r) in
  let c1 := if q_csize q1 =? 0 then n else q_csize q1 in
  let c2 := if n <? c1 then n else c1 in
  Ok (mkCached (q_rd q1) (q_mask q1) c2 (q_start q1) (q_rpos q1) (q_cache q1) (q_init q1)).

(** cachedreader.cpp:62-69 and Reader's constructor *)
Definition cached_open (xml_schema : vlr -> outcome schema) (doy year : Z) (size : Z) (data : list Z) : outcome cached :=
  let! h := header_new doy year in
  cached_read_header xml_schema
    (mkCached (mkRd (is_open data) h (repeat 0 (Z.to_nat (get_record_length h))) 0 0 0) [] size 0 0 [] false).

(** ** through class Reader: src/reader.cpp:104-174 *)
Definition creader_next {FS} (flt : option (FS -> point -> bool * FS)) (tr : point -> outcome (list Z)) (q : cached) (fs : FS)
  : (cached * FS) * outcome bool :=
  match cached_next flt tr q fs with
  | (qf, Ok _) => (qf, Ok true)
  | (qf, Throw EOutOfRange) => (qf, Ok false)
  | (qf, Throw e) => (qf, Throw e)
  | (qf, UB u) => (qf, UB u)
  end.
Definition creader_at (tr : point -> outcome (list Z)) (q : cached) (n : Z) : cached * outcome bool :=
  if h_npts (r_hdr (q_rd q)) <=? n then (q, Throw EOutOfRange)
  else match cached_at tr q n with
       | (q1, Ok _) => (q1, Ok true)
       | (q1, Throw EOutOfRange) => (q1, Ok false)
       | (q1, Throw e) => (q1, Throw e)
       | (q1, UB u) => (q1, UB u)
       end.
Definition creader_seek (q : cached) (n : Z) : cached * outcome bool :=
  match cached_seek q n with
  | (q1, Ok _) => (q1, Ok true)
  | (q1, Throw EOutOfRange) => (q1, Ok false)
  | (q1, Throw e) => (q1, Throw e)
  | (q1, UB u) => (q1, UB u)
  end.
