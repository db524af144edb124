(** Model of include/liblas/iterator.hpp.  Readers live in a store (a list); an
    iterator is a pointer to one, [None] for the null pointer.  The assertions
    (iterator.hpp:80,88,108,177,184,188) are taken as compiled out (NDEBUG). *)
From Coq Require Import ZArith List Bool.
Import ListNotations.
From Verif Require Import Outcome Bytes Float64 Schema_Model Header_Model Vlr_Model Point_Model Stream_Model Reader_Model Reader_Spec Reader_Api
  Writer_Model Iter_Spec.
Local Open Scope Z_scope.

Definition store := list reader.
(** iterator.hpp:139 [m_reader] *)
Definition riter := option nat.

(** iterator.hpp:131-137 getval.  An exception other than the end of the data
    leaves the iterator as it was. *)
Definition getval (st : store) (it : riter) : store * outcome riter :=
  match it with
  | None => (st, Ok None)
  | Some k =>
      match nth_error st k with
      | None => (st, UB UBNull)
      | Some r =>
          let (rf, a) := reader_next no_filter no_transform r tt in
          (set_nth st k (fst rf), let! b := a in Ok (if b then Some k else None))
      end
  end.
(** iterator.hpp:71-73 and 77-82: the two constructors *)
Definition it_end : riter := None.
Definition it_begin (st : store) (k : nat) : store * outcome riter := getval st (Some k).
(** iterator.hpp:86-95 operator*: the point of the reader, shared by all *)
Definition it_deref (st : store) (it : riter) : outcome (list Z) :=
  match it with
  | None => Throw ERuntime
  | Some k => match nth_error st k with Some r => Ok (r_data r) | None => UB UBNull end
  end.
(** iterator.hpp:106-111 *)
Definition it_inc (st : store) (it : riter) : store * outcome riter := getval st it.
(** iterator.hpp:115-120: a copy of the old iterator, then ++; results: the copy
    returned and the iterator afterwards *)
Definition it_post (st : store) (it : riter) : store * outcome (riter * riter) :=
  let tmp := it in
  let (st1, a) := it_inc st it in (st1, let! it1 := a in Ok (tmp, it1)).
(** iterator.hpp:124-127, 143-154 *)
Definition it_equal (a b : riter) : bool :=
  match a, b with Some x, Some y => Nat.eqb x y | None, None => true | _, _ => false end.

(** Histories of calls on numbered iterators. *)
Definition iop_run (st : store) (its : list riter) (o : iop) : outcome (store * list riter * iobs) :=
  match o with
  | Begin k => let (st1, a) := it_begin st k in let! it := a in Ok (st1, its ++ [it], Nothing)
  | End => Ok (st, its ++ [it_end], Nothing)
  | Copy i => match nth_error its i with Some it => Ok (st, its ++ [it], Nothing) | None => UB UBUninit end
  | Pre i => match nth_error its i with
             | Some it => let (st1, a) := it_inc st it in let! it1 := a in Ok (st1, set_nth its i it1, Nothing)
             | None => UB UBUninit
             end
  | Post i => match nth_error its i with
              | Some it => let (st1, a) := it_post st it in let! (tmp, it1) := a in Ok (st1, set_nth its i it1 ++ [tmp], Nothing)
              | None => UB UBUninit
              end
  | Deref i => match nth_error its i with
               | Some it => match it_deref st it with
                            | Ok d => Ok (st, its, Record d)
                            | Throw e => Ok (st, its, Raised e)
                            | UB u => UB u
                            end
               | None => UB UBUninit
               end
  | Same i j => match nth_error its i, nth_error its j with
                | Some a, Some b => Ok (st, its, Answer (it_equal a b))
                | _, _ => UB UBUninit
                end
  end.
Fixpoint iops_run (st : store) (its : list riter) (ops : list iop) : outcome (list iobs) :=
  match ops with
  | [] => Ok []
  | o :: r => let! (st1, its1, x) := iop_run st its o in let! l := iops_run st1 its1 r in Ok (x :: l)
  end.

(** [for (; it != end; ++it) visit( *it )], the body of std::for_each,
    std::distance, std::copy and the like: the points visited, the reader store
    and the iterator left.  At most [fuel] rounds ([UBDiverge] beyond). *)
Fixpoint for_each (fuel : nat) (st : store) (it last : riter) : outcome (list (list Z) * store * riter) :=
  match fuel with
  | O => UB UBDiverge
  | S f =>
      if it_equal it last then Ok ([], st, it)
      else
        let! d := it_deref st it in
        let (st1, a) := it_inc st it in
        let! it1 := a in
        let! (l, st2, it2) := for_each f st1 it1 last in Ok (d :: l, st2, it2)
  end.

(** iterator.hpp:181-191 writer_iterator::operator=: [*out = p]; [*out] and
    [++out] (194-212) only return the iterator *)
Definition out_assign (w : writer) (p : point) : outcome writer := write_point w p.
(** std::copy(it, last, writer_iterator(w)): [for (; it != last; ++it, ++out) *out = *it] *)
Fixpoint copy_points (fuel : nat) (st : store) (it last : riter) (w : writer) : outcome (store * writer) :=
  match fuel with
  | O => UB UBDiverge
  | S f =>
      if it_equal it last then Ok (st, w)
      else
        match it with
        | None => Throw ERuntime
        | Some k =>
            match nth_error st k with
            | None => UB UBNull
            | Some r =>
                let! w1 := out_assign w (r_point r) in
                let (st1, a) := it_inc st it in
                let! it1 := a in copy_points f st1 it1 last w1
            end
        end
  end.

(** iterator.hpp:219-303 index_filter_iterator: the calls of the index are
    commented out *)
Definition xiter := option nat.
Definition x_end : xiter := None.
Definition x_begin (k : nat) : xiter := Some k.
Definition x_deref (it : xiter) : outcome (list Z) := Throw ERuntime.
Definition x_inc (it : xiter) : xiter := it.
Definition x_equal (a b : xiter) : bool := match a, b with Some x, Some y => Nat.eqb x y | None, None => true | _, _ => false end.
