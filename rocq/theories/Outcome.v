(** Results of a modelled C++ call.

    Every modelled function that may throw or that may run into undefined
    behaviour returns an [outcome].  Undefined behaviour is a constructor of its
    own: a theorem that concludes [= Ok _] therefore also says that no
    out-of-bounds access, bad float conversion, ... is executed. *)
From Coq Require Import ZArith.

(** Exception classes thrown by the modelled code
    (std:: classes and /repo/include/liblas/exception.hpp:60-118). *)
Inductive exn : Type :=
| EInvalidArgument      (* std::invalid_argument *)
| EOutOfRange           (* std::out_of_range *)
| ERuntime              (* std::runtime_error *)
| EDomain               (* std::domain_error *)
| ELength               (* std::length_error / std::bad_alloc *)
| ELiblas               (* liblas::liblas_error *)
| EInvalidFormat        (* liblas::invalid_format *)
| EInvalidPointData     (* liblas::invalid_point_data *)
| EConfiguration.       (* liblas::configuration_error *)

(** Kinds of undefined behaviour the modelled code can reach. *)
Inductive ub : Type :=
| UBOutOfBounds         (* operator[] / pointer access outside the object *)
| UBFloatToInt          (* float to integer conversion out of range *)
| UBNull                (* null pointer / null FILE* *)
| UBUninit              (* read of an uninitialised object *)
| UBDivZero             (* integer division by zero *)
| UBIntOverflow         (* signed integer overflow *)
| UBDiverge.            (* a loop of the model ran out of fuel: the code would not return *)

Inductive outcome (A : Type) : Type :=
| Ok (a : A)
| Throw (e : exn)
| UB (u : ub).
Arguments Ok {A} a.
Arguments Throw {A} e.
Arguments UB {A} u.

Definition obind {A B} (m : outcome A) (k : A -> outcome B) : outcome B :=
  match m with
  | Ok a => k a
  | Throw e => Throw e
  | UB u => UB u
  end.

Declare Scope outcome_scope.
Delimit Scope outcome_scope with outcome.
Notation "'let!' x ':=' m 'in' k" := (obind m (fun x => k))
  (at level 200, x pattern, m at level 100, k at level 200, right associativity) : outcome_scope.
Global Open Scope outcome_scope.

Definition omap {A B} (f : A -> B) (m : outcome A) : outcome B :=
  obind m (fun a => Ok (f a)).

Definition is_ok {A} (m : outcome A) : bool :=
  match m with Ok _ => true | _ => false end.

Lemma obind_ok {A B} (m : outcome A) (k : A -> outcome B) (b : B) :
  obind m k = Ok b -> exists a, m = Ok a /\ k a = Ok b.
Proof. destruct m; cbn; intros H; try discriminate; eauto. Qed.
