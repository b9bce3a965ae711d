(** * Num: the arithmetic the model is written over.

    pysnobal computes with Python floats / numpy float64.  The model is written
    once over an arbitrary carrier [T] with the operations below.  [Num] has no
    laws, so a theorem stated for every [Num T] also holds for IEEE arithmetic.
    [RNum] (Coq reals) is the instance used by the physical theorems; the
    executable binary64 instance is in FloatNum.v. *)
From Coq Require Import ZArith Bool List String.
Import ListNotations.

Class Num (T : Type) := {
  nadd : T -> T -> T;
  nsub : T -> T -> T;
  nmul : T -> T -> T;
  ndiv : T -> T -> T;            (* Python / ; only used with non-zero denominators, see [pdiv] *)
  nabs : T -> T;                 (* np.abs *)
  nltb : T -> T -> bool;         (* Python < ; a > b is [nltb b a] *)
  nleb : T -> T -> bool;         (* Python <= ; a >= b is [nleb b a] *)
  neqb : T -> T -> bool;         (* Python == *)
  nofZ : Z -> T;                 (* an integer literal / int value *)
  nexp : T -> T;                 (* math.exp / np.exp *)
  nln : T -> T;                  (* math.log *)
  nsqrt : T -> T;                (* math.sqrt *)
  natan : T -> T;                (* math.atan *)
  ncos : T -> T;                 (* math.cos *)
  npow : T -> T -> T;            (* math.pow / np.power with positive base *)
  npi : T                        (* np.pi *)
}.

Declare Scope num_scope.
Delimit Scope num_scope with num.
Infix "+" := nadd : num_scope.
Infix "-" := nsub : num_scope.
Infix "*" := nmul : num_scope.
Infix "/" := ndiv : num_scope.
Notation "x <? y" := (nltb x y) : num_scope.
Notation "x <=? y" := (nleb x y) : num_scope.
Notation "x =? y" := (neqb x y) : num_scope.
Notation "x >? y" := (nltb y x) (only parsing) : num_scope.
Notation "x >=? y" := (nleb y x) (only parsing) : num_scope.
Notation "# z" := (nofZ z%Z) (at level 1, format "# z") : num_scope.

(** A decimal literal [n/d] of the source, e.g. 273.16 is [cst 27316 100]. *)
Definition cst {T} {N : Num T} (n d : Z) : T := ndiv (nofZ n) (nofZ d).

(** ** Exceptions as values *)
Inductive exn :=
| ValueError (msg : string)        (* raise ValueError(...) in the code, or a math domain error *)
| ZeroDivision                     (* ZeroDivisionError, or a non-finite numpy value *)
| UnboundLocal                     (* UnboundLocalError *)
| NotConverged                     (* raise Exception('hle1 did not converge ...') *)
| AttributeError
| KeyError
| IndexError
| RecursionLimit.                  (* model fuel exhausted: proved unreachable *)

Inductive result (A : Type) :=
| Ok (a : A)
| Err (e : exn).
Arguments Ok {A} a.
Arguments Err {A} e.

Definition bind {A B} (m : result A) (f : A -> result B) : result B :=
  match m with Ok a => f a | Err e => Err e end.

Notation "'let*' x ':=' m 'in' k" := (bind m (fun x => k))
  (at level 200, x name, m at level 100, k at level 200, right associativity).
Notation "'let*' ' p ':=' m 'in' k" := (bind m (fun p => k))
  (at level 200, p strict pattern, m at level 100, k at level 200, right associativity).

Definition is_ok {A} (r : result A) : Prop := exists a, r = Ok a.
Definition is_err {A} (r : result A) : Prop := exists e, r = Err e.

(** Division whose denominator may be zero. *)
Definition pdiv {T} {N : Num T} (a b : T) : result T :=
  if neqb b (nofZ 0) then Err ZeroDivision else Ok (ndiv a b).

(** math.log: "math domain error" for a non-positive argument. *)
Definition plog {T} {N : Num T} (a : T) : result T :=
  if nltb (nofZ 0) a then Ok (nln a) else Err (ValueError "math domain error").

(** math.sqrt: "math domain error" for a negative argument. *)
Definition psqrt {T} {N : Num T} (a : T) : result T :=
  if nltb a (nofZ 0) then Err (ValueError "math domain error") else Ok (nsqrt a).

(** x to a natural literal power (np.power with an integral exponent). *)
Fixpoint npown {T} {N : Num T} (x : T) (n : nat) : T :=
  match n with
  | O => nofZ 1
  | S O => x
  | S m => nmul x (npown x m)
  end.
