(** * Outcomes, exceptions and undefined behaviour

    Every modelled C++ function returns an [outcome].  A C++ exception is [Exn], a
    situation in which the C++ standard gives the program no meaning is [UB]. *)
From Coq Require Export List Bool Arith ZArith Lia.
Export ListNotations.

(** The [throw] expressions of the library.  The C++ exception objects only carry a
    type and a message; each constructor stands for one group of throw sites. *)
Inductive exn : Type :=
| MassShell        (* source/particle.cpp 72: runtime_error, "Momentum and mass don't match" *)
| MassNonzero      (* source/particle.cpp 157 168 179 190: runtime_error, "m!=0" *)
| BadSpin          (* source/particle.cpp 204 231 ...: runtime_error, "spin2 != 1 or -1" *)
| MassZero         (* source/particle.cpp 210 220 ...: runtime_error, "m==0" *)
| IndexRange       (* source/cvector.cpp 46, source/cmatrix.cpp 61: out_of_range *)
| DetImaginary     (* source/cmatrix.cpp 72: domain_error *)
| LowerLeft        (* source/sproduct.cpp 258: runtime_error *)
| LowerRight       (* source/sproduct.cpp 260: runtime_error *)
| ProductUsage     (* source/sproduct.cpp 289 321 353 383 389: runtime_error *)
| NotImplemented   (* source/process.cpp 42: runtime_error *)
| HelicityMissing. (* SM/gggg.cpp 170: runtime_error *)

(** The kinds of undefined behaviour the model distinguishes. *)
Inductive ub : Type :=
| ReadIndeterminate   (* lvalue-to-rvalue conversion of an uninitialised scalar *)
| BadPointer          (* dereferencing an indeterminate, null or dangling pointer *)
| BadIndex            (* array access outside the bounds *)
| NegativePolar       (* std::polar called with a magnitude that is not >= 0 *)
| IntOverflow         (* signed integer overflow *)
| BadShift            (* shift by a negative count or by at least the width *)
| BadDistribution     (* uniform_real_distribution(a,b) with a > b *)
| LoopNotDone         (* not C++: the loop is still running after the number of
                         iterations the model was asked to follow *)
| TypeMismatch.       (* operand types no C++ overload accepts; never arises in
                         a program that compiles, kept as an outcome so that the
                         evaluator of the generated processes is total *)

Inductive outcome (A : Type) : Type :=
| Ok (a : A)
| Exn (e : exn)
| UB (u : ub).
Arguments Ok {A} a.
Arguments Exn {A} e.
Arguments UB {A} u.

Definition obind {A B} (x : outcome A) (f : A -> outcome B) : outcome B :=
  match x with
  | Ok a => f a
  | Exn e => Exn e
  | UB u => UB u
  end.

Definition omap {A B} (f : A -> B) (x : outcome A) : outcome B :=
  obind x (fun a => Ok (f a)).

Declare Scope outcome_scope.
Delimit Scope outcome_scope with outcome.
Notation "'let!' x ':=' e 'in' f" := (obind e (fun x => f))
  (at level 200, x pattern, right associativity) : outcome_scope.
Open Scope outcome_scope.

Definition isOk {A} (x : outcome A) : bool :=
  match x with Ok _ => true | _ => false end.

(** ** State transformers

    A method that may change the object it is called on.  The state component is
    meaningful after an exception too: it is the state in which the C++ object is
    left by the unwinding. *)
Definition ST (S A : Type) : Type := S -> outcome A * S.

Definition sret {S A} (a : A) : ST S A := fun s => (Ok a, s).
Definition slift {S A} (x : outcome A) : ST S A := fun s => (x, s).
Definition sbind {S A B} (x : ST S A) (f : A -> ST S B) : ST S B :=
  fun s => match x s with
           | (Ok a, s') => f a s'
           | (Exn e, s') => (Exn e, s')
           | (UB u, s') => (UB u, s')
           end.
Definition sget {S} : ST S S := fun s => (Ok s, s).
Definition sput {S} (s' : S) : ST S unit := fun _ => (Ok tt, s').
Definition sthrow {S A} (e : exn) : ST S A := fun s => (Exn e, s).

Declare Scope st_scope.
Delimit Scope st_scope with st.
Notation "'do' x '<-' e ';' f" := (sbind e (fun x => f))
  (at level 200, x pattern, e at level 99, right associativity) : st_scope.
Notation "e ;; f" := (sbind e (fun _ => f))
  (at level 100, f at level 200, right associativity) : st_scope.

(** Elementary facts used everywhere. *)
Lemma obind_Ok_inv {A B} (x : outcome A) (f : A -> outcome B) b :
  obind x f = Ok b -> exists a, x = Ok a /\ f a = Ok b.
Proof. destruct x as [a|e|u]; simpl; intros H; try discriminate; eauto. Qed.

Lemma sbind_Ok_inv {S A B} (x : ST S A) (f : A -> ST S B) s b s'' :
  sbind x f s = (Ok b, s'') -> exists a s', x s = (Ok a, s') /\ f a s' = (Ok b, s'').
Proof.
  unfold sbind; destruct (x s) as [[a|e|u] s'] eqn:E; intros H; try discriminate; eauto.
Qed.
