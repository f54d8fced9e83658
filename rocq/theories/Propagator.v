(** * class propagator (include/propagator.h, source/propagator.cpp) *)
From Verif Require Import Base Scalar.

Section Propagator.
  Context {num : Num}.
  (** data members, include/propagator.h 28-29 *)
  Record propagator : Type := mkPropagator { pr_m : T num; pr_w : T num }.
  (** propagator(): source/propagator.cpp 30-31 *)
  Definition propagator_default : propagator := mkPropagator (tZ 0) (tZ 0).
  (** propagator(mass,width): source/propagator.cpp 33-34 *)
  Definition propagator_new (mass width : T num) : propagator := mkPropagator mass width.
  (** set_mass, set_width: source/propagator.cpp 36-41 *)
  Definition pr_set_mass (mass : T num) (P : propagator) : propagator := mkPropagator mass (pr_w P).
  Definition pr_set_width (width : T num) (P : propagator) : propagator := mkPropagator (pr_m P) width.
  (** denominator: source/propagator.cpp 45-47 *)
  Definition denominator (P : propagator) (p : mom num) : CX num :=
    (cmk (v_0 p * v_0 p - v_1 p * v_1 p - v_2 p * v_2 p - v_3 p * v_3 p - pr_m P * pr_m P)
         (- pr_m P * pr_w P))%ld.

  (** a history of setter calls *)
  Inductive prcall : Type := PSetMass (m : T num) | PSetWidth (w : T num).
  Definition prstep (P : propagator) (c : prcall) : propagator :=
    match c with PSetMass m => pr_set_mass m P | PSetWidth w => pr_set_width w P end.
  Definition prrun (h : list prcall) (P : propagator) : propagator := fold_left prstep h P.
End Propagator.
Arguments propagator : clear implicits.
Arguments prcall : clear implicits.
