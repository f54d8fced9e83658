(** * utilities (include/utilities.h, source/utilities.cpp) *)
From Coq Require Import QArith.
From Verif Require Import Base Scalar.
Close Scope Q_scope.

(** A three-vector, C++ [ldouble u[3]]. *)
Record vec3 (A : Type) : Type := V3 { x_0 : A; x_1 : A; x_2 : A }.
Arguments V3 {A}. Arguments x_0 {A}. Arguments x_1 {A}. Arguments x_2 {A}.

Section Utilities.
  Context {num : Num}.
  Notation T := (T num).
  Notation mom := (mom num).

  (** The accumulation [nMom[i] += R[i][j]*mom[j]] for j = 0..3, starting from 0:
      source/utilities.cpp 64-67 and 80-83. *)
  Definition row_times (r p : vec4 T) : T :=
    ((((tZ 0 + v_0 r * v_0 p) + v_1 r * v_1 p) + v_2 r * v_2 p) + v_3 r * v_3 p)%ld.
  Definition mat_times (R : vec4 (vec4 T)) (p : mom) : mom :=
    V4 (row_times (v_0 R) p) (row_times (v_1 R) p) (row_times (v_2 R) p) (row_times (v_3 R) p).

  (** rotate_momentum: source/utilities.cpp 57-70.  The new value of mom. *)
  Definition rotation_matrix (u : vec3 T) (theta : T) : vec4 (vec4 T) :=
    let cost := tcos theta in
    let ux := x_0 u in let uy := x_1 u in let uz := x_2 u in
    let sint := tsqrt (lit (1 # 1) - cost * cost)%ld in
    let omc := (tZ 1 - cost)%ld in
    V4 (V4 (tZ 1) (tZ 0) (tZ 0) (tZ 0))
       (V4 (tZ 0) (cost + ux*ux*omc) (ux*uy*omc - uz*sint) (ux*uz*omc + uy*sint))%ld
       (V4 (tZ 0) (ux*uy*omc + uz*sint) (cost + uy*uy*omc) (uy*uz*omc - ux*sint))%ld
       (V4 (tZ 0) (uz*ux*omc - uy*sint) (uz*uy*omc + ux*sint) (cost + uz*uz*omc))%ld.
  Definition rotate_momentum (p : mom) (u : vec3 T) (theta : T) : mom :=
    mat_times (rotation_matrix u theta) p.

  (** boost_momentum: source/utilities.cpp 72-86 *)
  Definition boost_matrix (v : vec3 T) : vec4 (vec4 T) :=
    let vx := x_0 v in let vy := x_1 v in let vz := x_2 v in
    let v2 := (vx*vx + vy*vy + vz*vz)%ld in
    let gamma := (lit (1 # 1) / tsqrt (tZ 1 - v2))%ld in
    V4 (V4 gamma (- gamma*vx) (- gamma*vy) (- gamma*vz))%ld
       (V4 (- gamma*vx) (tZ 1 + (gamma - tZ 1)*vx*vx/v2) ((gamma - tZ 1)*vx*vy/v2) ((gamma - tZ 1)*vx*vz/v2))%ld
       (V4 (- gamma*vy) ((gamma - tZ 1)*vx*vy/v2) (tZ 1 + (gamma - tZ 1)*vy*vy/v2) ((gamma - tZ 1)*vy*vz/v2))%ld
       (V4 (- gamma*vz) ((gamma - tZ 1)*vx*vz/v2) ((gamma - tZ 1)*vz*vy/v2) (tZ 1 + (gamma - tZ 1)*vz*vz/v2))%ld.
  Definition boost_momentum (p : mom) (v : vec3 T) : mom := mat_times (boost_matrix v) p.

  (** ** Random numbers: source/utilities.cpp 90-131

      The generator is a stream of the numbers it is going to deliver.
      choose_random_ldouble(begin,end) needs begin <= end ([rand.dist.uni.real]); the
      number delivered is otherwise arbitrary here, the distribution is not modelled. *)
  Definition stream : Type := nat -> T.
  Definition choose_random_ldouble (b e : T) : ST stream T := fun s =>
    if tgeb e b then (Ok (s 0%nat), fun k => s (S k)) else (UB BadDistribution, s).

  Open Scope st_scope.
  (** choose_random_momentum(p,begin,end): source/utilities.cpp 106-116; returns the mass
      and the momentum *)
  Definition choose_random_momentum (b e : T) : ST stream (T * mom) :=
    do p1 <- choose_random_ldouble b e;
    do p2 <- choose_random_ldouble b e;
    do p3 <- choose_random_ldouble b e;
    let psq := (((tZ 0 + p1*p1) + p2*p2) + p3*p3)%ld in
    do mass <- choose_random_ldouble (tZ 0) e;
    sret (mass, V4 (tsqrt (mass*mass + psq))%ld p1 p2 p3).

  (** choose_random_massless_momentum: source/utilities.cpp 118-125 *)
  Definition choose_random_massless_momentum (b e : T) : ST stream mom :=
    do p1 <- choose_random_ldouble b e;
    do p2 <- choose_random_ldouble b e;
    do p3 <- choose_random_ldouble b e;
    let psq := (((tZ 0 + p1*p1) + p2*p2) + p3*p3)%ld in
    sret (V4 (tsqrt psq) p1 p2 p3).

  (** choose_random_cdouble: source/utilities.cpp 127-131 *)
  Definition choose_random_cdouble (b e : T) : ST stream (CX num) :=
    do x <- choose_random_ldouble b e; do y <- choose_random_ldouble b e; sret (cmk x y).
End Utilities.
Arguments stream : clear implicits.
