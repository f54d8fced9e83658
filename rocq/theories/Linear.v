(** * cvector and cmatrix (source/cvector.cpp, source/cmatrix.cpp)

    The objects are plain values; a compound assignment [m *= n] is a function from
    the old value of [m] (and the value of [n]) to the new value of [m].  Loops over
    the two rows and columns are unrolled. *)
From Verif Require Import Base Scalar.

Section Linear.
  Context {num : Num}.
  Notation T := (T num).
  Notation CX := (CX num).

  (** class cvector: include/cvector.h 28-30 *)
  Record cvector : Type := CV { cv0 : CX; cv1 : CX }.
  (** class cmatrix: include/cmatrix.h 28-30 (file lines of the class body) *)
  Record cmatrix : Type := CM { m00 : CX; m01 : CX; m10 : CX; m11 : CX }.

  (** cvector(): source/cvector.cpp 33-34 *)
  Definition cvector_zero : cvector := CV c0 c0.
  (** cmatrix(): source/cmatrix.cpp 35-36 *)
  Definition cmatrix_zero : cmatrix := CM c0 c0 c0 c0.

  (** cmatrix(p,upp): source/cmatrix.cpp 38-52 *)
  Definition cmatrix_of_mom (p : mom num) (upp : bool) : cmatrix :=
    if upp
    then CM (cmk (v_0 p - v_3 p)%ld (tZ 0)) (cmk (- v_1 p)%ld (v_2 p))
            (cmk (- v_1 p)%ld (- v_2 p)%ld) (cmk (v_0 p + v_3 p)%ld (tZ 0))
    else CM (cmk (v_0 p + v_3 p)%ld (tZ 0)) (cmk (v_1 p) (- v_2 p)%ld)
            (cmk (v_1 p) (v_2 p)) (cmk (v_0 p - v_3 p)%ld (tZ 0)).

  (** cvector::get: source/cvector.cpp 44-48 *)
  Definition cv_get (v : cvector) (i : Z) : outcome CX :=
    if (i <? 0)%Z || (i >=? 2)%Z then Exn IndexRange
    else if (i =? 0)%Z then Ok (cv0 v) else Ok (cv1 v).

  (** cmatrix::get: source/cmatrix.cpp 59-63 *)
  Definition cm_get (m : cmatrix) (i j : Z) : outcome CX :=
    if (i <? 0)%Z || (i >=? 2)%Z || (j <? 0)%Z || (j >=? 2)%Z then Exn IndexRange
    else Ok (if (i =? 0)%Z then (if (j =? 0)%Z then m00 m else m01 m)
             else (if (j =? 0)%Z then m10 m else m11 m)).

  (** cvector::get_conjugate: source/cvector.cpp 51-53 *)
  Definition cv_conj (v : cvector) : cvector := CV (cconj (cv0 v)) (cconj (cv1 v)).

  (** v*v: source/cvector.cpp 58-60 *)
  Definition cv_dot (v w : cvector) : CX := (cv0 v * cv0 w + cv1 v * cv1 w)%cx.

  (** v*m: source/cvector.cpp 61-68.  The accumulators start at [cdouble(zero)] and
      [m.get(j,i)] is always in range. *)
  Definition cv_mul_cm (v : cvector) (m : cmatrix) : cvector :=
    CV ((cT (tZ 0) + cv0 v * m00 m) + cv1 v * m10 m)%cx
       ((cT (tZ 0) + cv0 v * m01 m) + cv1 v * m11 m)%cx.
  (** m*v: source/cvector.cpp 69-76 *)
  Definition cm_mul_cv (m : cmatrix) (v : cvector) : cvector :=
    CV ((cT (tZ 0) + m00 m * cv0 v) + m01 m * cv1 v)%cx
       ((cT (tZ 0) + m10 m * cv0 v) + m11 m * cv1 v)%cx.

  (** v*d and d*v, cdouble: source/cvector.cpp 77-82 (both compute d*vec[i]) *)
  Definition cv_scale (d : CX) (v : cvector) : cvector := CV (d * cv0 v)%cx (d * cv1 v)%cx.
  (** v*d and d*v, ldouble: source/cvector.cpp 83-88 *)
  Definition cv_scalet (d : T) (v : cvector) : cvector := CV (tmulc d (cv0 v)) (tmulc d (cv1 v)).
  (** v*d and d*v, int: source/cvector.cpp 89-96 *)
  Definition cv_scalei (d : Z) (v : cvector) : cvector := cv_scalet (tZ d) v.
  (** -v: source/cvector.cpp 98-100 *)
  Definition cv_opp (v : cvector) : cvector := CV (- cv0 v)%cx (- cv1 v)%cx.
  (** outer: source/cvector.cpp 103-106 *)
  Definition outer (v w : cvector) : cmatrix :=
    CM (cv0 v * cv0 w)%cx (cv0 v * cv1 w)%cx (cv1 v * cv0 w)%cx (cv1 v * cv1 w)%cx.

  (** the tolerance eps*10000000 of source/cvector.cpp 112 *)
  Definition cv_tol : T := (teps * tZ 10000000)%ld.
  (** ==: source/cvector.cpp 111-116 *)
  Definition cv_eqb (v w : cvector) : bool :=
    if tgtb (cabs (cv0 v - cv0 w)%cx) cv_tol then false
    else if tgtb (cabs (cv1 v - cv1 w)%cx) cv_tol then false
    else true.
  (** !=: source/cvector.cpp 118-120 *)
  Definition cv_neqb (v w : cvector) : bool := negb (cv_eqb v w).

  (** the tolerance eps*1000000 of source/cmatrix.cpp 69 and 187 *)
  Definition cm_tol : T := (teps * tZ 1000000)%ld.
  (** get_det: source/cmatrix.cpp 68-74, and det 75-77 *)
  Definition cm_det (m : cmatrix) : outcome T :=
    let det := (m00 m * m11 m - m01 m * m10 m)%cx in
    if tgtb (tabs (cim det)) cm_tol then Exn DetImaginary else Ok (cre det).

  (** +=, +: source/cmatrix.cpp 82-90 *)
  Definition cm_add (m n : cmatrix) : cmatrix :=
    CM (m00 m + m00 n)%cx (m01 m + m01 n)%cx (m10 m + m10 n)%cx (m11 m + m11 n)%cx.
  (** -=, -: source/cmatrix.cpp 92-100 *)
  Definition cm_sub (m n : cmatrix) : cmatrix :=
    CM (m00 m - m00 n)%cx (m01 m - m01 n)%cx (m10 m - m10 n)%cx (m11 m - m11 n)%cx.
  (** unary -: source/cmatrix.cpp 101-103 *)
  Definition cm_opp (m : cmatrix) : cmatrix :=
    CM (- m00 m)%cx (- m01 m)%cx (- m10 m)%cx (- m11 m)%cx.
  (** *= and *: source/cmatrix.cpp 105-117 *)
  Definition cm_mul (m n : cmatrix) : cmatrix :=
    CM (m00 m * m00 n + m01 m * m10 n)%cx (m00 m * m01 n + m01 m * m11 n)%cx
       (m10 m * m00 n + m11 m * m10 n)%cx (m10 m * m01 n + m11 m * m11 n)%cx.
  (** *= cdouble, m*d, d*m: source/cmatrix.cpp 118-129 *)
  Definition cm_scale (m : cmatrix) (d : CX) : cmatrix :=
    CM (m00 m * d)%cx (m01 m * d)%cx (m10 m * d)%cx (m11 m * d)%cx.
  (** *= ldouble, m*d, d*m: source/cmatrix.cpp 130-141 *)
  Definition cm_scalet (m : cmatrix) (d : T) : cmatrix :=
    CM (cmult (m00 m) d) (cmult (m01 m) d) (cmult (m10 m) d) (cmult (m11 m) d).
  (** *= int, m*d, d*m: source/cmatrix.cpp 142-153 *)
  Definition cm_scalei (m : cmatrix) (d : Z) : cmatrix := cm_scalet m (tZ d).
  (** /= cdouble and /: source/cmatrix.cpp 156-164 *)
  Definition cm_div (m : cmatrix) (d : CX) : cmatrix :=
    CM (cdiv (m00 m) d) (cdiv (m01 m) d) (cdiv (m10 m) d) (cdiv (m11 m) d).
  (** /= ldouble and /: source/cmatrix.cpp 165-173 *)
  Definition cm_divt (m : cmatrix) (d : T) : cmatrix :=
    CM (cdivt (m00 m) d) (cdivt (m01 m) d) (cdivt (m10 m) d) (cdivt (m11 m) d).
  (** /= int and /: source/cmatrix.cpp 174-182 *)
  Definition cm_divi (m : cmatrix) (d : Z) : cmatrix := cm_divt m (tZ d).

  (** ==: source/cmatrix.cpp 186-192 *)
  Definition cm_eqb (m n : cmatrix) : bool :=
    if tgtb (cabs (m00 m - m00 n)%cx) cm_tol then false
    else if tgtb (cabs (m01 m - m01 n)%cx) cm_tol then false
    else if tgtb (cabs (m10 m - m10 n)%cx) cm_tol then false
    else if tgtb (cabs (m11 m - m11 n)%cx) cm_tol then false
    else true.
  (** !=: source/cmatrix.cpp 193-195 *)
  Definition cm_neqb (m n : cmatrix) : bool := negb (cm_eqb m n).

End Linear.
Arguments cvector : clear implicits.
Arguments cmatrix : clear implicits.
