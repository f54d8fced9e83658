(** * The unit tests tests/particle.cpp, propagator.cpp, cvector.cpp and cmatrix.cpp

    Every BOOST_CHECK, BOOST_CHECK_EQUAL and BOOST_CHECK_SMALL is an expression with a
    truth value; a failing one is reported and the test goes on, so a test case gives the
    list of all these truth values.  An exception ends the test case (Boost reports it).
    Operands are evaluated from left to right (C++ leaves the order open; by C03 it does
    not matter).  Random numbers come from an arbitrary stream (Utilities.v).  Left out:
    the messages, and the unused function test_cdouble_equality (tests/particle.cpp 26-31). *)
From Coq Require Import QArith.
From Verif Require Import Base Scalar Linear Particle Propagator Utilities.
Close Scope Q_scope.
Open Scope st_scope.

(** an operator applied to two operands *)
Definition ap2 {S A B X} (f : A -> B -> X) (x : ST S A) (y : ST S B) : ST S X :=
  do a <- x; do b <- y; sret (f a b).
(** checks one after the other *)
Fixpoint checks {S} (l : list (ST S bool)) : ST S (list bool) :=
  match l with
  | [] => sret []
  | x :: l' => do b <- x; do bs <- checks l'; sret (b :: bs)
  end.
(** the loop [for(int i=0;i<n;i++)] *)
Fixpoint times {S} (n : nat) (body : nat -> ST S (list bool)) (i : nat) : ST S (list bool) :=
  match n with
  | O => sret []
  | S n' => do a <- body i; do b <- times n' body (i + 1); sret (a ++ b)
  end.

Section UnitTests.
  Context {num : Num}.
  Notation T := (T num).
  Notation CX := (CX num).
  Notation mom := (mom num).
  Notation particle := (particle num).
  Notation cvector := (cvector num).
  Notation cmatrix := (cmatrix num).
  Notation PT := (ST particle).

  (** the tolerance eps*1000000 of tests/particle.cpp 62, 166 and tests/propagator.cpp 25 *)
  Definition small_tol : T := (teps * tZ 1000000)%ld.
  (** BOOST_CHECK_SMALL(x,tol): |x| < |tol| *)
  Definition small (x : T) : bool := tgtb (tabs small_tol) (tabs x).
  (** == of cdouble *)
  Definition cx_eqb (a b : CX) : bool := teqb (cre a) (cre b) && teqb (cim a) (cim b).

  (** ** Shorthands for the calls *)
  Definition up (d : side) (j : Z) : PT cvector := spinor1 d j.
  Definition low (d : side) (j : Z) : PT cvector := spinor2 d j false.
  Definition vconj (x : PT cvector) : PT cvector := smap cv_conj x.
  Definition gen (g : generator) : PT cmatrix := sconst (generator_matrix g).
  Definition same_v : PT cvector -> PT cvector -> PT bool := ap2 cv_eqb.
  Definition same_m : PT cmatrix -> PT cmatrix -> PT bool := ap2 cm_eqb.

  (** ** helicity_spinors_test: the checks of tests/particle.cpp 100-158 *)
  Definition zero_v : PT cvector := sret (CV (cmk (tZ 0) (tZ 0)) (cmk (tZ 0) (tZ 0))).
  Definition half : T := lit (1 # 2).
  Definition helicity_checks : list (PT bool) :=
    [ same_v (spinor0 RAngle) (vconj (spinor0 LSquare));                                      (* 101 *)
      same_v (spinor0 LAngle) (vconj (spinor0 RSquare));                                      (* 104 *)
      same_v (ap2 cm_mul_cv umat (spinor0 RAngle)) zero_v;                                   (* 107 *)
      same_v (ap2 cv_mul_cm (spinor0 LSquare) umat) zero_v;                                  (* 110 *)
      smap (fun z => cx_eqb z (cmk (tZ 0) (tZ 0))) (ap2 cv_dot (spinor0 LAngle) (spinor0 RAngle));   (* 113 *)
      smap (fun z => cx_eqb z (cmk (tZ 0) (tZ 0))) (ap2 cv_dot (spinor0 LSquare) (spinor0 RSquare)); (* 116 *)
      same_m (ap2 outer (spinor0 RAngle) (spinor0 LSquare)) lmat;                            (* 119 *)
      same_m (ap2 outer (spinor0 RSquare) (spinor0 LAngle)) umat;                            (* 122 *)
      same_v (ap2 cm_mul_cv lmat (spinor0 RSquare)) zero_v;                                  (* 125 *)
      same_v (ap2 cv_mul_cm (spinor0 LAngle) lmat) zero_v;                                   (* 128 *)
      same_v (ap2 cm_mul_cv (gen LJ3lu) (spinor0 RAngle)) (smap (cv_scalet (- half)%ld) (spinor0 RAngle)); (* 135 *)
      same_v (ap2 cm_mul_cv (gen LJPlu) (spinor0 RAngle)) zero_v;                            (* 137 *)
      same_v (ap2 cm_mul_cv (gen LJMlu) (spinor0 RAngle)) zero_v;                            (* 139 *)
      same_v (ap2 cm_mul_cv (gen LJ3ul) (spinor0 LAngle)) (smap (cv_scalet (- half)%ld) (spinor0 LAngle)); (* 141 *)
      same_v (ap2 cm_mul_cv (gen LJPul) (spinor0 LAngle)) zero_v;                            (* 143 *)
      same_v (ap2 cm_mul_cv (gen LJMul) (spinor0 LAngle)) zero_v;                            (* 145 *)
      same_v (ap2 cm_mul_cv (gen LJ3luD) (spinor0 LSquare)) (smap (cv_scalet half) (spinor0 LSquare));     (* 148 *)
      same_v (ap2 cm_mul_cv (gen LJPluD) (spinor0 LSquare)) zero_v;                          (* 150 *)
      same_v (ap2 cm_mul_cv (gen LJMluD) (spinor0 LSquare)) zero_v;                          (* 152 *)
      same_v (ap2 cm_mul_cv (gen LJ3ulD) (spinor0 RSquare)) (smap (cv_scalet half) (spinor0 RSquare));     (* 154 *)
      same_v (ap2 cm_mul_cv (gen LJPulD) (spinor0 RSquare)) zero_v;                          (* 156 *)
      same_v (ap2 cm_mul_cv (gen LJMulD) (spinor0 RSquare)) zero_v ].                        (* 158 *)

  (** ** spin_spinors: the checks of tests/particle.cpp 181-337 *)
  (** 181-193, for one j *)
  Definition conj_checks (j : Z) : list (PT bool) :=
    [ same_v (up RAngle j) (vconj (low LSquare j));
      same_v (up LAngle j) (vconj (low RSquare j));
      same_v (low RAngle j) (smap cv_opp (vconj (up LSquare j)));
      same_v (low LAngle j) (smap cv_opp (vconj (up RSquare j))) ].
  (** epsU, epsL and delta: 170-172 *)
  Definition epsU : cmatrix := CM (cmk (tZ 0) (tZ 0)) (cmk (tZ 1) (tZ 0)) (cmk (tZ (-1)) (tZ 0)) (cmk (tZ 0) (tZ 0)).
  Definition epsL : cmatrix := CM (cmk (tZ 0) (tZ 0)) (cmk (tZ (-1)) (tZ 0)) (cmk (tZ 1) (tZ 0)) (cmk (tZ 0) (tZ 0)).
  Definition delta : cmatrix := CM (cmk (tZ 1) (tZ 0)) (cmk (tZ 0) (tZ 0)) (cmk (tZ 0) (tZ 0)) (cmk (tZ 1) (tZ 0)).
  (** std::abs(l*r - x*e.get(epsi,epsj)) < epsilon, with epsi and epsj as in 200-202 *)
  Definition product_check (i j : Z) (l r : PT cvector) (x : T) (e : cmatrix) : PT bool :=
    let epsi := if (i =? 1)%Z then 1%Z else 0%Z in
    let epsj := if (j =? 1)%Z then 1%Z else 0%Z in
    do z <- ap2 cv_dot l r; do c <- slift (cm_get e epsi epsj);
    sret (small (cabs (z - tmulc x c)%cx)).
  (** 205-226, for one i and one j *)
  Definition product_checks (m : T) (ij : Z * Z) : list (PT bool) :=
    let (i, j) := ij in
    [ product_check i j (up LAngle i) (up RAngle j) (- m)%ld epsU;
      product_check i j (up LAngle i) (low RAngle j) (- m)%ld delta;
      product_check i j (low LAngle i) (up RAngle j) m delta;
      product_check i j (low LAngle i) (low RAngle j) m epsL;
      product_check i j (low LSquare i) (low RSquare j) (- m)%ld epsL;
      product_check i j (low LSquare i) (up RSquare j) (- m)%ld delta;
      product_check i j (up LSquare i) (low RSquare j) m delta;
      product_check i j (up LSquare i) (up RSquare j) m epsU ].
  (** 231-250 *)
  Definition outer_sum (l r : Z -> PT cvector) : PT cmatrix :=
    ap2 cm_add (ap2 outer (l (-1)%Z) (r (-1)%Z)) (ap2 outer (l 1%Z) (r 1%Z)).
  Definition outer_checks : list (PT bool) :=
    [ same_m (outer_sum (up RAngle) (low LSquare)) lmat;
      same_m (outer_sum (low RAngle) (up LSquare)) (smap cm_opp lmat);
      same_m (outer_sum (low RSquare) (up LAngle)) umat;
      same_m (outer_sum (up RSquare) (low LAngle)) (smap cm_opp umat) ].
  (** 255-276, for one j *)
  Definition mass_checks (m : T) (j : Z) : list (PT bool) :=
    [ same_v (ap2 cm_mul_cv umat (up RAngle j)) (smap (cv_scalet (- m)%ld) (up RSquare j));
      same_v (ap2 cv_mul_cm (up LAngle j) lmat) (smap (cv_scalet m) (up LSquare j));
      same_v (ap2 cm_mul_cv umat (low RAngle j)) (smap (cv_scalet (- m)%ld) (low RSquare j));
      same_v (ap2 cv_mul_cm (low LAngle j) lmat) (smap (cv_scalet m) (low LSquare j));
      same_v (ap2 cm_mul_cv lmat (up RSquare j)) (smap (cv_scalet (- m)%ld) (up RAngle j));
      same_v (ap2 cv_mul_cm (up LSquare j) umat) (smap (cv_scalet m) (up LAngle j));
      same_v (ap2 cm_mul_cv lmat (low RSquare j)) (smap (cv_scalet (- m)%ld) (low RAngle j));
      same_v (ap2 cv_mul_cm (low LSquare j) umat) (smap (cv_scalet m) (low LAngle j)) ].
  (** 283-337 *)
  Definition algebra_check (l : generator) (d : side) (u : bool) (s : generator) : PT bool :=
    same_m (ap2 cm_mul (gen l) (spinor_matrix d u)) (ap2 cm_mul (spinor_matrix d u) (gen s)).
  Definition algebra_checks : list (PT bool) :=
    [ algebra_check LJ3lu RAngle true SJ3lu; algebra_check LJPlu RAngle true SJPlu; algebra_check LJMlu RAngle true SJMlu;
      algebra_check LJ3ul LAngle true SJ3lu; algebra_check LJPul LAngle true SJPlu; algebra_check LJMul LAngle true SJMlu;
      algebra_check LJ3lu RAngle false SJ3ul; algebra_check LJPlu RAngle false SJPul; algebra_check LJMlu RAngle false SJMul;
      algebra_check LJ3ul LAngle false SJ3ul; algebra_check LJPul LAngle false SJPul; algebra_check LJMul LAngle false SJMul;
      algebra_check LJ3luD LSquare true SJ3lu; algebra_check LJPluD LSquare true SJPlu; algebra_check LJMluD LSquare true SJMlu;
      algebra_check LJ3ulD RSquare true SJ3lu; algebra_check LJPulD RSquare true SJPlu; algebra_check LJMulD RSquare true SJMlu;
      algebra_check LJ3luD LSquare false SJ3ul; algebra_check LJPluD LSquare false SJPul; algebra_check LJMluD LSquare false SJMul;
      algebra_check LJ3ulD RSquare false SJ3ul; algebra_check LJPulD RSquare false SJPul; algebra_check LJMulD RSquare false SJMul ].
  Definition spin_checks (m : T) : list (PT bool) :=
    flat_map conj_checks [(-1)%Z; 1%Z]
    ++ flat_map (product_checks m) [(-1, -1); (-1, 1); (1, -1); (1, 1)]%Z
    ++ outer_checks
    ++ flat_map (mass_checks m) [(-1)%Z; 1%Z]
    ++ algebra_checks.

  (** ** The test cases: the generator of random numbers and the object p1 *)
  Definition world : Type := (stream num * particle)%type.
  Definition on_rng {A} (x : ST (stream num) A) : ST world A := fun w =>
    let (r, s) := x (fst w) in (r, (s, snd w)).
  Definition on_p1 {A} (x : PT A) : ST world A := fun w =>
    let (r, P) := x (snd w) in (r, (fst w, P)).
  (** p1 = particle(q,m); [g]: what the memory of the new object holds *)
  Definition assign_new (g : nat -> T) (q : mom) (m : T) : ST world unit := fun w =>
    match particle_new g q m with
    | (Ok _, P) => (Ok tt, (fst w, P))
    | (Exn e, _) => (Exn e, w)
    | (UB u, _) => (UB u, w)
    end.
  (** a test case: run it from a stream; before p1 exists the second component is not used *)
  Definition from (s : stream num) (x : ST world (list bool)) (g : nat -> T) : outcome (list bool) :=
    fst (x (s, particle_default g)).

  Definition draw_momentum : ST world (T * mom) := on_rng (choose_random_momentum (tZ (-50)) (tZ 50)).
  Definition sumsq (x : T) (q : mom) : T := (((x + v_1 q * v_1 q) + v_2 q * v_2 q) + v_3 q * v_3 q)%ld.
  Definition subsq (x : T) (q : mom) : T := (((x - v_1 q * v_1 q) - v_2 q * v_2 q) - v_3 q * v_3 q)%ld.

  (** constructor_test: tests/particle.cpp 36-58.  [g i]: the memory of the temporary in
      pass i. *)
  Definition constructor_body (g : nat -> nat -> T) (i : nat) : ST world (list bool) :=
    do (_, mom1) <- draw_momentum;
    let mass2 := subsq (v_0 mom1 * v_0 mom1)%ld mom1 in
    assign_new (g i) mom1 (tsqrt mass2) ;;
    do b1 <- on_p1 (sconst test_angles);
    do (_, mom2) <- draw_momentum;
    on_p1 (set_momentum (V4 (tsqrt (sumsq mass2 mom2)) (v_1 mom2) (v_2 mom2) (v_3 mom2))) ;;
    do b2 <- on_p1 (sconst test_angles);
    sret [b1; b2].
  Definition constructor_test (g : nat -> nat -> T) : ST world (list bool) :=
    times 100 (constructor_body g) 0.

  (** momentum_matrices_test: 60-88.  Two objects p1 and p2, no random numbers; p2 is
      made before the first checks, which do not touch it. *)
  Definition sqrt_int (k : Z) : T := tD (dsqrt (dQ (k # 1))).
  Definition on_2 {A} (x : PT A) : ST (particle * particle) A := fun w =>
    let (r, P) := x (snd w) in (r, (fst w, P)).
  Definition on_1 {A} (x : PT A) : ST (particle * particle) A := fun w =>
    let (r, P) := x (fst w) in (r, (P, snd w)).
  Definition dot12 : ST (particle * particle) T := fun w => (dot (fst w) (snd w), w).
  Definition det_check (x : PT cmatrix) : PT bool :=
    do M <- x; do d <- slift (cm_det M);
    sret (small (cabs (tsubc d (cmk (tZ 23) (tZ 0))))).
  Definition matrices_checks (mom1 : mom) : list (PT bool) :=
    [ same_m umat (sret (cmatrix_of_mom mom1 true));                       (* 68 *)
      same_m lmat (sret (cmatrix_of_mom mom1 false));                      (* 69 *)
      det_check umat;                                                      (* 72-73 *)
      same_m lmat (sret (cmatrix_of_mom mom1 false));                      (* 74 *)
      det_check lmat ].                                                    (* 76-77 *)
  Definition anti_check (x y z w : ST (particle * particle) cmatrix) : ST (particle * particle) bool :=
    ap2 cm_eqb (ap2 cm_add (ap2 cm_mul x y) (ap2 cm_mul z w))
      (smap (fun d => cm_scalet (CM (cmk (tZ 1) (tZ 0)) (cmk (tZ 0) (tZ 0)) (cmk (tZ 0) (tZ 0)) (cmk (tZ 1) (tZ 0)))
                        (tZ 2 * d)%ld) dot12).
  Definition matrices_test (g1 g2 : nat -> T) : outcome (list bool) :=
    let mom3 := V4 (tZ 6) (tZ 1) (tZ (-2)) (sqrt_int 8) in
    let mom1 := V4 (tZ 13) (tZ (-4)) (tZ 7) (tZ (-9)) in
    let mom2 := V4 (tZ 5) (tZ 1) (tZ (-2)) (tZ 3) in
    match particle_new g1 mom3 (sqrt_int 23) with
    | (Ok _, P1) =>
        fst ((on_1 (set_momentum mom1) ;;
              do a <- on_1 (checks (matrices_checks mom1));
              on_2 (set_momentum mom2) ;;
              do b <- checks [ anti_check (on_1 umat) (on_2 lmat) (on_2 umat) (on_1 lmat);   (* 84-85 *)
                               anti_check (on_1 lmat) (on_2 umat) (on_2 lmat) (on_1 umat) ]; (* 86-87 *)
              sret (a ++ b)) (P1, particle_mass g2 (sqrt_int (25 - 1 - 4 - 9))))
    | (Exn e, _) => Exn e
    | (UB u, _) => UB u
    end.

  (** helicity_spinors_test: 90-161 *)
  Definition helicity_body (i : nat) : ST world (list bool) :=
    do mom1 <- on_rng (choose_random_massless_momentum (tZ (-50)) (tZ 50));
    on_p1 (set_momentum mom1) ;;
    on_p1 (checks helicity_checks).
  Definition helicity_test (g : nat -> T) : ST world (list bool) :=
    assign_new g (V4 (sqrt_int (16 + 49 + 81)) (tZ (-4)) (tZ 7) (tZ (-9))) (tZ 0) ;;
    times 100 helicity_body 0.

  (** spin_spinors: 164-342 *)
  Definition spin_body (i : nat) : ST world (list bool) :=
    do (mass, mom1) <- draw_momentum;
    on_p1 (set_mass mass) ;;
    on_p1 (set_momentum mom1) ;;
    on_p1 (checks (spin_checks mass)).
  Definition spin_test (g : nat -> T) : ST world (list bool) :=
    assign_new g (V4 (sqrt_int (100 + 16 + 49 + 81)) (tZ (-4)) (tZ 7) (tZ (-9))) (tZ 10) ;;
    times 100 spin_body 0.

  (** ** tests/propagator.cpp 22-47, test_denominator *)
  Definition denominator_test : list bool :=
    let m := lit (387 # 100) in let width := lit (734 # 1000) in
    let p := V4 (tZ 13) (tZ (-4)) (tZ 7) (tZ (-9)) in
    let psq := csubt (csubt (csubt (cT (v_0 p * v_0 p)%ld) (v_1 p * v_1 p)%ld) (v_2 p * v_2 p)%ld) (v_3 p * v_3 p)%ld in
    let prop := propagator_new m (tZ 0) in
    let e1 := csubt psq (m * m)%ld in
    let prop2 := pr_set_width width prop in
    let e2 := (e1 - cmult (cmult (cmk (tZ 0) (tZ 1)) m) width)%cx in
    let prop3 := pr_set_width (tZ 0) (pr_set_mass (tZ 9) prop2) in
    let e3 := csubt psq (tZ 9 * tZ 9)%ld in
    [ small (cabs (denominator prop p - e1)%cx);
      small (cabs (denominator prop2 p - e2)%cx);
      small (cabs (denominator prop3 p - e3)%cx) ].

  (** ** tests/cvector.cpp: only random numbers, no object lives through a pass *)
  Notation RT := (ST (stream num)).
  Definition rnd_c : RT CX := choose_random_cdouble (tZ (-50)) (tZ 50).
  Definition rnd_p : RT mom := smap snd (choose_random_momentum (tZ (-50)) (tZ 50)).
  Definition rnd_t : RT T := choose_random_ldouble (tZ (-50)) (tZ 50).
  (** svec.get(i) == z *)
  Definition entry_check (v : cvector) (i : Z) (z : CX) : RT bool :=
    do x <- slift (cv_get v i); sret (cx_eqb x z).
  (** constructor_test, one pass: tests/cvector.cpp 25-49 *)
  Definition vector_constructor_body (i : nat) : RT (list bool) :=
    do a0 <- rnd_c; do a1 <- rnd_c;
    let v1 := CV a0 a1 in
    do b1 <- entry_check v1 0 a0; do b2 <- entry_check v1 1 a1;
    do c0 <- rnd_c; do c1 <- rnd_c;
    let v2 := CV c0 c1 in
    sret [b1; b2; cv_eqb v1 v1; negb (cv_eqb v1 v2); negb (cv_neqb v1 v1); cv_neqb v1 v2].
  (** conjugate_test: 51-65 *)
  Definition vector_conjugate_body (i : nat) : RT (list bool) :=
    do a0 <- rnd_c; do a1 <- rnd_c;
    let v := cv_conj (CV a0 a1) in
    do b1 <- entry_check v 0 (cconj a0); do b2 <- entry_check v 1 (cconj a1);
    sret [b1; b2].
  (** the sum e1.get(..)*e2.get(..) + e3.get(..)*e4.get(..) *)
  Definition sum_of (e1 e2 e3 e4 : outcome CX) : outcome CX :=
    let! a := e1 in let! b := e2 in let! c := e3 in let! d := e4 in Ok (a * b + c * d)%cx.
  Definition sum_check (v : cvector) (i : Z) (e1 e2 e3 e4 : outcome CX) : RT bool :=
    do z <- slift (sum_of e1 e2 e3 e4); entry_check v i z.
  (** multiplication_test: 67-99 *)
  Definition vector_product_body (i : nat) : RT (list bool) :=
    do a0 <- rnd_c; do a1 <- rnd_c;
    let v := CV a0 a1 in
    do a2 <- rnd_c; do a3 <- rnd_c;
    let v2 := CV a2 a3 in
    let b0 := cx_eqb (cv_dot v v2) (a0 * a2 + a1 * a3)%cx in
    do p <- rnd_p;
    let mat := cmatrix_of_mom p true in
    let v3 := cm_mul_cv mat v in
    do b1 <- sum_check v3 0 (cm_get mat 0 0) (cv_get v 0) (cm_get mat 0 1) (cv_get v 1);
    do b2 <- sum_check v3 1 (cm_get mat 1 0) (cv_get v 0) (cm_get mat 1 1) (cv_get v 1);
    let v4 := cv_mul_cm v mat in
    do b3 <- sum_check v4 0 (cv_get v 0) (cm_get mat 0 0) (cv_get v 1) (cm_get mat 1 0);
    do b4 <- sum_check v4 1 (cv_get v 0) (cm_get mat 0 1) (cv_get v 1) (cm_get mat 1 1);
    sret [b0; b1; b2; b3; b4].

  (** ** tests/cmatrix.cpp *)
  (** constructor: 32-51 *)
  Definition matrix_constructor_body (i : nat) : RT (list bool) :=
    do p1 <- rnd_p; do p2 <- rnd_p;
    let m1 := cmatrix_of_mom p1 true in let m2 := cmatrix_of_mom p2 true in
    sret [cm_eqb m1 m1; negb (cm_eqb m1 m2); negb (cm_neqb m1 m1); cm_neqb m1 m2].
  (** determinant: 53-69; the tolerance is that of [small] *)
  Definition matrix_det_body (i : nat) : RT (list bool) :=
    do p <- rnd_p;
    let mass2 := subsq (v_0 p * v_0 p)%ld p in
    do d1 <- slift (cm_det (cmatrix_of_mom p true));
    do d2 <- slift (cm_det (cmatrix_of_mom p false));
    sret [small (tabs (d1 - mass2)%ld); small (tabs (d2 - mass2)%ld)].
  Definition on_components (f : T -> T -> T) (p q : mom) : mom :=
    V4 (f (v_0 p) (v_0 q)) (f (v_1 p) (v_1 q)) (f (v_2 p) (v_2 q)) (f (v_3 p) (v_3 q)).
  (** addition and subtraction: 71-113; [m3 = m1; m3 += m2] computes the same sum *)
  Definition matrix_sum_body (f : T -> T -> T) (op : cmatrix -> cmatrix -> cmatrix) (i : nat) : RT (list bool) :=
    do p1 <- rnd_p; do p2 <- rnd_p;
    let m1 := cmatrix_of_mom p1 true in let m2 := cmatrix_of_mom p2 true in
    let expected := cmatrix_of_mom (on_components f p1 p2) true in
    sret [cm_eqb (op m1 m2) expected; cm_eqb (op m1 m2) expected].
  Definition matrix_add_body := matrix_sum_body tadd cm_add.
  Definition matrix_sub_body := matrix_sum_body tsub cm_sub.
  (** every entry of cmatrix(p,true), each passed through f: 143, 148 and in the division test *)
  Definition entries (f : CX -> CX) (p : mom) : cmatrix :=
    CM (f (cmk (v_0 p - v_3 p)%ld (tZ 0))) (f (cmk (- v_1 p)%ld (v_2 p)))
       (f (cmk (- v_1 p)%ld (- v_2 p)%ld)) (f (cmk (v_0 p + v_3 p)%ld (tZ 0))).
  (** multiplication: 115-158; [ints i]: what choose_random_int(0,50) delivers in pass i *)
  Definition matrix_mul_body (ints : nat -> Z) (i : nat) : RT (list bool) :=
    do p <- rnd_p;
    let mass2 := subsq (v_0 p * v_0 p)%ld p in
    let m1 := cmatrix_of_mom p true in let m2 := cmatrix_of_mom p false in
    let expected := CM (cmk mass2 (tZ 0)) (cmk (tZ 0) (tZ 0)) (cmk (tZ 0) (tZ 0)) (cmk mass2 (tZ 0)) in
    do cn <- rnd_c;
    do ln <- rnd_t;
    let n := ints i in
    let p2 := V4 (tZ n * v_0 p)%ld (tZ n * v_1 p)%ld (tZ n * v_2 p)%ld (tZ n * v_3 p)%ld in
    sret [cm_eqb (cm_mul m1 m2) expected; cm_eqb (cm_mul m2 m1) expected;
          cm_eqb (cm_mul m1 m2) expected; cm_eqb (cm_mul m2 m1) expected;       (* m3 *= .. *)
          cm_eqb (cm_scale m1 cn) (entries (fun z => z * cn)%cx p);
          cm_eqb (cm_scale m1 cn) (entries (fun z => z * cn)%cx p);             (* cn * m1 *)
          cm_eqb (cm_scalet m1 ln) (entries (fun z => cmult z ln) p);
          cm_eqb (cm_scalet m1 ln) (entries (fun z => cmult z ln) p);           (* ln1 * m1 *)
          cm_eqb (cm_scalei m1 n) (cmatrix_of_mom p2 true);
          cm_eqb (cm_scalei m1 n) (cmatrix_of_mom p2 true)].                    (* in * m1 *)
  (** division: 160-179 *)
  Definition matrix_div_body (i : nat) : RT (list bool) :=
    do p <- rnd_p;
    let m1 := cmatrix_of_mom p true in
    do cn <- rnd_c;
    let b1 := cm_eqb (cm_div m1 cn) (entries (fun z => cdiv z cn) p) in
    do ln <- rnd_t;
    sret [b1; cm_eqb (cm_divt m1 ln) (entries (fun z => cdivt z ln) p)].
  (** the nine test cases: each a loop of NTESTS = 100 passes *)
  Definition linear_test (body : nat -> RT (list bool)) (s : stream num) : outcome (list bool) :=
    fst (times 100 body 0 s).
End UnitTests.
