(** * The test harness of class process (source/process.cpp 186-390)

    The process under test is arbitrary: [S] is the state of the process object and of
    everything amp2_func can reach, [set_momenta] the virtual member function, [amp2] the
    callable.  Both may change the state and throw.  The random number generator is the
    second component of the state.  Printing (print_test_message, 392-404) is not
    modelled. *)
From Coq Require Import QArith.
From Verif Require Import Base Scalar Integers Utilities.
Close Scope Q_scope.

Section Harness.
  Context {num : Num}.
  Notation T := (T num).
  Notation mom := (mom num).

  (** set_test_initializations: source/process.cpp 333-344.  lambda12 is computed and not
      used. *)
  Record kin : Type := mkKin { En1 : T; En2 : T; Pout : T; En3 : T; En4 : T }.
  Definition set_test_initializations (m1 m2 m3 m4 Pin : T) : kin :=
    let En1 := tsqrt (Pin*Pin + m1*m1)%ld in
    let En2 := tsqrt (Pin*Pin + m2*m2)%ld in
    let sqrtS := (En1 + En2)%ld in
    let ms := (m3 + m4)%ld in
    let md := (m3 - m4)%ld in
    let lambda34 := tsqrt ((sqrtS*sqrtS - ms*ms) * (sqrtS*sqrtS - md*md))%ld in
    let Pout := (lambda34 / (tZ 2 * sqrtS))%ld in
    mkKin En1 En2 Pout (tsqrt (Pout*Pout + m3*m3)%ld) (tsqrt (Pout*Pout + m4*m4)%ld).

  (** four momenta p1 p2 p3 p4 *)
  Record quad (A : Type) : Type := Q4 { q_1 : A; q_2 : A; q_3 : A; q_4 : A }.

  (** set_test_momenta: source/process.cpp 346-365 *)
  Definition set_test_momenta (k : kin) (Pin cost : T) : quad mom :=
    let sint := tsqrt (lit (1 # 1) - cost*cost)%ld in
    let p31 := (Pout k * sint)%ld in
    let p33 := (Pout k * cost)%ld in
    Q4 _ (V4 (En1 k) (tZ 0) (tZ 0) Pin)
         (V4 (En2 k) (tZ 0) (tZ 0) (- Pin)%ld)
         (V4 (En3 k) p31 (tZ 0) p33)
         (V4 (En4 k) (- p31)%ld (tZ 0) (- p33)%ld).

  Definition qmap {A B} (f : A -> B) (q : quad A) : quad B :=
    Q4 _ (f (q_1 _ q)) (f (q_2 _ q)) (f (q_3 _ q)) (f (q_4 _ q)).

  Open Scope st_scope.
  (** rotate_random_test_momenta: source/process.cpp 367-377.  2.*3.14...: the product of
      two double literals. *)
  Definition rotate_random_test_momenta (q : quad mom) : ST (stream num) (quad mom) :=
    do u0 <- choose_random_ldouble (tZ 0) (tZ 1000);
    do u1 <- choose_random_ldouble (tZ 0) (tZ 1000);
    do u2 <- choose_random_ldouble (tZ 0) (tZ 1000);
    let um := tsqrt (u0*u0 + u1*u1 + u2*u2)%ld in
    let u := V3 (u0 / um)%ld (u1 / um)%ld (u2 / um)%ld in
    do angle <- choose_random_ldouble (tZ 0)
       (tD (dmul (dQ (2 # 1)) (dQ (3141592653589793238462643383279502884 # 1000000000000000000000000000000000000))));
    sret (qmap (fun p => rotate_momentum p u angle) q).

  (** boost_random_test_momenta: source/process.cpp 379-390.  The loop need not end; at
      most [fuel] iterations are followed. *)
  Fixpoint boost_draw (fuel : nat) (v : vec3 T) (vm : T) : ST (stream num) (vec3 T) :=
    if tgeb vm (lit (99 # 100)) then
      match fuel with
      | O => slift (UB LoopNotDone)
      | S fuel' =>
          do v0 <- choose_random_ldouble (tZ 0) (tZ 1);
          do v1 <- choose_random_ldouble (tZ 0) (tZ 1);
          do v2 <- choose_random_ldouble (tZ 0) (tZ 1);
          boost_draw fuel' (V3 v0 v1 v2) (tsqrt (v0*v0 + v1*v1 + v2*v2)%ld)
      end
    else sret v.
  (* v is uninitialised before the loop; the first test 2 >= 0.99 is always true *)
  Definition boost_random_test_momenta (fuel : nat) (q : quad mom) : ST (stream num) (quad mom) :=
    do v <- boost_draw fuel (V3 (tZ 0) (tZ 0) (tZ 0)) (tZ 2);
    sret (qmap (fun p => boost_momentum p v) q).

  (** ** the tests *)
  Context {S : Type}.
  Variable set_momenta : mom -> mom -> mom -> mom -> ST S unit.
  Variable amp2 : ST S T.

  Definition on_proc {A} (f : ST S A) : ST (S * stream num) A := fun s =>
    let (r, p) := f (fst s) in (r, (p, snd s)).
  Definition on_rng {A} (f : ST (stream num) A) : ST (S * stream num) A := fun s =>
    let (r, g) := f (snd s) in (r, (fst s, g)).

  (** the condition of source/process.cpp 228-230, 255-257, 286-288, 320-322; [rel] is
      1e-9 or 1e-8, [abs] 1e-15 *)
  Definition bad_point (abs rel : Q) (a d : T) : bool :=
    tisinf a || tisnan a
    || (tgtb (tabs (a - d)%ld) (lit abs) && tgtb (tabs (a - d) / tabs (a + d))%ld (lit rel)).

  (** cost = 0.95-0.1*j *)
  Definition cost_of (j : nat) : T :=
    tD (dsub (dQ (95 # 100)) (dmul (dQ (1 # 10)) (dQ (inject_Z (Z.of_nat j))))).

  (** set_momenta(p1,p2,p3,p4); ampSquared = amp2_func(); *)
  Definition amp_at (q : quad mom) : ST (S * stream num) T :=
    on_proc (set_momenta (q_1 _ q) (q_2 _ q) (q_3 _ q) (q_4 _ q)) ;; on_proc amp2.
  (** ... if(bad) i++; *)
  Definition tally (abs rel : Q) (data : list T) (j : nat) (q : quad mom) (i : Z) : ST (S * stream num) Z :=
    do a <- amp_at q;
    do d <- slift (arr_get data j);
    if bad_point abs rel a d then slift (int_add i 1) else sret i.

  Definition tol_abs : Q := 1 # 1000000000000000.
  Definition tol_9 : Q := 1 # 1000000000.
  Definition tol_8 : Q := 1 # 100000000.

  (** test_2to2_amp2: source/process.cpp 214-236 *)
  Definition test_2to2_amp2 (m1 m2 m3 m4 Pin : T) (data : list T) : ST (S * stream num) Z :=
    let k := set_test_initializations m1 m2 m3 m4 Pin in
    sfor 0 20 (fun j i => tally tol_abs tol_9 data j (set_test_momenta k Pin (cost_of j)) i) 0%Z.

  (** test_2to2_amp2_rotations: source/process.cpp 240-267; the rotations of one point
      accumulate *)
  Definition test_2to2_amp2_rotations (m1 m2 m3 m4 Pin : T) (data : list T) : ST (S * stream num) Z :=
    let k := set_test_initializations m1 m2 m3 m4 Pin in
    sfor 0 20 (fun j i =>
      do iq <- sfor 0 10 (fun _ (iq : Z * quad mom) =>
          do q <- on_rng (rotate_random_test_momenta (snd iq));
          do i' <- tally tol_abs tol_9 data j q (fst iq);
          sret (i', q)) (i, set_test_momenta k Pin (cost_of j));
      sret (fst iq)) 0%Z.

  (** test_2to2_amp2_boosts: source/process.cpp 271-297 *)
  Definition test_2to2_amp2_boosts (fuel : nat) (m1 m2 m3 m4 Pin : T) (data : list T) : ST (S * stream num) Z :=
    let k := set_test_initializations m1 m2 m3 m4 Pin in
    sfor 0 20 (fun j i => sfor 0 10 (fun _ i =>
      do q <- on_rng (boost_random_test_momenta fuel (set_test_momenta k Pin (cost_of j)));
      tally tol_abs tol_8 data j q i) i) 0%Z.

  (** test_2to2_amp2_boosts_and_rotations: source/process.cpp 301-331 *)
  Definition test_2to2_amp2_boosts_and_rotations (fuel : nat) (m1 m2 m3 m4 Pin : T) (data : list T)
      : ST (S * stream num) Z :=
    let k := set_test_initializations m1 m2 m3 m4 Pin in
    sfor 0 20 (fun j i => sfor 0 10 (fun _ i =>
      do q1 <- on_rng (rotate_random_test_momenta (set_test_momenta k Pin (cost_of j)));
      do q2 <- on_rng (boost_random_test_momenta fuel q1);
      do q3 <- on_rng (rotate_random_test_momenta q2);
      tally tol_abs tol_8 data j q3 i) i) 0%Z.

  (** score_2to2_amp2: source/process.cpp 188-209.  [amp2] is amp2_func(params). *)
  Definition tol_20 : Q := 1 # 100000000000000000000.
  Definition score_2to2_amp2 (m1 m2 m3 m4 Pin : T) (data : list T) : ST (S * stream num) T :=
    let k := set_test_initializations m1 m2 m3 m4 Pin in
    sfor 0 20 (fun j score =>
      do a <- amp_at (set_test_momenta k Pin (cost_of j));
      do d <- slift (arr_get data j);
      if bad_point tol_20 tol_9 a d then sret (score + tabs (a - d) / tabs (a + d))%ld else sret score)
      (tZ 0).
End Harness.
Arguments quad : clear implicits. Arguments Q4 {A}. Arguments q_1 {A}. Arguments q_2 {A}. Arguments q_3 {A}. Arguments q_4 {A}.
Arguments kin : clear implicits.

(** process::set_momenta, the function a derived class inherits when it does not override
    it: source/process.cpp 41-43 *)
Definition base_set_momenta {num : Num} {S} (_ _ _ _ : mom num) : ST S unit := sthrow NotImplemented.
