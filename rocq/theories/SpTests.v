(** * The unit test tests/sproduct.cpp

    As in UnitTests.v: a check is a truth value, a pass of a loop gives the list of its
    checks, an exception ends the test case.  The particles and spinor products of a pass
    are local variables, so a pass starts from an empty world and ends with the state of
    the random number generator alone.  Left out: the messages and the parameters np,
    spstring and resstring of test_sproduct, which it does not use. *)
From Coq Require Import QArith.
From Verif Require Import Base Scalar Linear Particle Sproduct World Utilities Harness UnitTests.
Close Scope Q_scope.
Open Scope st_scope.

Section SpTests.
  Context {num : Num}.
  Notation T := (T num).
  Notation CX := (CX num).
  Notation mom := (mom num).
  Notation stream := (stream num).
  Notation world := (World.world num).

  Definition both : Type := (stream * world)%type.
  Definition rng {A} (x : ST stream A) : ST both A := fun w =>
    let (r, s) := x (fst w) in (r, (s, snd w)).
  Definition wor {A} (x : ST world A) : ST both A := fun w =>
    let (r, v) := x (snd w) in (r, (fst w, v)).
  Definition doing (c : wcall num) : ST world unit := smap (fun _ => tt) (wstep c).

  (** BOOST_CHECK_SMALL(x,epsilon) with epsilon = numeric_limits<ldouble>::epsilon()*k *)
  Definition small_by (tol x : T) : bool := tgtb (tabs tol) (tabs x).

  (** ** Reading particles *)
  Definition read {A} (a : addr) (f : particle num -> outcome A) : ST world A := fun w =>
    match nth_error (w_heap w) a with Some P => (f P, w) | None => (UB BadPointer, w) end.
  (** the loop at tests/sproduct.cpp 602-613 for one particle *)
  Definition get_all (a : addr) : ST world mom :=
    do p0 <- read a (fun P => get_momentum P 0); do p1 <- read a (fun P => get_momentum P 1);
    do p2 <- read a (fun P => get_momentum P 2); do p3 <- read a (fun P => get_momentum P 3);
    sret (V4 p0 p1 p2 p3).
  (** p_a.dot(p_b) *)
  Definition pdot (a b : addr) : ST world T := fun w =>
    match nth_error (w_heap w) a, nth_error (w_heap w) b with
    | Some P, Some Q => (dot P Q, w)
    | _, _ => (UB BadPointer, w)
    end.

  Fixpoint each {S A B} (f : A -> ST S B) (l : list A) : ST S (list B) :=
    match l with
    | [] => sret []
    | a :: l' => do b <- f a; do bs <- each f l'; sret (b :: bs)
    end.

  (** ** test_sproduct: tests/sproduct.cpp 597-679 *)
  Fixpoint add_up (l : list (ST world T)) (acc : T) : ST world T :=
    match l with [] => sret acc | x :: l' => do t <- x; add_up l' (acc + t)%ld end.
  (** std::real(sp1->v(..)*std::conj(sp2->v(..))) *)
  Definition term (i1 i2 : nat) (v : ST (store num) CX) : ST world T :=
    do x <- on_sp i1 v; do y <- on_sp i2 v; sret (cre (x * cconj y)%cx).
  (** 617-626 *)
  Definition spin_prod (i1 i2 ni : nat) : ST world T :=
    add_up (if (ni =? 2)%nat then map (fun st => term i1 i2 (v2 (fst st) (snd st))) [(-1, -1); (-1, 1); (1, -1); (1, 1)]%Z
            else if (ni =? 1)%nat then map (fun s => term i1 i2 (v1 s)) [-1; 1]%Z
            else [term i1 i2 v0]) (tZ 0).
  (** 640-649 and 662-670 *)
  Definition rotate_all (l : list mom) : ST stream (list mom) :=
    do u0 <- choose_random_ldouble (tZ 0) (tZ 1000);
    do u1 <- choose_random_ldouble (tZ 0) (tZ 1000);
    do u2 <- choose_random_ldouble (tZ 0) (tZ 1000);
    let um := tsqrt (u0*u0 + u1*u1 + u2*u2)%ld in
    let u := V3 (u0 / um)%ld (u1 / um)%ld (u2 / um)%ld in
    do angle <- choose_random_ldouble (tZ 0)
       (tD (dmul (dQ (2 # 1)) (dQ (3141592653589793238462643383279502884 # 1000000000000000000000000000000000000))));
    sret (map (fun p => rotate_momentum p u angle) l).
  (** 651-660; the loop is that of boost_random_test_momenta (Harness.v): at most [fuel]
      iterations are followed *)
  Definition boost_all (fuel : nat) (l : list mom) : ST stream (list mom) :=
    do v <- boost_draw fuel (V3 (tZ 0) (tZ 0) (tZ 0)) (tZ 2);
    sret (map (fun p => boost_momentum p v) l).
  (** 671-675 *)
  Definition set_all (ps : list addr) (l : list mom) : ST world unit :=
    do _ <- each (fun aq : addr * mom => doing (WPart (fst aq) (CSetMomentum (snd aq)))) (combine ps l); sret tt.
  (** one pass of the loop at 616; [orig]: mom1o..mom5o *)
  Definition product_step (fuel i1 i2 ni : nat) (ps : list addr) (orig : list mom) (expected tol : T) (l : nat)
    : ST both (list bool) :=
    do sp <- wor (spin_prod i1 i2 ni);
    do l1 <- rng (rotate_all orig);
    do l2 <- rng (boost_all fuel l1);
    do l3 <- rng (rotate_all l2);
    wor (set_all ps l3) ;;
    wor (doing (WUpdate i1)) ;; wor (doing (WUpdate i2)) ;;
    sret [small_by tol (tabs (sp - expected)%ld)].
  Definition test_sproduct (fuel i1 i2 ni : nat) (ps : list addr) (expected : T) (factor : Z) : ST both (list bool) :=
    do orig <- wor (each get_all ps);
    wor (doing (WUpdate i1)) ;; wor (doing (WUpdate i2)) ;;
    times 10 (product_step fuel i1 i2 ni ps orig expected (teps * tZ 100000000 * tZ factor)%ld) 0.

  (** ** test_sproduct_spinsum: 563-593.  The products are numbers 0, 1 and 2. *)
  Definition sum2 (f : Z -> ST (store num) CX) (h : Z -> ST (store num) CX) : ST world CX :=
    do x1 <- on_sp 0 (f (-1)%Z); do y1 <- on_sp 1 (h (-1)%Z);
    do x2 <- on_sp 0 (f 1%Z); do y2 <- on_sp 1 (h 1%Z);
    sret ((cmk (tZ 0) (tZ 0) + x1 * y1) + x2 * y2)%cx.
  Definition sum_check (factor : T) (f h : Z -> ST (store num) CX) (v : ST (store num) CX) : ST world bool :=
    do z <- sum2 f h; do y <- on_sp 2 v;
    sret (small_by (teps * tZ 1000000000)%ld (cabs (z - tmulc factor y)%cx)).
  Definition spins : list Z := [-1; 1]%Z.
  Definition spinsum (m1 m3 factor : T) : ST world (list bool) :=
    if teqb m1 (tZ 0) && teqb m3 (tZ 0) then each (fun _ => sum_check factor v1 v1 v0) [tt]
    else if teqb m1 (tZ 0) then
      each (fun d3 => sum_check factor v1 (fun d2 => v2 d2 d3) (v1 d3)) spins
    else if teqb m3 (tZ 0) then
      each (fun d1 => sum_check factor (fun d2 => v2 d1 d2) v1 (v1 d1)) spins
    else
      each (fun d => sum_check factor (fun d2 => v2 (fst d) d2) (fun d2 => v2 d2 (snd d)) (v2 (fst d) (snd d)))
        [(-1, -1); (-1, 1); (1, -1); (1, 1)]%Z.

  (** ** A pass of a test case *)
  (** the random momenta, [true] for a massless one; a massless particle has mass 0 *)
  Definition draw_leg (massless : bool) : ST stream (T * mom) :=
    if massless then smap (fun q => (tZ 0, q)) (choose_random_massless_momentum (tZ (-50)) (tZ 50))
    else choose_random_momentum (tZ (-50)) (tZ 50).
  (** particle p=particle(mom,m), in the memory g *)
  Definition make_all (g : nat -> T) (l : list (T * mom)) : ST world unit :=
    do _ <- each (fun mq : T * mom => doing (WMom g (snd mq) (fst mq))) l; sret tt.
  (** sproduct(angle, L, iLU, mid.., R, iRU) *)
  Record shape : Type := Sp { h_angle : bool; h_L : addr; h_Lu : bool; h_mid : list addr; h_R : addr; h_Ru : bool }.
  Definition make_sps (l : list shape) : ST world unit :=
    do _ <- each (fun h => doing (WSMake (h_angle h) (h_L h) (h_Lu h) (h_mid h) (h_R h) (h_Ru h))) l; sret tt.
  Definition local {A} (x : ST both A) : ST stream A := fun s =>
    let (r, w) := x (s, mkWorld [] []) in (r, fst w).

  Definition among (o : nat) (l : list nat) : bool := existsb (Nat.eqb o) l.

  (** ** The test cases with test_sproduct *)
  Record pcase : Type := PCase {
    pc_passes : nat;                        (* the range of o *)
    pc_massless : nat -> list bool;         (* the choice of the momenta *)
    pc_ni : nat -> nat;
    pc_sps : list shape;
    pc_expected : list T -> ST world T;     (* from the masses and dot products *)
    pc_calls : list (nat * nat);            (* sp1 and sp2 of each call *)
    pc_args : list addr;                    (* p1..p5 *)
    pc_factor : Z
  }.
  Definition product_pass (fuel : nat) (g : nat -> T) (c : pcase) (o : nat) : ST stream (list bool) :=
    local (do legs <- rng (each draw_leg (pc_massless c o));
           wor (make_all g legs) ;; wor (make_sps (pc_sps c)) ;;
           do e <- wor (pc_expected c (map fst legs));
           do l <- each (fun i => test_sproduct fuel (fst i) (snd i) (pc_ni c o) (pc_args c) e (pc_factor c)) (pc_calls c);
           sret (concat l)).

  Definition mass_of (ms : list T) (k : nat) : T := nth k ms (tZ 0).
  (** the literal 2. is [tZ 2] *)
  Definition dots3 (c : T) (a b d e f h i j k l m n : addr) : ST world T := (* c a.b d.e - c f.h i.j + c k.l m.n *)
    do x1 <- pdot a b; do x2 <- pdot d e; do y1 <- pdot f h; do y2 <- pdot i j; do z1 <- pdot k l; do z2 <- pdot m n;
    sret (c*x1*x2 - c*y1*y2 + c*z1*z2)%ld.

  (** s12sa21a_tests: 32-55 *)
  Definition case1 : pcase := PCase 4 (fun o => [among o [1; 3]; among o [2; 3]])
    (fun o => if among o [3] then 0 else if among o [1; 2] then 1 else 2)
    [Sp false 0 true [] 1 true]
    (fun _ => do x <- pdot 0 1; sret (tZ 2 * x)%ld)
    [(0, 0)] [0; 1; 1; 1; 1] 10.
  (** s12ss21s_tests: 59-83 *)
  Definition case2 : pcase := PCase 3 (fun o => [among o [1; 3]; among o [2; 3]])
    (fun o => if among o [3] then 0 else if among o [1; 2] then 1 else 2)
    [Sp false 0 true [] 1 true; Sp true 0 true [] 1 true]
    (fun ms => sret (- tZ 2 * mass_of ms 0 * mass_of ms 1)%ld)
    [(0, 1); (1, 0)] [0; 1; 1; 1; 1] 1000.
  (** s12sa231s_tests: 87-110 *)
  Definition case3 : pcase := PCase 4 (fun o => [false; among o [1; 3]; among o [2; 3]])
    (fun o => if among o [1; 3] then 1 else 2)
    [Sp false 0 true [] 1 true; Sp true 0 true [2] 1 true]
    (fun ms => do x <- pdot 1 2; sret (tZ 2 * mass_of ms 0 * x)%ld)
    [(0, 1)] [0; 1; 2; 2; 2] 100000.
  (** s12ss2341s_tests: 114-137 *)
  Definition case4 : pcase := PCase 4 (fun o => [false; false; among o [1; 3]; among o [2; 3]])
    (fun _ => 2)
    [Sp false 0 true [] 1 true; Sp true 0 true [3; 2] 1 true]
    (fun ms => do x <- pdot 2 3; sret (- tZ 2 * mass_of ms 0 * mass_of ms 1 * x)%ld)
    [(0, 1)] [0; 1; 2; 3; 3] 500000.
  Definition four_masses (o : nat) : list bool :=
    [among o [1; 5; 6; 7; 11; 12; 13; 15]; among o [2; 5; 8; 9; 11; 12; 14; 15];
     among o [3; 6; 8; 10; 11; 13; 14; 15]; among o [4; 7; 9; 10; 12; 13; 14; 15]].
  Definition four_ni (o : nat) : nat :=
    if among o [5; 11; 12; 15] then 0 else if among o [1; 2; 6; 7; 8; 9; 13; 14] then 1 else 2.
  (** s12sa2341a_tests: 141-169 *)
  Definition case5 : pcase := PCase 16 four_masses four_ni
    [Sp false 0 true [] 1 true; Sp false 0 true [3; 2] 1 true]
    (fun _ => dots3 (tZ 2) 0 1 2 3 0 2 1 3 0 3 1 2)
    [(0, 1)] [0; 1; 2; 3; 3] 100000.
  (** s142aa132sC_tests: 172-195 *)
  Definition case6 : pcase := PCase 4 (fun o => [false; false; among o [1; 3]; among o [2; 3]])
    (fun _ => 2)
    [Sp false 0 true [3] 1 true; Sp true 0 true [2] 1 true]
    (fun ms => do x <- pdot 2 3; sret (- tZ 2 * mass_of ms 0 * mass_of ms 1 * x)%ld)
    [(0, 1)] [0; 1; 2; 3; 3] 1000000.
  (** s142as132aC_tests: 198-226 *)
  Definition case7 : pcase := PCase 16 four_masses four_ni
    [Sp false 0 true [3] 1 true; Sp false 0 true [2] 1 true]
    (fun _ => dots3 (tZ 2) 0 3 1 2 0 1 2 3 0 2 1 3)
    [(0, 1)] [0; 1; 2; 3; 3] 100000.
  (** s142as1352sC_tests: 229-258; the bracket is [dots3] with the factor 1, an exact multiplication *)
  Definition case8 : pcase := PCase 14
    (fun o => [among o [1; 5; 6; 7; 10; 11; 12; 13]; false; among o [2; 5; 8; 9; 10; 11; 13];
               among o [3; 6; 8; 10; 12; 13]; among o [4; 7; 9; 11; 12; 13]])
    (fun o => if among o [1; 5; 6; 7; 10; 11; 12; 13] then 1 else 2)
    [Sp false 0 true [3] 1 true; Sp false 0 true [2; 4] 1 true]
    (fun ms => do d <- dots3 (tZ 1) 0 3 2 4 0 4 2 3 0 2 3 4; sret (- tZ 2 * mass_of ms 1 * d)%ld)
    [(0, 1)] [0; 1; 2; 3; 4] 200000000.
  Definition pcases : list pcase := [case1; case2; case3; case4; case5; case6; case7; case8].

  (** ** The test cases with test_sproduct_spinsum: 263-458 *)
  Record scase : Type := SCase {
    sc_1 : shape; sc_2 : shape; sc_prod : shape; sc_factor : T -> T   (* from m2 *)
  }.
  Definition sum_massless (o : nat) : list bool := [among o [1; 3]; false; among o [2; 3]].
  Definition sum_pass (g : nat -> T) (c : scase) (o : nat) : ST stream (list bool) :=
    local (do legs <- rng (each draw_leg (sum_massless o));
           wor (make_all g legs) ;; wor (make_sps [sc_1 c; sc_2 c; sc_prod c]) ;;
           let ms := map fst legs in
           wor (spinsum (mass_of ms 0) (mass_of ms 2) (sc_factor c (mass_of ms 1)))).
  Definition scases : list scase :=
    [ SCase (Sp false 0 true [] 1 false) (Sp true 1 true [] 2 true) (Sp false 0 true [1] 2 true) (fun _ => tZ 1);      (* 263-284 *)
      SCase (Sp false 0 true [] 1 true) (Sp true 1 false [] 2 true) (Sp false 0 true [1] 2 true) (fun _ => tZ (-1));   (* 288-309 *)
      SCase (Sp true 0 true [] 1 true) (Sp false 1 false [] 2 true) (Sp true 0 true [1] 2 true) (fun _ => tZ 1);       (* 314-335 *)
      SCase (Sp true 0 true [] 1 false) (Sp false 1 true [] 2 true) (Sp true 0 true [1] 2 true) (fun _ => tZ (-1));    (* 340-361 *)
      SCase (Sp false 0 true [] 1 false) (Sp false 1 true [] 2 true) (Sp false 0 true [] 2 true) (fun m => m);         (* 365-386 *)
      SCase (Sp false 0 true [] 1 true) (Sp false 1 false [] 2 true) (Sp false 0 true [] 2 true) (fun m => (- m)%ld);  (* 389-410 *)
      SCase (Sp true 0 true [] 1 true) (Sp true 1 false [] 2 true) (Sp true 0 true [] 2 true) (fun m => m);            (* 413-434 *)
      SCase (Sp true 0 true [] 1 false) (Sp true 1 true [] 2 true) (Sp true 0 true [] 2 true) (fun m => (- m)%ld) ].   (* 437-458 *)

  (** ** Momentum conservation: 463-554 *)
  (** mom4 = -mom1-mom2-mom3 and its mass: 479-484 and 530-535 *)
  Definition fourth (p q r : mom) : mom :=
    V4 (- v_0 p - v_0 q - v_0 r)%ld (- v_1 p - v_1 q - v_1 r)%ld (- v_2 p - v_2 q - v_2 r)%ld (- v_3 p - v_3 q - v_3 r)%ld.
  Definition fourth_mass (p : mom) : T := tsqrt (subsq (v_0 p * v_0 p)%ld p).
  Definition zero_check (tol : T) (x : ST world CX) : ST world bool := do z <- x; sret (small_by tol (cabs z)).
  Definition v_of (i : nat) (v : ST (store num) CX) : ST world CX := on_sp i v.
  Definition cadds (x y : ST world CX) : ST world CX := ap2 cadd x y.
  (** s142a_m2s12s_m1a12a_s132a_tests: 463-506; the products are 0 = [142>, 1 = [132>, 2 = [12], 3 = <12> *)
  Definition conserve_pass (g : nat -> T) (o : nat) : ST stream (list bool) :=
    local (do l1 <- rng (draw_leg (3 <? o)%nat);
           do l2 <- rng (draw_leg (among o [2; 3; 6; 7]));
           do l3 <- rng (draw_leg (among o [1; 3; 5; 7]));
           let mom4 := fourth (snd l1) (snd l2) (snd l3) in
           let m1 := fst l1 in let m2 := fst l2 in
           wor (make_all g [l1; l2; l3; (fourth_mass mom4, mom4)]) ;;
           wor (make_sps [Sp false 0 true [3] 1 true; Sp false 0 true [2] 1 true; Sp false 0 true [] 1 true; Sp true 0 true [] 1 true]) ;;
           let tol := (teps * tZ 10000000000)%ld in
           wor (if among o [0; 1] then
                  each (fun d => let v := v2 (fst d) (snd d) in
                    zero_check tol (cadds (cadds (ap2 csub (v_of 0 v) (smap (tmulc m2) (v_of 2 v))) (smap (tmulc m1) (v_of 3 v))) (v_of 1 v)))
                    [(-1, -1); (-1, 1); (1, -1); (1, 1)]%Z
                else if among o [2; 3] then
                  each (fun d => zero_check tol (cadds (cadds (v_of 0 (v1 d)) (smap (tmulc m1) (v_of 3 (v1 d)))) (v_of 1 (v1 d)))) spins
                else if among o [4; 5] then
                  each (fun d => zero_check tol (cadds (ap2 csub (v_of 0 (v1 d)) (smap (tmulc m2) (v_of 2 (v1 d)))) (v_of 1 (v1 d)))) spins
                else each (fun _ => zero_check tol (cadds (v_of 0 v0) (v_of 1 v0))) [tt])).
  (** s142a_s241a_s132a_s231a_tests: 511-554; 0 = [142>, 1 = [241>, 2 = [132>, 3 = [231>, then
      the unused [12] and <12> *)
  Definition symmetric_pass (g : nat -> T) (o : nat) : ST stream (list bool) :=
    local (do l1 <- rng (draw_leg (among o [2; 3]));
           do l2 <- rng (draw_leg (among o [2; 3]));
           let m12 := fst l1 in
           let mom2 := if among o [2; 3] then snd l2
                       else let q := snd l2 in
                            V4 (tsqrt (((v_1 q * v_1 q + v_2 q * v_2 q) + v_3 q * v_3 q) + m12 * m12)%ld) (v_1 q) (v_2 q) (v_3 q) in
           do l3 <- rng (draw_leg (among o [1; 3]));
           let mom4 := fourth (snd l1) mom2 (snd l3) in
           wor (make_all g [l1; (m12, mom2); l3; (fourth_mass mom4, mom4)]) ;;
           wor (make_sps [Sp false 0 true [3] 1 true; Sp false 1 true [3] 0 true; Sp false 0 true [2] 1 true; Sp false 1 true [2] 0 true;
                          Sp false 0 true [] 1 true; Sp true 0 true [] 1 true]) ;;
           let tol := (teps * tZ 1000000000)%ld in
           let four (v w : ST (store num) CX) := zero_check tol (cadds (cadds (cadds (v_of 0 v) (v_of 1 w)) (v_of 2 v)) (v_of 3 w)) in
           wor (if (o <? 2)%nat then
                  each (fun d => four (v2 (fst d) (snd d)) (v2 (snd d) (fst d))) [(-1, -1); (-1, 1); (1, -1); (1, 1)]%Z
                else each (fun _ => four v0 v0) [tt])).

  (** the loops for(i<100) for(o<n) *)
  Definition sp_test (n : nat) (pass : nat -> ST stream (list bool)) : ST stream (list bool) :=
    times 100 (fun _ => times n pass 0) 0.
End SpTests.
