(** * Specification of the two-component spinor algebra

    Everything here speaks about matrices and vectors of complex numbers (over the
    exact reals) only; nothing refers to how the library computes a spinor.
    [I] and [J] are spin labels, twice the spin: +1 or -1.  [true] is an upper, [false]
    a lower spin index.  ra, la, ls, rs are |p>, <p|, [p| and |p]. *)
From Coq Require Import Reals.
From Coquelicot Require Import Complex.
From Verif Require Import Base Scalar Linear RealNum.
Open Scope R_scope.

Definition is_spin (I : Z) : Prop := I = 1%Z \/ I = (-1)%Z.

(** eps^{IJ}: +1 for (1,-1), -1 for (-1,1), 0 on the diagonal. *)
Definition eps_spin (I J : Z) : R :=
  if (I =? J)%Z then 0 else if (I >? J)%Z then 1 else -1.
Definition delta_spin (I J : Z) : R := if (I =? J)%Z then 1 else 0.

Section Spec.
  Variables (st : bool) (ep : R).
  Notation num := (RN st ep).
  Notation vec := (cvector num).
  Notation mat := (cmatrix num).

  Definition scalar_mat (x : R) : mat := @CM num (RtoC x) (RtoC 0) (RtoC 0) (RtoC x).

  (** One massive particle: mass [m] (the positive square root of p.p), p-lower [lo] and
      p-upper [up]. *)
  Record massive_algebra (m : R) (lo up : mat) (ra la ls rs : Z -> bool -> vec) : Prop := {
    (* completeness: |p>^I[p|_I = p, |p]_I<p|^I = p, |p>^I<p|_I = m, |p]^I[p|_I = -m, and
       the opposite index placement *)
    ma_sum1 : cm_add (outer (ra (-1)%Z true) (ls (-1)%Z false)) (outer (ra 1%Z true) (ls 1%Z false)) = lo;
    ma_sum2 : cm_add (outer (ra (-1)%Z false) (ls (-1)%Z true)) (outer (ra 1%Z false) (ls 1%Z true)) = cm_opp lo;
    ma_sum3 : cm_add (outer (rs (-1)%Z false) (la (-1)%Z true)) (outer (rs 1%Z false) (la 1%Z true)) = up;
    ma_sum4 : cm_add (outer (rs (-1)%Z true) (la (-1)%Z false)) (outer (rs 1%Z true) (la 1%Z false)) = cm_opp up;
    ma_sum5 : cm_add (outer (ra (-1)%Z true) (la (-1)%Z false)) (outer (ra 1%Z true) (la 1%Z false)) = scalar_mat m;
    ma_sum6 : cm_add (outer (ra (-1)%Z false) (la (-1)%Z true)) (outer (ra 1%Z false) (la 1%Z true)) = scalar_mat (- m);
    ma_sum7 : cm_add (outer (rs (-1)%Z true) (ls (-1)%Z false)) (outer (rs 1%Z true) (ls 1%Z false)) = scalar_mat (- m);
    ma_sum8 : cm_add (outer (rs (-1)%Z false) (ls (-1)%Z true)) (outer (rs 1%Z false) (ls 1%Z true)) = scalar_mat m;
    (* <pp> and [pp], all index placements *)
    ma_prod1 : forall I J, is_spin I -> is_spin J -> cv_dot (la I true) (ra J true) = RtoC (m * eps_spin I J);
    ma_prod2 : forall I J, is_spin I -> is_spin J -> cv_dot (la I false) (ra J false) = RtoC (m * eps_spin I J);
    ma_prod3 : forall I J, is_spin I -> is_spin J -> cv_dot (la I true) (ra J false) = RtoC (- m * delta_spin I J);
    ma_prod4 : forall I J, is_spin I -> is_spin J -> cv_dot (la I false) (ra J true) = RtoC (m * delta_spin I J);
    ma_prod5 : forall I J, is_spin I -> is_spin J -> cv_dot (ls I true) (rs J true) = RtoC (- m * eps_spin I J);
    ma_prod6 : forall I J, is_spin I -> is_spin J -> cv_dot (ls I false) (rs J false) = RtoC (- m * eps_spin I J);
    ma_prod7 : forall I J, is_spin I -> is_spin J -> cv_dot (ls I true) (rs J false) = RtoC (m * delta_spin I J);
    ma_prod8 : forall I J, is_spin I -> is_spin J -> cv_dot (ls I false) (rs J true) = RtoC (- m * delta_spin I J);
    (* the Dirac equation *)
    ma_dirac1 : forall I u, is_spin I -> cm_mul_cv up (ra I u) = cv_scale (num:=num) (RtoC (- m)) (rs I u);
    ma_dirac2 : forall I u, is_spin I -> cm_mul_cv lo (rs I u) = cv_scale (num:=num) (RtoC (- m)) (ra I u);
    ma_dirac3 : forall I u, is_spin I -> cv_mul_cm (la I u) lo = cv_scale (num:=num) (RtoC m) (ls I u);
    ma_dirac4 : forall I u, is_spin I -> cv_mul_cm (ls I u) up = cv_scale (num:=num) (RtoC m) (la I u);
    (* complex conjugation *)
    ma_conj1 : forall I, is_spin I -> cv_conj (ra I true) = ls I false;
    ma_conj2 : forall I, is_spin I -> cv_conj (ra I false) = cv_opp (ls I true);
    ma_conj3 : forall I, is_spin I -> cv_conj (la I true) = rs I false;
    ma_conj4 : forall I, is_spin I -> cv_conj (la I false) = cv_opp (rs I true);
    (* lowering an index: x_I = -I x^(-I) *)
    ma_low1 : forall I, is_spin I -> ra I false = cv_scale (num:=num) (RtoC (- IZR I)) (ra (- I)%Z true);
    ma_low2 : forall I, is_spin I -> la I false = cv_scale (num:=num) (RtoC (- IZR I)) (la (- I)%Z true);
    ma_low3 : forall I, is_spin I -> ls I false = cv_scale (num:=num) (RtoC (- IZR I)) (ls (- I)%Z true);
    ma_low4 : forall I, is_spin I -> rs I false = cv_scale (num:=num) (RtoC (- IZR I)) (rs (- I)%Z true)
  }.

  Definition zero_vec : vec := @CV num (RtoC 0) (RtoC 0).

  (** One massless particle. *)
  Record massless_algebra (lo up : mat) (ra la ls rs : vec) : Prop := {
    ml_outer1 : outer ra ls = lo;
    ml_outer2 : outer rs la = up;
    ml_dirac1 : cm_mul_cv up ra = zero_vec;
    ml_dirac2 : cm_mul_cv lo rs = zero_vec;
    ml_dirac3 : cv_mul_cm la lo = zero_vec;
    ml_dirac4 : cv_mul_cm ls up = zero_vec;
    ml_prod1 : cv_dot la ra = RtoC 0;
    ml_prod2 : cv_dot ls rs = RtoC 0;
    ml_conj1 : cv_conj ra = ls;
    ml_conj2 : cv_conj la = rs
  }.
End Spec.
