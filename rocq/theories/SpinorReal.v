(** * Spinor identities over the exact reals *)
From Coq Require Import Reals Lra Nsatz.
From Coquelicot Require Import Complex.
From Verif Require Import Base Scalar Linear Particle ParticleProofs RealNum SpecSpinor ParticleReal.
Open Scope R_scope.

Section SpinorReal.
  Variables (st : bool) (eps : R).
  Notation num := (RN st eps).
  Notation rmom := (vec4 R).
  Notation CVr := (@CV num).
  Notation CMr := (@CM num).
  Notation spinor := (rspinor st eps).
  Notation Umat q := (cmatrix_of_mom (num:=num) q true).
  Notation Lmat q := (cmatrix_of_mom (num:=num) q false).

  Lemma CV_ext (a b : cvector num) : cv0 a = cv0 b -> cv1 a = cv1 b -> a = b.
  Proof. destruct a, b; simpl; congruence. Qed.
  Lemma CM_ext (a b : cmatrix num) :
    m00 a = m00 b -> m01 a = m01 b -> m10 a = m10 b -> m11 a = m11 b -> a = b.
  Proof. destruct a, b; simpl; congruence. Qed.
  Lemma C_ext (a b : C) : fst a = fst b -> snd a = snd b -> a = b.
  Proof. destruct a, b; simpl; congruence. Qed.

  Definition Jv (v : cvector num) : cvector num := CVr (cv1 v) (Copp (cv0 v)).
  Definition adj (m : cmatrix num) : cmatrix num := CMr (m11 m) (Copp (m01 m)) (Copp (m10 m)) (m00 m).
  Definition tr_cm (m : cmatrix num) : cmatrix num := CMr (m00 m) (m10 m) (m01 m) (m11 m).
  Definition conj_cm (m : cmatrix num) : cmatrix num :=
    CMr (Cconj (m00 m)) (Cconj (m01 m)) (Cconj (m10 m)) (Cconj (m11 m)).
End SpinorReal.

(** Reduce an equation between vectors, matrices or complex numbers of the real
    instance to equations between real polynomials. *)
Ltac to_reals :=
  repeat match goal with
  | |- @eq (cvector _) _ _ => apply CV_ext
  | |- @eq (cmatrix _) _ _ => apply CM_ext
  | |- @eq (Scalar.CX _) _ _ => apply C_ext
  | |- @eq C _ _ => apply C_ext
  | |- @eq (R * R) _ _ => apply C_ext
  end;
  cbn -[Rplus Rmult Ropp Rminus Rdiv Rinv IZR hc hsx hsy rtp rtm Pmag];
  unfold Cmult, Cplus, Cminus, Copp, Cconj, RtoC;
  cbn -[Rplus Rmult Ropp Rminus Rdiv Rinv IZR hc hsx hsy rtp rtm Pmag].

(** Introduce the algebraic facts about the half-angle data of [q] and forget what
    the data are. *)
Ltac halfdata q H H0 :=
  let U := fresh "U" in let K1 := fresh "K" in let K2 := fresh "K" in let K3 := fresh "K" in
  let S1 := fresh "S" in let S2 := fresh "S" in let S3 := fresh "S" in
  pose proof (half_unit q) as U; pose proof (mom1_half q) as K1; pose proof (mom2_half q) as K2;
  pose proof (mom3_half q) as K3; pose proof (rtp_sq _ q H H0) as S1;
  pose proof (rtm_sq _ q H H0) as S2; pose proof (rtp_rtm _ q H H0) as S3;
  generalize dependent (hc q); intros ? U; intros; generalize dependent (hsx q); intros;
  generalize dependent (hsy q); intros; generalize dependent (rtp q); intros;
  generalize dependent (rtm q); intros; generalize dependent (Pmag q); intros.

Section Identities.
  Variables (st : bool) (eps : R).
  Notation num := (RN st eps).
  Notation rmom := (vec4 R).
  Notation CVr := (@CV num).
  Notation CMr := (@CM num).
  Notation spinor := (rspinor st eps).
  Notation Umat q := (cmatrix_of_mom (num:=num) q true).
  Notation Lmat q := (cmatrix_of_mom (num:=num) q false).
  Notation Jv := (Jv st eps).
  Notation adj := (adj st eps).

  Lemma umat_adj q : Umat q = adj (Lmat q).
  Proof. to_reals; ring. Qed.
  Lemma lmat_adj q : Lmat q = adj (Umat q).
  Proof. to_reals; ring. Qed.
  Lemma langle_J q k : spinor q (LAngle, k) = Jv (spinor q (RAngle, k)).
  Proof. destruct k; to_reals; ring. Qed.
  Lemma rsquare_J q k : spinor q (RSquare, k) = Jv (spinor q (LSquare, k)).
  Proof. destruct k; to_reals; ring. Qed.
  Lemma lower_m1 q d : spinor q (d, LoM1) = spinor q (d, UpP1).
  Proof. destruct d; reflexivity. Qed.
  Lemma lower_p1 q d : spinor q (d, LoP1) = cv_opp (spinor q (d, UpM1)).
  Proof. destruct d; to_reals; ring. Qed.
  Lemma conj_m0 q : cv_conj (spinor q (RAngle, M0)) = spinor q (LSquare, M0).
  Proof. to_reals; ring. Qed.
  Lemma conj_upm1 q : cv_conj (spinor q (RAngle, UpM1)) = spinor q (LSquare, LoM1).
  Proof. to_reals; ring. Qed.
  Lemma conj_upp1 q : cv_conj (spinor q (RAngle, UpP1)) = spinor q (LSquare, LoP1).
  Proof. to_reals; ring. Qed.

  (** Everything else about one particle reduces to the following facts. *)
  Lemma massive_outer m q : on_shell m q -> 0 <= v_0 q ->
    cm_add (outer (spinor q (RAngle, UpM1)) (spinor q (LSquare, UpP1)))
           (cm_opp (outer (spinor q (RAngle, UpP1)) (spinor q (LSquare, UpM1)))) = Lmat q.
  Proof. intros H H0. to_reals; halfdata q H H0; nsatz. Qed.
  Lemma massive_angle m q : on_shell m q -> 0 <= v_0 q ->
    cv_dot (spinor q (LAngle, UpP1)) (spinor q (RAngle, UpM1)) = RtoC (Rabs m).
  Proof. intros H H0. to_reals; halfdata q H H0; nsatz. Qed.
  Lemma massless_rtm q : on_shell 0 q -> 0 <= v_0 q -> rtm q = 0.
  Proof.
    intros H H0. pose proof (energy_ge_pmag 0 q H H0) as HE. pose proof (Pmag_nonneg q).
    unfold on_shell, minksq in H. pose proof (Pmag_sq q).
    assert (v_0 q = Pmag q). { apply Rsqr_inj; [lra|lra|]. unfold Rsqr. lra. }
    unfold rtm. replace (v_0 q - Pmag q) with 0 by lra. apply sqrt_0.
  Qed.
  Lemma massless_outer q : on_shell 0 q -> 0 <= v_0 q ->
    outer (spinor q (RAngle, M0)) (spinor q (LSquare, M0)) = Lmat q.
  Proof. intros H H0. pose proof (massless_rtm q H H0). to_reals; halfdata q H H0; nsatz. Qed.
End Identities.

Section Algebra.
  Variables (st : bool) (eps : R).
  Notation num := (RN st eps).
  Notation rmom := (vec4 R).
  Notation spinor := (rspinor st eps).
  Notation Umat q := (cmatrix_of_mom (num:=num) q true).
  Notation Lmat q := (cmatrix_of_mom (num:=num) q false).

  Definition rsp (q : rmom) (d : side) (I : Z) (u : bool) : cvector num := spinor q (d, kind_of I u).

  Lemma massless_algebra_real q : on_shell 0 q -> 0 <= v_0 q ->
    massless_algebra st eps (Lmat q) (Umat q) (spinor q (RAngle, M0)) (spinor q (LAngle, M0))
      (spinor q (LSquare, M0)) (spinor q (RSquare, M0)).
  Proof.
    intros H H0. pose proof (massless_rtm q H H0).
    constructor; to_reals; halfdata q H H0; nsatz.
  Qed.

  Lemma massive_algebra_real m q : on_shell m q -> 0 <= v_0 q ->
    massive_algebra st eps (Rabs m) (Lmat q) (Umat q) (rsp q RAngle) (rsp q LAngle)
      (rsp q LSquare) (rsp q RSquare).
  Proof.
    intros H H0. unfold rsp.
    constructor; try (intros I J [-> | ->] [-> | ->]); try (intros I [] [-> | ->]);
      try (intros I [-> | ->]); unfold eps_spin, delta_spin; cbn [kind_of Z.eqb Z.gtb Z.compare Pos.eqb Z.opp];
      to_reals; halfdata q H H0; generalize dependent (Rabs m); intros;
      try ring; nsatz.
  Qed.
End Algebra.
