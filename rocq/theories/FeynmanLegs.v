(** * Four fermions: the spinors of the model

    The two-component spinors of particles, as SpinorReal.v describes them, are complete and
    satisfy the Dirac equation. *)
From Coq Require Import Reals QArith Qreals String Lra Lia.
From Coquelicot Require Import Complex.
From Verif Require Import Base Scalar RealNum Linear Integers Particle Sproduct Propagator Process
  ParticleProofs SpecSpinor ParticleReal SpinorReal Ready ParticleClaims SpecSproduct SpecChain ChainReal Lorentz
  Lang Pure PureProofs Sym SymEq SMNames SMRun SMAmp2 SpinColour Poly Covariant SpinRot CovReal PropsQED Feynman FeynmanAlg.
Close Scope Q_scope.
Close Scope R_scope.
Open Scope nat_scope.

Definition pvec (q : vec4 R) (mu : nat) : R := match mu with 0 => v_0 q | 1 => v_1 q | 2 => v_2 q | _ => v_3 q end.
Section Legs.
  Variables (st : bool) (eps : R).
  Notation num := (RN st eps).
  Notation spinor q k := (rspinor st eps q k).
  Definition end2 (q : vec4 R) (b : option bool) : ends2 :=
    let r := spv st eps q RAngle (CovReal.spin_of b) in let l := spv st eps q LSquare (CovReal.spin_of b) in E2 (cv0 r) (cv1 r) (cv0 l) (cv1 l).
  Lemma leafc_two (q : nat -> vec4 R) angle a L b R :
    leafc st eps q angle a L [] b R = if angle then angle2 (end2 (q L) a) (end2 (q R) b) else square2 (end2 (q L) a) (end2 (q R) b).
  Proof.
    unfold leafc, zch, ends_of. cbn [map rmats apm fold_right length Nat.even fst snd].
    destruct angle; cbn [Bool.eqb]; unfold angle2, square2, end2; cbn [a0 a1 s0 s1].
    - generalize (spv st eps (q L) RAngle (CovReal.spin_of a)) (spv st eps (q R) RAngle (CovReal.spin_of b)). intros [] []. cbn. ring.
    - generalize (spv st eps (q L) LSquare (CovReal.spin_of a)) (spv st eps (q R) LSquare (CovReal.spin_of b)). intros [] []. cbn. ring.
  Qed.
  Lemma end2_massive q :
    let l := legv st eps q in
    end2 q (Some false) = E2 (u0 l) (u1 l) (Copp (Cconj (v0 l))) (Copp (Cconj (v1 l))) /\
    end2 q (Some true) = E2 (v0 l) (v1 l) (Cconj (u0 l)) (Cconj (u1 l)).
  Proof.
    assert (F1 : forall p, spinor p (LSquare, UpP1) = cv_conj (spinor p (RAngle, UpM1))) by (intros p; rewrite conj_upm1, lower_m1; reflexivity).
    assert (F2 : forall p, spinor p (LSquare, UpM1) = cv_opp (cv_conj (spinor p (RAngle, UpP1)))) by (intros p; rewrite conj_upp1, lower_p1; to_reals; ring).
    unfold end2, CovReal.spin_of, spv. cbn [kind_of Z.eqb]. rewrite F1, F2. split; reflexivity.
  Qed.
  Open Scope C_scope.
  Ltac conjs := rewrite ?conj_opp, ?conj_conj.
  Lemma massive_fits m q : (0 < m)%R -> on_shell m q -> (0 <= v_0 q)%R ->
    let es := [end2 q (Some false); end2 q (Some true)] in
    outer2 (pvec q) es /\ cross2 m es /\ dirac2 m (pvec q) (end2 q (Some false)) /\ dirac2 m (pvec q) (end2 q (Some true)).
  Proof.
    intros Hm HS HE es. destruct (leg_mom st eps m q HS HE) as (A00 & A11 & A01 & A10 & D & D').
    rewrite (Rabs_right m) in D, D' by lra. unfold es. destruct (end2_massive q) as [-> ->].
    generalize dependent (legv st eps q). intros l A00 A11 A01 A10 D D'. unfold P00, P01, P10, P11, dt, conjl in *. cbn [u0 u1 v0 v1] in *.
    assert (B00 : Cconj (u0 l) * u0 l + Cconj (v0 l) * v0 l = RtoC (pvec q 0 + pvec q 3)) by (etransitivity; [|exact A00]; ring).
    assert (B11 : Cconj (u1 l) * u1 l + Cconj (v1 l) * v1 l = RtoC (pvec q 0 - pvec q 3)) by (etransitivity; [|exact A11]; ring).
    change (v_1 q, v_2 q) with (pvec q 1%nat, pvec q 2%nat) in *. change (v_1 q, (- v_2 q)%R) with (pvec q 1%nat, (- pvec q 2%nat)%R) in *.
    change (v_0 q) with (pvec q 0%nat) in *. change (v_3 q) with (pvec q 3%nat) in *.
    repeat split.
    - destruct i, j; cbn [Csum ac P2 a0 a1]; (etransitivity; [|first [exact A00|exact A01|exact A10|exact A11]]); ring.
    - destruct i, j; cbn [Csum sc P2 s0 s1]; conjs; (etransitivity; [|first [exact A00|exact A01|exact A10|exact A11]]); ring.
    - intros i j. destruct i, j; cbn [Csum ac sc Bool.eqb a0 a1 s0 s1]; conjs; try ring; rewrite <- D; ring.
    - cbn [a0 a1 s0 s1]. rewrite <- A00, <- A01, <- D'. ring.
    - cbn [a0 a1 s0 s1]. rewrite <- A10, <- A11, <- D'. ring.
    - cbn [a0 a1 s0 s1]. rewrite <- A00, <- A10, <- D. ring.
    - cbn [a0 a1 s0 s1]. rewrite <- A01, <- A11, <- D. ring.
    - cbn [a0 a1 s0 s1]. rewrite <- A00, <- A01, <- D'. ring.
    - cbn [a0 a1 s0 s1]. rewrite <- A10, <- A11, <- D'. ring.
    - cbn [a0 a1 s0 s1]. rewrite <- A00, <- A10, <- D. ring.
    - cbn [a0 a1 s0 s1]. rewrite <- A01, <- A11, <- D. ring.
  Qed.
  Lemma massless_algebra p (x y : C) :
    x * Cconj x = RtoC (p 0%nat + p 3%nat) -> x * Cconj y = (p 1%nat, (- p 2%nat)%R) ->
    y * Cconj x = (p 1%nat, p 2%nat) -> y * Cconj y = RtoC (p 0%nat - p 3%nat) ->
    outer2 p [E2 x y (Cconj x) (Cconj y)] /\ dirac2 0 p (E2 x y (Cconj x) (Cconj y)).
  Proof.
    intros B00 B01 B10 B11. repeat split; cbn [a0 a1 s0 s1].
    - destruct i, j; cbn [Csum ac P2 a0 a1]; rewrite <- ?B00, <- ?B01, <- ?B10, <- ?B11; ring.
    - destruct i, j; cbn [Csum sc P2 s0 s1]; conjs; rewrite <- ?B00, <- ?B01, <- ?B10, <- ?B11; ring.
    - rewrite <- B00, <- B01. ring.
    - rewrite <- B10, <- B11. ring.
    - rewrite <- B00, <- B10. ring.
    - rewrite <- B01, <- B11. ring.
  Qed.
  Lemma massless_fits q : on_shell 0 q -> (0 <= v_0 q)%R -> outer2 (pvec q) [end2 q None] /\ dirac2 0 (pvec q) (end2 q None).
  Proof.
    intros HS HE. pose proof (massless_outer st eps q HS HE) as K.
    assert (F : spinor q (LSquare, M0) = cv_conj (spinor q (RAngle, M0))) by (to_reals; ring).
    unfold end2, CovReal.spin_of, spv. rewrite F in *. set (u := spinor q (RAngle, M0)) in *. clearbody u.
    pose proof (f_equal (fun M : cmatrix num => (m00 M : C)) K) as A00. pose proof (f_equal (fun M : cmatrix num => (m01 M : C)) K) as A01.
    pose proof (f_equal (fun M : cmatrix num => (m10 M : C)) K) as A10. pose proof (f_equal (fun M : cmatrix num => (m11 M : C)) K) as A11. clear K.
    destruct u as [x y]. exact (massless_algebra (pvec q) x y A00 A01 A10 A11).
  Qed.
End Legs.
