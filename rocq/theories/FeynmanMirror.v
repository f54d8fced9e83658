(** * Reflections of four momenta

    Conserved momenta of four particles lie in a space of three dimensions: a Lorentz
    transformation without reflections takes them to their mirror images. *)
From Coq Require Import Reals Lra Lia Psatz Nsatz.
From Coquelicot Require Import Complex.
From Verif Require Import Base Scalar RealNum Linear Integers Particle ParticleProofs SpecSpinor ParticleReal SpinorReal Ready SpecSproduct SpecChain ChainReal Lorentz PropsGluons.
Open Scope R_scope.

Definition flip (q : vec4 R) : vec4 R := V4 (v_0 q) (- v_1 q) (- v_2 q) (- v_3 q).
Definition mdot (n q : vec4 R) : R := v_0 n * v_0 q - v_1 n * v_1 q - v_2 n * v_2 q - v_3 n * v_3 q.
(** the transformation: the reflection at n, then the mirror *)
Definition turn st eps (n : vec4 R) : cmatrix (RN st eps) :=
  CM (num:=RN st eps) (0, - (v_0 n - v_3 n)) (v_2 n, v_1 n) (- v_2 n, v_1 n) (0, - (v_0 n + v_3 n)).
Lemma turn_det st eps n : mdot n n = -1 -> detm st eps (turn st eps n) = RtoC 1.
Proof.
  intros H. unfold detm, turn. cbn [m00 m01 m10 m11]. unfold Cminus, Cplus, Copp, Cmult, RtoC. cbn [fst snd]. unfold mdot in H.
  apply (f_equal2 pair); lra.
Qed.
Lemma turn_moved st eps n q : mdot n n = -1 -> mdot n q = 0 -> moved st eps (turn st eps n) q (flip q).
Proof.
  intros H H0. destruct n as [n0 n1 n2 n3], q as [q0 q1 q2 q3]. unfold mdot in *. cbn [v_0 v_1 v_2 v_3] in *.
  unfold moved, turn, flip. to_reals; nsatz.
Qed.
Lemma squares_zero x y z : x * x + y * y + z * z = 0 -> x = 0 /\ y = 0 /\ z = 0.
Proof. intros H. repeat split; nra. Qed.
Lemma perp1 a1 a2 a3 : exists n1 n2 n3, 0 < n1 * n1 + n2 * n2 + n3 * n3 /\ n1 * a1 + n2 * a2 + n3 * a3 = 0.
Proof.
  destruct (Req_dec a1 0) as [E1|N1].
  - exists 1, 0, 0. split; [lra|rewrite E1; ring].
  - exists (- a2), a1, 0. split; [|ring]. pose proof (Rle_0_sqr a2) as X. unfold Rsqr in X. assert (0 < a1 * a1) by nra. lra.
Qed.
Lemma perp2 a1 a2 a3 b1 b2 b3 :
  exists n1 n2 n3, 0 < n1 * n1 + n2 * n2 + n3 * n3 /\ n1 * a1 + n2 * a2 + n3 * a3 = 0 /\ n1 * b1 + n2 * b2 + n3 * b3 = 0.
Proof.
  set (c1 := a2 * b3 - a3 * b2). set (c2 := a3 * b1 - a1 * b3). set (c3 := a1 * b2 - a2 * b1).
  assert (SQ : forall x y z : R, 0 <= x * x + y * y + z * z) by (intros; nra).
  destruct (Rle_lt_dec (c1 * c1 + c2 * c2 + c3 * c3) 0) as [HC|HC].
  2: { exists c1, c2, c3. split; [exact HC|]. unfold c1, c2, c3. split; ring. }
  assert (C1 : c1 = 0) by nra. assert (C2 : c2 = 0) by nra. assert (C3 : c3 = 0) by nra.
  destruct (Rle_lt_dec (a1 * a1 + a2 * a2 + a3 * a3) 0) as [HA|HA].
  - assert (A1 : a1 = 0) by nra. assert (A2 : a2 = 0) by nra. assert (A3 : a3 = 0) by nra.
    destruct (perp1 b1 b2 b3) as (n1 & n2 & n3 & H1 & H2). exists n1, n2, n3. split; [exact H1|]. split; [rewrite A1, A2, A3; ring|exact H2].
  - destruct (perp1 a1 a2 a3) as (n1 & n2 & n3 & H1 & H2). exists n1, n2, n3. split; [exact H1|]. split; [exact H2|].
    assert (K : (a1 * a1 + a2 * a2 + a3 * a3) * (n1 * b1 + n2 * b2 + n3 * b3) =
      (a1 * b1 + a2 * b2 + a3 * b3) * (n1 * a1 + n2 * a2 + n3 * a3) + (a2 * n3 - a3 * n2) * c1 + (a3 * n1 - a1 * n3) * c2 + (a1 * n2 - a2 * n1) * c3)
      by (unfold c1, c2, c3; ring).
    rewrite H2, C1, C2, C3 in K.
    destruct (Rmult_integral (a1 * a1 + a2 * a2 + a3 * a3) (n1 * b1 + n2 * b2 + n3 * b3)) as [X|X]; [rewrite K; ring|lra|exact X].
Qed.
Lemma cauchy3 x1 x2 x3 y1 y2 y3 : (x1 * y1 + x2 * y2 + x3 * y3) * (x1 * y1 + x2 * y2 + x3 * y3) <= (x1 * x1 + x2 * x2 + x3 * x3) * (y1 * y1 + y2 * y2 + y3 * y3).
Proof.
  assert (K : (x1 * x1 + x2 * x2 + x3 * x3) * (y1 * y1 + y2 * y2 + y3 * y3) - (x1 * y1 + x2 * y2 + x3 * y3) * (x1 * y1 + x2 * y2 + x3 * y3) =
    (x1 * y2 - x2 * y1) * (x1 * y2 - x2 * y1) + (x1 * y3 - x3 * y1) * (x1 * y3 - x3 * y1) + (x2 * y3 - x3 * y2) * (x2 * y3 - x3 * y2)) by ring.
  pose proof (Rle_0_sqr (x1 * y2 - x2 * y1)). pose proof (Rle_0_sqr (x1 * y3 - x3 * y1)). pose proof (Rle_0_sqr (x2 * y3 - x3 * y2)). unfold Rsqr in *. lra.
Qed.
(** two vectors of the forward cone *)
Lemma forward_dot p q : 0 <= v_0 p -> 0 <= v_0 q -> 0 <= mdot p p -> 0 <= mdot q q -> 0 <= mdot p q.
Proof.
  destruct p as [p0 p1 p2 p3], q as [q0 q1 q2 q3]. unfold mdot. cbn [v_0 v_1 v_2 v_3]. intros H1 H2 H3 H4.
  pose proof (cauchy3 p1 p2 p3 q1 q2 q3) as K. set (d := p1 * q1 + p2 * q2 + p3 * q3) in *.
  assert (B : (p1 * p1 + p2 * p2 + p3 * p3) * (q1 * q1 + q2 * q2 + q3 * q3) <= (p0 * p0) * (q0 * q0)) by (apply Rmult_le_compat; nra).
  assert (0 <= p0 * q0) by (apply Rmult_le_pos; assumption).
  assert (d * d <= (p0 * q0) * (p0 * q0)) by lra.
  assert (d <= p0 * q0) by nra. unfold d in *. lra.
Qed.
Lemma normal_vector q1 q2 q3 q4 :
  0 <= mdot q1 q1 -> 0 <= mdot q2 q2 -> 0 <= mdot q3 q3 -> 0 <= mdot q4 q4 ->
  0 <= v_0 q1 -> 0 <= v_0 q2 -> 0 <= v_0 q3 -> 0 <= v_0 q4 -> vadd q1 q2 = vadd q3 q4 ->
  exists n, mdot n n = -1 /\ mdot n q1 = 0 /\ mdot n q2 = 0 /\ mdot n q3 = 0 /\ mdot n q4 = 0.
Proof.
  intros S1 S2 S3 S4 E1 E2 E3 E4 HC. pose proof (forward_dot q1 q2 E1 E2 S1 S2) as D12. pose proof (forward_dot q3 q4 E3 E4 S3 S4) as D34.
  set (p := vadd q1 q2) in *.
  assert (PP : mdot p p = mdot q1 q1 + mdot q2 q2 + 2 * mdot q1 q2) by (unfold p, vadd, mdot; cbn [v_0 v_1 v_2 v_3]; ring).
  assert (PP' : mdot p p = mdot q3 q3 + mdot q4 q4 + 2 * mdot q3 q4) by (rewrite HC; unfold vadd, mdot; cbn [v_0 v_1 v_2 v_3]; ring).
  assert (L2 : forall n, mdot n q2 = mdot n p - mdot n q1) by (intros; unfold p, vadd, mdot; cbn [v_0 v_1 v_2 v_3]; ring).
  assert (L4 : forall n, mdot n q4 = mdot n p - mdot n q3) by (intros; rewrite HC; unfold vadd, mdot; cbn [v_0 v_1 v_2 v_3]; ring).
  assert (Q1 : mdot q1 p = mdot q1 q1 + mdot q1 q2) by (unfold p, vadd, mdot; cbn [v_0 v_1 v_2 v_3]; ring).
  assert (Q3 : mdot q3 p = mdot q3 q3 + mdot q3 q4) by (rewrite HC; unfold vadd, mdot; cbn [v_0 v_1 v_2 v_3]; ring).
  assert (E1' : v_0 q1 <= v_0 p) by (unfold p, vadd; cbn [v_0]; lra). assert (E3' : v_0 q3 <= v_0 p) by (rewrite HC; unfold vadd; cbn [v_0]; lra).
  (* it is enough to find a vector orthogonal to p, q1 and q3 *)
  assert (G : exists n, mdot n n < 0 /\ mdot n p = 0 /\ mdot n q1 = 0 /\ mdot n q3 = 0).
  2: { destruct G as (n & N & G0 & G1 & G3). set (r := sqrt (- mdot n n)).
    assert (R2 : r * r = - mdot n n) by (apply sqrt_sqrt; lra). assert (RP : 0 < r) by (apply sqrt_lt_R0; lra).
    set (n' := V4 (v_0 n / r) (v_1 n / r) (v_2 n / r) (v_3 n / r)).
    assert (LN : forall q, mdot n' q = mdot n q / r) by (intros; unfold n', mdot; cbn [v_0 v_1 v_2 v_3]; field; lra).
    exists n'. split; [|rewrite !LN, L2, L4, G0, G1, G3; repeat split; field; lra].
    assert (X : mdot n' n' = mdot n n / (r * r)) by (unfold n', mdot; cbn [v_0 v_1 v_2 v_3]; field; lra).
    rewrite X, R2. field. lra. }
  clear L2 L4. clearbody p. destruct (Rle_lt_dec (v_0 p) 0) as [HP|HP].
  - (* everything vanishes *)
    assert (Z : forall q, 0 <= v_0 q -> v_0 q <= v_0 p -> 0 <= mdot q q -> q = V4 0 0 0 0).
    { intros [x0 x1 x2 x3]. unfold mdot. cbn [v_0 v_1 v_2 v_3]. intros A B D. assert (X0 : x0 = 0) by lra. subst x0.
      assert (X1 : x1 = 0) by nra. assert (X2 : x2 = 0) by nra. assert (X3 : x3 = 0) by nra. subst. reflexivity. }
    assert (P0 : 0 <= v_0 p) by lra.
    exists (V4 0 1 0 0). rewrite (Z p P0 (Rle_refl _)) by lra. rewrite (Z q1 E1 E1' S1), (Z q3 E3 E3' S3). unfold mdot. cbn [v_0 v_1 v_2 v_3]. repeat split; lra.
  - destruct (Rle_lt_dec (mdot p p) 0) as [HN|HN].
    + (* everything along one light ray *)
      assert (N0 : mdot p p = 0) by lra.
      destruct (perp1 (v_1 p) (v_2 p) (v_3 p)) as (n1 & n2 & n3 & H1 & H2). exists (V4 0 n1 n2 n3).
      assert (RAY : forall q, mdot q q = 0 -> mdot q p = 0 -> mdot (V4 0 n1 n2 n3) q = 0).
      { intros [x0 x1 x2 x3]. destruct p as [p0 p1 p2 p3]. unfold mdot in *. cbn [v_0 v_1 v_2 v_3] in *. intros A B.
        assert (K : (p0 * x1 - x0 * p1) * (p0 * x1 - x0 * p1) + (p0 * x2 - x0 * p2) * (p0 * x2 - x0 * p2) + (p0 * x3 - x0 * p3) * (p0 * x3 - x0 * p3) = 0).
        { transitivity (- (p0 * p0) * (x0 * x0 - x1 * x1 - x2 * x2 - x3 * x3) - (x0 * x0) * (p0 * p0 - p1 * p1 - p2 * p2 - p3 * p3) + 2 * p0 * x0 * (x0 * p0 - x1 * p1 - x2 * p2 - x3 * p3)); [ring|].
          rewrite A, B, N0. ring. }
        destruct (squares_zero _ _ _ K) as (K1 & K2 & K3).
        assert (M : p0 * (n1 * x1 + n2 * x2 + n3 * x3) = 0).
        { replace (p0 * (n1 * x1 + n2 * x2 + n3 * x3)) with (n1 * (p0 * x1 - x0 * p1) + n2 * (p0 * x2 - x0 * p2) + n3 * (p0 * x3 - x0 * p3) + x0 * (n1 * p1 + n2 * p2 + n3 * p3)) by ring.
          rewrite K1, K2, K3, H2. ring. }
        destruct (Rmult_integral _ _ M) as [X|X]; lra. }
      split; [unfold mdot; cbn [v_0 v_1 v_2 v_3]; lra|]. split; [|split; apply RAY; lra].
      unfold mdot. cbn [v_0 v_1 v_2 v_3]. lra.
    + (* the general case *)
      destruct (perp2 (v_1 q1 - v_0 q1 / v_0 p * v_1 p) (v_2 q1 - v_0 q1 / v_0 p * v_2 p) (v_3 q1 - v_0 q1 / v_0 p * v_3 p)
                      (v_1 q3 - v_0 q3 / v_0 p * v_1 p) (v_2 q3 - v_0 q3 / v_0 p * v_2 p) (v_3 q3 - v_0 q3 / v_0 p * v_3 p)) as (n1 & n2 & n3 & H1 & H2 & H3).
      exists (V4 ((n1 * v_1 p + n2 * v_2 p + n3 * v_3 p) / v_0 p) n1 n2 n3). clear -HP HN H1 H2 H3.
      destruct p as [p0 p1 p2 p3], q1 as [x0 x1 x2 x3], q3 as [y0 y1 y2 y3]. unfold mdot in *. cbn [v_0 v_1 v_2 v_3] in *.
      split; [|repeat split].
      * pose proof (cauchy3 n1 n2 n3 p1 p2 p3) as K. set (d := n1 * p1 + n2 * p2 + n3 * p3) in *.
        assert (X : d / p0 * (d / p0) = (d * d) / (p0 * p0)) by (field; lra). rewrite X.
        assert (PQ : 0 < p0 * p0) by nra.
        assert (Y : d * d < (n1 * n1 + n2 * n2 + n3 * n3) * (p0 * p0)).
        { eapply Rle_lt_trans; [exact K|]. apply Rmult_lt_compat_l; lra. }
        apply Rmult_lt_reg_r with (p0 * p0); [exact PQ|].
        replace ((d * d / (p0 * p0) - n1 * n1 - n2 * n2 - n3 * n3) * (p0 * p0)) with (d * d - (n1 * n1 + n2 * n2 + n3 * n3) * (p0 * p0)) by (field; lra). lra.
      * field. lra.
      * replace ((n1 * p1 + n2 * p2 + n3 * p3) / p0 * x0 - n1 * x1 - n2 * x2 - n3 * x3) with
          (- (n1 * (x1 - x0 / p0 * p1) + n2 * (x2 - x0 / p0 * p2) + n3 * (x3 - x0 / p0 * p3))) by (field; lra). rewrite H2. ring.
      * replace ((n1 * p1 + n2 * p2 + n3 * p3) / p0 * y0 - n1 * y1 - n2 * y2 - n3 * y3) with
          (- (n1 * (y1 - y0 / p0 * p1) + n2 * (y2 - y0 / p0 * p2) + n3 * (y3 - y0 / p0 * p3))) by (field; lra). rewrite H3. ring.
Qed.
Theorem mirrored_by_turn st eps m1 m2 m3 m4 q1 q2 q3 q4 :
  on_shell m1 q1 -> on_shell m2 q2 -> on_shell m3 q3 -> on_shell m4 q4 ->
  0 <= v_0 q1 -> 0 <= v_0 q2 -> 0 <= v_0 q3 -> 0 <= v_0 q4 -> vadd q1 q2 = vadd q3 q4 ->
  exists L, detm st eps L = RtoC 1 /\
    moved st eps L q1 (flip q1) /\ moved st eps L q2 (flip q2) /\ moved st eps L q3 (flip q3) /\ moved st eps L q4 (flip q4).
Proof.
  assert (K : forall m q, on_shell m q -> 0 <= mdot q q).
  { intros m q H. unfold on_shell, minksq in H. unfold mdot. assert (0 <= m * m) by (pose proof (Rle_0_sqr m) as X; exact X). lra. }
  intros S1 S2 S3 S4 E1 E2 E3 E4 HC.
  destruct (normal_vector q1 q2 q3 q4 (K _ _ S1) (K _ _ S2) (K _ _ S3) (K _ _ S4) E1 E2 E3 E4 HC) as (n & N & N1 & N2 & N3 & N4).
  exists (turn st eps n). split; [exact (turn_det st eps n N)|]. repeat split; apply turn_moved; assumption.
Qed.
