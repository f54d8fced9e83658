(** * The centre-of-mass frame

    All momenta of a process 2 -> 2 come from the centre-of-mass frame of [BosonSpec] by a Lorentz
    transformation, but for those in which the particles fly along one line.  Used in proofs only. *)
From Coq Require Import Reals Lra Lia Nsatz.
From Coquelicot Require Import Complex.
From Verif Require Import Base Scalar RealNum Linear Particle ParticleReal ParticleProofs SpinorReal ParticleClaims SpecSproduct SpecChain ChainReal Lorentz PropsGluons PropsLorentz
  Feynman BosonSpec BosonFrame.
Open Scope R_scope.

(** the determinant of Gram: 0 if and only if the momenta are linearly dependent, that is if in the
    centre-of-mass frame the particles fly along one line *)
Definition gram3 (a b c : vec4 R) : R :=
  minkdot a a * (minkdot b b * minkdot c c - minkdot b c * minkdot b c) - minkdot a b * (minkdot a b * minkdot c c - minkdot b c * minkdot a c) +
  minkdot a c * (minkdot a b * minkdot b c - minkdot b b * minkdot a c).

Section CM.
  Variables (st : bool) (eps : R).
  Notation num := (RN st eps).
  Notation moved := (moved st eps).
  Notation detm := (detm st eps).
  Notation adj := (adj st eps).
  Definition cm_scaled (z : C) (A : cmatrix num) : cmatrix num := @CM num (Cmult z (m00 A)) (Cmult z (m01 A)) (Cmult z (m10 A)) (Cmult z (m11 A)).
  Lemma moved_back L q q' : detm L = RtoC 1 -> moved L q q' -> moved (adj L) q' q /\ detm (adj L) = RtoC 1.
  Proof.
    intros HD H. split; [|rewrite <- HD; unfold Lorentz.detm; to_reals; ring].
    unfold Lorentz.moved in *. rewrite H. unfold dag.
    assert (I : forall A, cm_mul (adj L) (cm_mul L A) = A).
    { intros A. transitivity (cm_scaled (detm L) A); [unfold cm_scaled, Lorentz.detm; to_reals; ring|]. rewrite HD. unfold cm_scaled. to_reals; ring. }
    assert (J : forall A, cm_mul (cm_mul A (dag st eps L)) (dag st eps (adj L)) = A).
    { intros A. transitivity (cm_scaled (Cconj (detm L)) A); [unfold cm_scaled, Lorentz.detm, dag; to_reals; ring|]. rewrite HD. unfold cm_scaled. to_reals; ring. }
    assert (AS : forall A B D : cmatrix num, cm_mul A (cm_mul B D) = cm_mul (cm_mul A B) D) by (intros; to_reals; ring).
    rewrite (AS (adj L)), I, J. reflexivity.
  Qed.
  (** rest frame of Q *)
  Lemma to_rest (Q : vec4 R) : 0 < minkdot Q Q -> 0 < v_0 Q -> exists L, detm L = RtoC 1 /\
    exists f : vec4 R -> vec4 R, (forall p, moved L p (f p)) /\ f Q = V4 (sqrt (minkdot Q Q)) 0 0 0 /\ (forall p p', f (vadd p p') = vadd (f p) (f p')).
  Proof.
    intros HS H0. set (w := sqrt (minkdot Q Q)). assert (W : w * w = minkdot Q Q) by (apply sqrt_sqrt; lra). assert (W0 : 0 < w) by (apply sqrt_lt_R0; exact HS).
    set (b := sqrt (/ (2 * w * (v_0 Q + w)))).
    assert (I : 0 < 2 * w * (v_0 Q + w)) by (apply Rmult_lt_0_compat; lra).
    assert (B : 2 * w * (v_0 Q + w) * (b * b) = 1).
    { unfold b. rewrite sqrt_sqrt; [field; split; lra|]. left. apply Rinv_0_lt_compat. exact I. }
    clearbody w b. clear HS H0 W0 I. destruct Q as [e x y z]. unfold minkdot in *. cbn [v_0 v_1 v_2 v_3] in *.
    exists (@CM num ((w + e) * b - b * z, 0) (- (b * x), b * y) (- (b * x), - (b * y)) ((w + e) * b + b * z, 0)). split.
    { unfold Lorentz.detm. to_reals; [nsatz|ring]. }
    exists (fun p => let p0 := 2 * (e + w) * (b * b) * (e * v_0 p - x * v_1 p - y * v_2 p - z * v_3 p) in let k := 2 * w * (b * b) * (v_0 p + p0) in
      V4 p0 (v_1 p - k * x) (v_2 p - k * y) (v_3 p - k * z)). split.
    - intros [p0 p1 p2 p3]. unfold Lorentz.moved, dag. cbn [v_0 v_1 v_2 v_3]. cbv zeta. to_reals; nsatz.
    - split; [cbn [v_0 v_1 v_2 v_3]; cbv zeta; f_equal; nsatz|]. intros p p'. unfold vadd. cbn [v_0 v_1 v_2 v_3]. cbv zeta. f_equal; ring.
  Qed.
  (** a momentum along z *)
  Lemma to_z (q : vec4 R) : exists L, detm L = RtoC 1 /\
    exists f : vec4 R -> vec4 R, (forall p, moved L p (f p)) /\ (forall p, v_0 (f p) = v_0 p) /\ f q = V4 (v_0 q) 0 0 (Pmag q) /\ (forall e, f (V4 e 0 0 0) = V4 e 0 0 0) /\
      (forall p p', f (vadd p p') = vadd (f p) (f p')).
  Proof.
    pose proof (mom1_half q) as A1. pose proof (mom2_half q) as A2. pose proof (mom3_half q) as A3. pose proof (hc_hs q) as U.
    assert (U' : hc q * hc q + hsx q * hsx q + hsy q * hsy q = 1).
    { unfold hsx, hsy. rewrite <- U. pose proof (sin2_cos2 (phi q)) as X. unfold Rsqr in X.
      replace (hs q * hs q) with (hs q * hs q * (sin (phi q) * sin (phi q) + cos (phi q) * cos (phi q))) by (rewrite X; ring). ring. }
    clear U. generalize dependent (hsy q). generalize dependent (hsx q). generalize dependent (hc q). generalize dependent (Pmag q). intros P c x A1' y. intros.
    exists (@CM num (c, 0) (x, - y) (- x, - y) (c, 0)). split; [unfold Lorentz.detm; to_reals; [lra|ring]|].
    exists (fun p => V4 (v_0 p) (c * c * v_1 p - (x * x - y * y) * v_1 p - 2 * x * y * v_2 p - 2 * c * x * v_3 p)
      (c * c * v_2 p - 2 * x * y * v_1 p + (x * x - y * y) * v_2 p - 2 * c * y * v_3 p) (v_3 p * (c * c - x * x - y * y) + 2 * c * (x * v_1 p + y * v_2 p))).
    split; [|split; [reflexivity|split]].
    - intros [p0 p1 p2 p3]. unfold Lorentz.moved, dag. cbn [v_0 v_1 v_2 v_3]. to_reals; nsatz.
    - destruct q as [q0 q1 q2 q3]. cbn [v_0 v_1 v_2 v_3] in *. f_equal; nsatz.
    - split; [intros e; cbn [v_0 v_1 v_2 v_3]; f_equal; ring|]. intros p p'. unfold vadd. cbn [v_0 v_1 v_2 v_3]. f_equal; ring.
  Qed.
  Lemma half_phase x y : x * x + y * y = 1 -> exists a b, a * a + b * b = 1 /\ a * a - b * b = x /\ 2 * a * b = y.
  Proof.
    intros H. destruct (Req_dec x (-1)) as [E|E].
    - exists 0, 1. assert (y * y = 0) by (rewrite E in H; lra). assert (y = 0) by nra. subst. repeat split; ring.
    - assert (0 < 1 + x) by nra. set (a := sqrt ((1 + x) / 2)). assert (A : a * a = (1 + x) / 2) by (apply sqrt_sqrt; lra). assert (0 < a) by (apply sqrt_lt_R0; lra).
      exists a, (y / (2 * a)). assert (B : y / (2 * a) * (y / (2 * a)) = (1 - x) / 2).
      { replace (y / (2 * a) * (y / (2 * a))) with (y * y / (4 * (a * a))) by (field; lra). rewrite A. replace (y * y) with ((1 - x) * (1 + x)) by lra. field. lra. }
      repeat split; try lra. field. lra.
  Qed.
  (** a momentum in the plane of x and z *)
  Lemma to_xz (q : vec4 R) : exists L, detm L = RtoC 1 /\
    exists f : vec4 R -> vec4 R, (forall p, moved L p (f p)) /\ (forall p, v_0 (f p) = v_0 p) /\ (forall e z, f (V4 e 0 0 z) = V4 e 0 0 z) /\
      f q = V4 (v_0 q) (sqrt (v_1 q * v_1 q + v_2 q * v_2 q)) 0 (v_3 q) /\ (forall p p', f (vadd p p') = vadd (f p) (f p')).
  Proof.
    set (r := sqrt (v_1 q * v_1 q + v_2 q * v_2 q)).
    assert (Rr : r * r = v_1 q * v_1 q + v_2 q * v_2 q) by (apply sqrt_sqrt; nra).
    assert (X : exists x y, x * x + y * y = 1 /\ v_1 q = r * x /\ v_2 q = r * y).
    { destruct (Req_dec r 0) as [E|E].
      - exists 1, 0. rewrite E in Rr. assert (v_1 q = 0) by nra. assert (v_2 q = 0) by nra. rewrite E. lra.
      - exists (v_1 q / r), (v_2 q / r). split; [|split; field; exact E]. replace (v_1 q / r * (v_1 q / r) + v_2 q / r * (v_2 q / r)) with ((v_1 q * v_1 q + v_2 q * v_2 q) / (r * r)) by (field; exact E).
        rewrite <- Rr. field. exact E. }
    destruct X as (x & y & H1 & H2 & H3). destruct (half_phase x y H1) as (a & b & K1 & K2 & K3).
    clearbody r. clear Rr.
    exists (@CM num (a, b) (0, 0) (0, 0) (a, - b)). split; [unfold Lorentz.detm; to_reals; [lra|ring]|].
    exists (fun p => V4 (v_0 p) (x * v_1 p + y * v_2 p) (x * v_2 p - y * v_1 p) (v_3 p)).
    split; [|split; [reflexivity|split]].
    - intros [p0 p1 p2 p3]. unfold Lorentz.moved, dag. cbn [v_0 v_1 v_2 v_3]. to_reals; nsatz.
    - intros e z. cbn [v_0 v_1 v_2 v_3]. f_equal; ring.
    - split; [destruct q as [q0 q1 q2 q3]; cbn [v_0 v_1 v_2 v_3] in *; f_equal; nsatz|]. intros p p'. unfold vadd. cbn [v_0 v_1 v_2 v_3]. f_equal; ring.
  Qed.

  Variable P : standard_model.
  Variable t : nat -> ptype.
  Theorem cm_frame (q : nat -> vec4 R) :
    (forall k, (k < 4)%nat -> on_shell (pmass P (t k)) (q k) /\ 0 <= v_0 (q k)) -> vadd (q 0%nat) (q 1%nat) = vadd (q 2%nat) (q 3%nat) ->
    0 < minkdot (vadd (q 0%nat) (q 1%nat)) (vadd (q 0%nat) (q 1%nat)) -> gram3 (q 0%nat) (q 1%nat) (q 2%nat) <> 0 ->
    exists L F, detm L = RtoC 1 /\ 0 < f_in F /\ 0 < f_out F /\ 0 < f_c F /\ 0 < f_s F /\ f_c F * f_c F + f_s F * f_s F = 1 /\
      cm_energy P t F 0 + cm_energy P t F 1 = cm_energy P t F 2 + cm_energy P t F 3 /\ forall k, (k < 4)%nat -> moved L (cm_q P t F k) (q k).
  Proof.
    intros HS HC Hs HG. set (Q := vadd (q 0%nat) (q 1%nat)) in *.
    assert (Q0 : 0 < v_0 Q).
    { assert (0 <= v_0 Q) by (unfold Q, vadd; cbn [v_0]; pose proof (proj2 (HS 0%nat ltac:(lia))); pose proof (proj2 (HS 1%nat ltac:(lia))); lra).
      unfold minkdot in Hs. destruct (Req_dec (v_0 Q) 0) as [E|E]; [|lra]. rewrite E in Hs. nra. }
    destruct (to_rest Q Hs Q0) as (L1 & D1 & f1 & M1 & R1 & A1). set (w := sqrt (minkdot Q Q)) in *.
    destruct (to_z (f1 (q 0%nat))) as (L2 & D2 & f2 & M2 & E2 & R2 & Z2 & A2). set (p := Pmag (f1 (q 0%nat))) in *.
    destruct (to_xz (f2 (f1 (q 2%nat)))) as (L3 & D3 & f3 & M3 & E3 & Z3 & R3 & A3). set (r := sqrt (v_1 (f2 (f1 (q 2%nat))) * v_1 (f2 (f1 (q 2%nat))) + v_2 (f2 (f1 (q 2%nat))) * v_2 (f2 (f1 (q 2%nat))))) in *.
    set (g := fun x => f3 (f2 (f1 x))). set (M := cm_mul L3 (cm_mul L2 L1)).
    assert (MG : forall x, moved M x (g x)) by (intros x; apply (moved_two st eps _ L3 x (f2 (f1 x))); [apply (moved_two st eps L1 L2 x (f1 x)); auto|apply M3]).
    assert (DM : detm M = RtoC 1) by (unfold M; rewrite !detm_mul, D1, D2, D3; ring).
    assert (AG : forall x y, g (vadd x y) = vadd (g x) (g y)) by (intros; unfold g; rewrite A1, A2, A3; reflexivity).
    assert (GQ : g Q = V4 w 0 0 0) by (unfold g; rewrite R1, Z2, Z3; reflexivity).
    assert (G0 : g (q 0%nat) = V4 (v_0 (f1 (q 0%nat))) 0 0 p) by (unfold g; rewrite R2, Z3; reflexivity).
    set (e0 := v_0 (f1 (q 0%nat))) in *.
    assert (G2 : exists e2 z, g (q 2%nat) = V4 e2 r 0 z) by (unfold g; rewrite R3; eauto). destruct G2 as (e2 & z & G2).
    assert (G1 : g (q 1%nat) = V4 (w - e0) 0 0 (- p)).
    { pose proof (AG (q 0%nat) (q 1%nat)) as X. fold Q in X. rewrite GQ, G0 in X. destruct (g (q 1%nat)) as [a b c d]. unfold vadd in X. cbn [v_0 v_1 v_2 v_3] in X. injection X as X0 X1 X2 X3. f_equal; lra. }
    assert (G3 : g (q 3%nat) = V4 (w - e2) (- r) 0 (- z)).
    { pose proof (AG (q 2%nat) (q 3%nat)) as X. rewrite <- HC, GQ, G2 in X. destruct (g (q 3%nat)) as [a b c d]. unfold vadd in X. cbn [v_0 v_1 v_2 v_3] in X. injection X as X0 X1 X2 X3. f_equal; lra. }
    assert (SH : forall k, (k < 4)%nat -> minkdot (g (q k)) (g (q k)) = pmass P (t k) * pmass P (t k) /\ 0 <= v_0 (g (q k))).
    { intros k Hk. destruct (HS k Hk) as [S1 S2]. split; [etransitivity; [exact (moved_dot st eps M DM _ _ _ _ (MG _) (MG _))|exact S1]|].
      exact (moved_energy st eps M _ _ _ S1 S2 (MG _)). }
    destruct (SH 0%nat ltac:(lia)) as [S0 T0]. destruct (SH 1%nat ltac:(lia)) as [S1 T1]. destruct (SH 2%nat ltac:(lia)) as [S2 T2]. destruct (SH 3%nat ltac:(lia)) as [S3 T3].
    rewrite G0 in S0, T0. rewrite G1 in S1, T1. rewrite G2 in S2, T2. rewrite G3 in S3, T3. unfold minkdot in S0, S1, S2, S3. cbn [v_0 v_1 v_2 v_3] in *.
    assert (HG' : gram3 (g (q 0%nat)) (g (q 1%nat)) (g (q 2%nat)) <> 0).
    { unfold gram3. rewrite !(moved_dot st eps M DM _ _ _ _ (MG _) (MG _)). exact HG. }
    rewrite G0, G1, G2 in HG'. 
    assert (W0 : 0 < w) by (apply sqrt_lt_R0; exact Hs).
    assert (GV : gram3 (V4 e0 0 0 p) (V4 (w - e0) 0 0 (- p)) (V4 e2 r 0 z) = r * r * (p * p) * (w * w)) by (unfold gram3, minkdot; cbn [v_0 v_1 v_2 v_3]; ring).
    rewrite GV in HG'.
    assert (P0 : 0 < p). { assert (0 <= p) by apply Pmag_nonneg. destruct (Req_dec p 0) as [E|E]; [|lra]. exfalso. apply HG'. rewrite E. ring. }
    assert (Rr : 0 < r). { assert (0 <= r) by apply sqrt_pos. destruct (Req_dec r 0) as [E|E]; [|lra]. exfalso. apply HG'. rewrite E. ring. }
    set (f := sqrt (r * r + z * z)). assert (Ff : f * f = r * r + z * z) by (apply sqrt_sqrt; nra). assert (F0 : 0 < f) by (apply sqrt_lt_R0; nra).
    assert (Zf : - f < z < f) by (split; nra).
    set (x := z / f). assert (X : -1 < x < 1).
    { unfold x. split; apply (Rmult_lt_reg_r f); try exact F0; unfold Rdiv; rewrite Rmult_assoc, Rinv_l by lra; lra. }
    assert (XZ : f * x = z) by (unfold x; field; lra).
    set (c := sqrt ((1 + x) / 2)). set (s := sqrt ((1 - x) / 2)). assert (C2 : c * c = (1 + x) / 2) by (apply sqrt_sqrt; lra). assert (S2' : s * s = (1 - x) / 2) by (apply sqrt_sqrt; lra).
    assert (C0 : 0 < c) by (apply sqrt_lt_R0; lra). assert (SS0 : 0 < s) by (apply sqrt_lt_R0; lra).
    assert (CS : f * (2 * c * s) = r).
    { apply Rsqr_inj; [|lra|]; [assert (0 < c * s) by (apply Rmult_lt_0_compat; assumption); nra|]. unfold Rsqr.
      replace (f * (2 * c * s) * (f * (2 * c * s))) with (4 * (f * f) * (c * c) * (s * s)) by ring. rewrite C2, S2'. replace (4 * (f * f) * ((1 + x) / 2) * ((1 - x) / 2)) with (f * f - (f * x) * (f * x)) by field. rewrite XZ, Ff. ring. }
    exists (adj M), (mkFrame p f c s). destruct (moved_back M Q (g Q) DM (MG Q)) as [_ DA]. split; [exact DA|]. cbn [f_in f_out f_c f_s]. do 4 (split; [assumption|]). split; [lra|].
    set (F := mkFrame p f c s).
    assert (EN : forall k e, 0 <= e -> e * e = pmass P (t k) * pmass P (t k) + cm_p F k * cm_p F k -> cm_energy P t F k = e).
    { intros k e H0 H1. unfold cm_energy. rewrite <- H1. rewrite sqrt_square; [reflexivity|exact H0]. }
    assert (N0 : cm_energy P t F 0 = e0) by (apply EN; [lra|cbn; lra]).
    assert (N1 : cm_energy P t F 1 = w - e0) by (apply EN; [lra|cbn; lra]).
    assert (N2 : cm_energy P t F 2 = e2) by (apply EN; [lra|cbn; lra]).
    assert (N3 : cm_energy P t F 3 = w - e2) by (apply EN; [lra|cbn; lra]).
    split; [rewrite N0, N1, N2, N3; ring|].
    assert (GG : forall k, (k < 4)%nat -> cm_q P t F k = g (q k)).
    { intros [|[|[|[|k]]]] Hk; [| | | |lia]; unfold cm_q, cm_mom; [rewrite N0, G0|rewrite N1, G1|rewrite N2, G2|rewrite N3, G3]; cbn [cm_c cm_s cm_p f_in f_out f_c f_s F Nat.ltb Nat.leb]; f_equal; nra. }
    intros k Hk. rewrite (GG k Hk). exact (proj1 (moved_back M _ _ DM (MG (q k)))).
  Qed.
End CM.
