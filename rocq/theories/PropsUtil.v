(** * Properties C26-C28, C30-C32: kinematics *)
From Coq Require Import Reals Lra Nsatz QArith Qreals.
From Coquelicot Require Import Complex.
From Verif Require Import Base Scalar Utilities Harness Propagator Particle RealNum ParticleReal Ready ParticleClaims UtilReal.
Close Scope Q_scope.
Open Scope R_scope.

Definition unit3 (u : vec3 R) : Prop := x_0 u * x_0 u + x_1 u * x_1 u + x_2 u * x_2 u = 1.
(** the Minkowski product, metric (+,-,-,-) *)
Definition mdot (p q : vec4 R) : R := v_0 p * v_0 q - v_1 p * v_1 q - v_2 p * v_2 q - v_3 p * v_3 q.
Definition plus4 (p q : vec4 R) : vec4 R := V4 (v_0 p + v_0 q) (v_1 p + v_1 q) (v_2 p + v_2 q) (v_3 p + v_3 q).
Definition times4 (a : R) (p : vec4 R) : vec4 R := V4 (a * v_0 p) (a * v_1 p) (a * v_2 p) (a * v_3 p).

(** ** C26 *)
Theorem C26_rotation_preserves :
  forall st eps (u : vec3 R) (theta : R), unit3 u ->
  let rot p := rotate_momentum (num:=RN st eps) p u theta in
  forall p q : vec4 R,
    v_0 (rot p) = v_0 p /\
    mdot (rot p) (rot q) = mdot p q /\
    (forall e a, let axis := V4 e (a * x_0 u) (a * x_1 u) (a * x_2 u) in rot axis = axis) /\
    rot (plus4 p q) = plus4 (rot p) (rot q) /\
    (forall a, rot (times4 a p) = times4 a (rot p)).
Proof.
  intros st eps u theta Hu rot p q. split; [|split; [|split; [|split]]].
  - unfold rot. rewrite rotate_unfold. reflexivity.
  - unfold rot. change mdot with minkdot. apply rotate_dot. exact Hu.
  - intros e a axis. unfold rot. rewrite rotate_unfold. unfold axis, rodrigues, sp3, dot3. cbn [x_0 x_1 x_2 v_0 v_1 v_2 v_3].
    generalize (sqrt (1 - cos theta * cos theta)). unfold unit3 in Hu.
    assert (S : x_2 u * x_2 u = 1 - x_0 u * x_0 u - x_1 u * x_1 u) by lra.
    intros s. cbv zeta. f_equal.
    + replace (x_0 u * (a * x_0 u) + x_1 u * (a * x_1 u) + x_2 u * (a * x_2 u)) with a by (replace a with (a * 1) at 1 by ring; rewrite <- Hu; ring). ring.
    + replace (x_0 u * (a * x_0 u) + x_1 u * (a * x_1 u) + x_2 u * (a * x_2 u)) with a by (replace a with (a * 1) at 1 by ring; rewrite <- Hu; ring). ring.
    + replace (x_0 u * (a * x_0 u) + x_1 u * (a * x_1 u) + x_2 u * (a * x_2 u)) with a by (replace a with (a * 1) at 1 by ring; rewrite <- Hu; ring). ring.
  - unfold rot. rewrite !rotate_unfold. unfold plus4, rodrigues, sp3, dot3. cbn [x_0 x_1 x_2 v_0 v_1 v_2 v_3]. cbv zeta. f_equal; ring.
  - intros a. unfold rot. rewrite !rotate_unfold. unfold times4, rodrigues, sp3, dot3. cbn [x_0 x_1 x_2 v_0 v_1 v_2 v_3]. cbv zeta. f_equal; ring.
Qed.
Print Assumptions C26_rotation_preserves.
(** unit axis (3/5,4/5,0) *)
Example C26_example : unit3 (V3 (3/5) (4/5) 0).
Proof. unfold unit3. cbn. lra. Qed.

(** ** C27 *)
(** The rotation of x by the angle theta about the unit axis u (Rodrigues' formula). *)
Definition rotated (u : vec3 R) (theta : R) (x : vec3 R) : vec3 R :=
  let ux := x_0 u * x_0 x + x_1 u * x_1 x + x_2 u * x_2 x in
  V3 (cos theta * x_0 x + sin theta * (x_1 u * x_2 x - x_2 u * x_1 x) + (1 - cos theta) * ux * x_0 u)
     (cos theta * x_1 x + sin theta * (x_2 u * x_0 x - x_0 u * x_2 x) + (1 - cos theta) * ux * x_1 u)
     (cos theta * x_2 x + sin theta * (x_0 u * x_1 x - x_1 u * x_0 x) + (1 - cos theta) * ux * x_2 u).
(** False: the sine is taken as the positive root, so angles in the other half of the
    circle turn the wrong way.  The angles the harness draws go up to 2 pi. *)
Theorem C27_rotation_angle_refuted :
  forall st eps, exists (u : vec3 R) (theta : R) (p : vec4 R),
    unit3 u /\ 0 < theta < 2 * PI /\
    let p' := rotate_momentum (num:=RN st eps) p u theta in
    V3 (v_1 p') (v_2 p') (v_3 p') <> rotated u theta (V3 (v_1 p) (v_2 p) (v_3 p)).
Proof.
  intros st eps. exists (V3 0 0 1), (3 * (PI / 2)), (V4 1 1 0 0).
  pose proof PI_RGT_0. split; [unfold unit3; cbn; lra|]. split; [lra|]. rewrite rotate_unfold.
  unfold rodrigues, rotated, sp3, dot3. cbn [x_0 x_1 x_2 v_0 v_1 v_2 v_3]. rewrite cos_3PI2, sin_3PI2.
  intros E. injection E as E1 E2 E3.
  rewrite Rmult_0_l, Rminus_0_r, sqrt_1 in *. lra.
Qed.
Print Assumptions C27_rotation_angle_refuted.
(** What holds: by theta if sin(theta)>=0, by -theta if sin(theta)<=0. *)
Theorem C27_rotation_angle_partial :
  forall st eps (u : vec3 R) (theta : R) (p : vec4 R),
    let p' := rotate_momentum (num:=RN st eps) p u theta in
    let x := V3 (v_1 p) (v_2 p) (v_3 p) in
    (0 <= sin theta -> V3 (v_1 p') (v_2 p') (v_3 p') = rotated u theta x) /\
    (sin theta <= 0 -> V3 (v_1 p') (v_2 p') (v_3 p') = rotated u (- theta) x).
Proof.
  intros st eps u theta p p' x. unfold p', x. rewrite rotate_unfold, sin_part. cbv zeta. cbn [v_1 v_2 v_3].
  unfold rotated. rewrite cos_neg, sin_neg. split; intros H.
  - rewrite Rabs_pos_eq by exact H. reflexivity.
  - rewrite Rabs_left1 by exact H. reflexivity.
Qed.
Print Assumptions C27_rotation_angle_partial.

(** ** C28 *)
Theorem C28_boost_preserves :
  forall st eps (v : vec3 R),
  let v2 := x_0 v * x_0 v + x_1 v * x_1 v + x_2 v * x_2 v in
  0 < v2 < 1 ->
  let boost p := boost_momentum (num:=RN st eps) p v in
  forall p q : vec4 R,
    mdot (boost p) (boost q) = mdot p q /\
    boost (plus4 p q) = plus4 (boost p) (boost q) /\
    (forall a, boost (times4 a p) = times4 a (boost p)) /\
    (* a particle at rest acquires the velocity -v and the energy m / sqrt(1-v^2) *)
    (forall m, let r := boost (V4 m 0 0 0) in
       v_0 r = m / sqrt (1 - v2) /\
       v_1 r = - x_0 v * v_0 r /\ v_2 r = - x_1 v * v_0 r /\ v_3 r = - x_2 v * v_0 r) /\
    (* the boost by -v is the inverse *)
    boost_momentum (num:=RN st eps) (boost p) (V3 (- x_0 v) (- x_1 v) (- x_2 v)) = p /\
    (* energies of physical momenta stay positive *)
    (0 <= mdot p p -> 0 < v_0 p -> 0 < v_0 (boost p)).
Proof.
  intros st eps v v2 Hv boost p q. split; [|split; [|split; [|split; [|split]]]].
  - unfold boost. change mdot with minkdot. apply boost_dot. exact Hv.
  - unfold boost. rewrite !boost_unfold. unfold plus4, sp3, dot3. cbn [x_0 x_1 x_2 v_0 v_1 v_2 v_3]. cbv zeta. f_equal; ring.
  - intros a. unfold boost. rewrite !boost_unfold. unfold times4, sp3, dot3. cbn [x_0 x_1 x_2 v_0 v_1 v_2 v_3]. cbv zeta. f_equal; ring.
  - intros m r. unfold r, boost. rewrite boost_unfold. unfold sp3, dot3. cbn [x_0 x_1 x_2 v_0 v_1 v_2 v_3]. cbv zeta.
    change (T (RN st eps)) with R.
    split; [unfold gam, norm3, v2, Rdiv; ring|]. split; [ring|]. split; ring.
  - unfold boost. change (V3 (- x_0 v) (- x_1 v) (- x_2 v)) with (neg3 v). apply boost_inverse. exact Hv.
  - intros H1 H2. unfold boost. apply boost_energy; assumption.
Qed.
Print Assumptions C28_boost_preserves.
Example C28_example : let v := V3 (3/5) 0 0 in 0 < x_0 v * x_0 v + x_1 v * x_1 v + x_2 v * x_2 v < 1.
Proof. cbn. lra. Qed.

(** ** C30 *)
Lemma sqrt_sq_sum a b : sqrt (a * a + b * b) * sqrt (a * a + b * b) = a * a + b * b.
Proof. apply sqrt_sqrt. nra. Qed.
Theorem C30_two_to_two :
  forall st eps (m1 m2 m3 m4 Pin cost : R),
    0 <= m1 -> 0 <= m2 -> 0 <= m3 -> 0 <= m4 -> 0 <= Pin -> -1 <= cost <= 1 ->
    let sqrtS := sqrt (Pin * Pin + m1 * m1) + sqrt (Pin * Pin + m2 * m2) in
    0 < sqrtS -> m3 + m4 <= sqrtS ->
    let q := set_test_momenta (num:=RN st eps) (set_test_initializations (num:=RN st eps) m1 m2 m3 m4 Pin) Pin cost in
    let p1 := q_1 q in let p2 := q_2 q in let p3 := q_3 q in let p4 := q_4 q in
    (mdot p1 p1 = m1 * m1 /\ mdot p2 p2 = m2 * m2 /\ mdot p3 p3 = m3 * m3 /\ mdot p4 p4 = m4 * m4) /\
    plus4 p1 p2 = plus4 p3 p4 /\
    v_0 (plus4 p1 p2) = sqrtS /\
    (0 <= v_0 p1 /\ 0 <= v_0 p2 /\ 0 <= v_0 p3 /\ 0 <= v_0 p4) /\
    (* the angle between p1 and p3 has cosine cost *)
    (exists P3, 0 <= P3 /\ P3 * P3 = v_1 p3 * v_1 p3 + v_2 p3 * v_2 p3 + v_3 p3 * v_3 p3 /\
       v_1 p1 * v_1 p3 + v_2 p1 * v_2 p3 + v_3 p1 * v_3 p3 = Pin * P3 * cost) /\
    (* the beam runs along z with momentum Pin, in the centre-of-mass frame *)
    (v_1 p1 = 0 /\ v_2 p1 = 0 /\ v_3 p1 = Pin) /\
    (v_1 (plus4 p1 p2) = 0 /\ v_2 (plus4 p1 p2) = 0 /\ v_3 (plus4 p1 p2) = 0) /\
    (* the particles accept them *)
    (0 <= eps -> forall g,
       fst (particle_new (num:=RN st eps) g p1 m1) = Ok tt /\ fst (particle_new (num:=RN st eps) g p2 m2) = Ok tt /\
       fst (particle_new (num:=RN st eps) g p3 m3) = Ok tt /\ fst (particle_new (num:=RN st eps) g p4 m4) = Ok tt).
Proof.
  intros st eps m1 m2 m3 m4 Pin cost H1 H2 H3 H4 HP Hc sqrtS HS HT q p1 p2 p3 p4.
  set (W := sqrtS) in *.
  set (Po := sqrt ((W * W - (m3 + m4) * (m3 + m4)) * (W * W - (m3 - m4) * (m3 - m4))) / (2 * W)).
  set (sint := sqrt (1 - cost * cost)).
  assert (Eq : q = Q4 (V4 (sqrt (Pin * Pin + m1 * m1)) 0 0 Pin) (V4 (sqrt (Pin * Pin + m2 * m2)) 0 0 (- Pin))
     (V4 (sqrt (Po * Po + m3 * m3)) (Po * sint) 0 (Po * cost))
     (V4 (sqrt (Po * Po + m4 * m4)) (- (Po * sint)) 0 (- (Po * cost)))).
  { unfold q, set_test_momenta, set_test_initializations, lit. cbn [En1 En2 Pout En3 En4].
    change (@tD (RN st eps)) with (fun x : R => x). change (@dQ (RN st eps)) with Q2R. cbv beta. rewrite Q2R_1'. reflexivity. }
  clearbody q. subst q.
  assert (HA : 0 <= (W * W - (m3 + m4) * (m3 + m4)) * (W * W - (m3 - m4) * (m3 - m4))).
  { apply Rmult_le_pos.
    - assert ((m3 + m4) * (m3 + m4) <= W * W) by (apply Rmult_le_compat; lra). lra.
    - assert ((m3 + m4) * (m3 + m4) <= W * W) by (apply Rmult_le_compat; lra).
      assert (0 <= m3 * m4) by (apply Rmult_le_pos; lra). lra. }
  assert (PP : Po * Po = (W * W - (m3 + m4) * (m3 + m4)) * (W * W - (m3 - m4) * (m3 - m4)) / (4 * (W * W))).
  { unfold Po. replace ((W * W - (m3 + m4) * (m3 + m4)) * (W * W - (m3 - m4) * (m3 - m4))) with
      (sqrt ((W * W - (m3 + m4) * (m3 + m4)) * (W * W - (m3 - m4) * (m3 - m4))) *
       sqrt ((W * W - (m3 + m4) * (m3 + m4)) * (W * W - (m3 - m4) * (m3 - m4)))) at 3 by (apply sqrt_sqrt, HA).
    field. lra. }
  assert (P0 : 0 <= Po).
  { unfold Po. apply Rmult_le_pos; [apply sqrt_pos|]. left. apply Rinv_0_lt_compat. lra. }
  assert (E3 : sqrt (Po * Po + m3 * m3) = (W * W + m3 * m3 - m4 * m4) / (2 * W)).
  { rewrite PP. replace ((W * W - (m3 + m4) * (m3 + m4)) * (W * W - (m3 - m4) * (m3 - m4)) / (4 * (W * W)) + m3 * m3)
      with (((W * W + m3 * m3 - m4 * m4) / (2 * W)) * ((W * W + m3 * m3 - m4 * m4) / (2 * W))) by (field; lra).
    apply sqrt_square. apply Rmult_le_pos; [|left; apply Rinv_0_lt_compat; lra].
    assert (m4 * m4 <= W * W) by (apply Rmult_le_compat; lra). nra. }
  assert (E4 : sqrt (Po * Po + m4 * m4) = (W * W + m4 * m4 - m3 * m3) / (2 * W)).
  { rewrite PP. replace ((W * W - (m3 + m4) * (m3 + m4)) * (W * W - (m3 - m4) * (m3 - m4)) / (4 * (W * W)) + m4 * m4)
      with (((W * W + m4 * m4 - m3 * m3) / (2 * W)) * ((W * W + m4 * m4 - m3 * m3) / (2 * W))) by (field; lra).
    apply sqrt_square. apply Rmult_le_pos; [|left; apply Rinv_0_lt_compat; lra].
    assert (m3 * m3 <= W * W) by (apply Rmult_le_compat; lra). nra. }
  assert (SC : sint * sint = 1 - cost * cost) by (apply sqrt_sqrt; nra).
  assert (SS : Po * sint * (Po * sint) + Po * cost * (Po * cost) = Po * Po).
  { replace (Po * sint * (Po * sint)) with (Po * Po * (sint * sint)) by ring. rewrite SC. ring. }
  pose proof (sqrt_sq_sum Pin m1) as Q1. pose proof (sqrt_sq_sum Pin m2) as Q2.
  pose proof (sqrt_sq_sum Po m3) as Q3. pose proof (sqrt_sq_sum Po m4) as Q4'.
  assert (SH : mdot p1 p1 = m1 * m1 /\ mdot p2 p2 = m2 * m2 /\ mdot p3 p3 = m3 * m3 /\ mdot p4 p4 = m4 * m4).
  { unfold mdot, p1, p2, p3, p4. cbn [q_1 q_2 q_3 q_4 v_0 v_1 v_2 v_3]. repeat split; lra. }
  split; [exact SH|].
  assert (EN : sqrt (Po * Po + m3 * m3) + sqrt (Po * Po + m4 * m4) = W) by (rewrite E3, E4; field; lra).
  split.
  { unfold plus4, p1, p2, p3, p4. cbn [q_1 q_2 q_3 q_4 v_0 v_1 v_2 v_3]. f_equal; try ring. rewrite EN. reflexivity. }
  split; [reflexivity|]. split.
  { unfold p1, p2, p3, p4. cbn [q_1 q_2 q_3 q_4 v_0]. repeat split; apply sqrt_pos. }
  split.
  { exists Po. split; [exact P0|]. unfold p1, p3. cbn [q_1 q_3 v_0 v_1 v_2 v_3]. split; [lra|ring]. }
  split; [repeat split|]. split.
  { unfold plus4, p1, p2. cbn [q_1 q_2 v_1 v_2 v_3]. repeat split; ring. }
  intros He g. destruct SH as (S1 & S2 & S3 & S4).
  destruct (new_on_shell st eps g m1 p1 He S1) as (X1 & N1 & _). destruct (new_on_shell st eps g m2 p2 He S2) as (X2 & N2 & _).
  destruct (new_on_shell st eps g m3 p3 He S3) as (X3 & N3 & _). destruct (new_on_shell st eps g m4 p4 He S4) as (X4 & N4 & _).
  rewrite N1, N2, N3, N4. repeat split.
Qed.
Print Assumptions C30_two_to_two.
(** beams of mass 3 and 3 with momentum 4, outgoing masses 3 and 1, cosine 1/2 *)
Example C30_example :
  let sqrtS := sqrt (4 * 4 + 3 * 3) + sqrt (4 * 4 + 3 * 3) in 0 < sqrtS /\ 3 + 1 <= sqrtS.
Proof. cbv zeta. replace (4 * 4 + 3 * 3) with (5 * 5) by ring. rewrite sqrt_square by lra. lra. Qed.

(** ** C31 *)
(** the mass and width most recently set *)
Fixpoint last_mass {num} (m : T num) (h : list (prcall num)) : T num :=
  match h with [] => m | PSetMass m' :: h' => last_mass m' h' | PSetWidth _ :: h' => last_mass m h' end.
Fixpoint last_width {num} (w : T num) (h : list (prcall num)) : T num :=
  match h with [] => w | PSetMass _ :: h' => last_width w h' | PSetWidth w' :: h' => last_width w' h' end.
Theorem C31_propagator :
  (* in every arithmetic: only the last mass and width count *)
  (forall (num : Num) (h : list (prcall num)) m w (p : mom num),
     denominator (prrun h (propagator_new m w)) p = denominator (propagator_new (last_mass m h) (last_width w h)) p) /\
  (forall (num : Num), propagator_default = propagator_new (num:=num) (tZ 0) (tZ 0)) /\
  (* exact arithmetic *)
  (forall st eps (m w : R) (p : vec4 R),
     let D := denominator (num:=RN st eps) (propagator_new (num:=RN st eps) m w) p in
     D = (RtoC (mdot p p - m * m) - Ci * RtoC (m * w))%C /\
     (D = RtoC 0 <-> mdot p p = m * m /\ m * w = 0) /\
     (forall p', mdot p' p' = mdot p p -> denominator (num:=RN st eps) (propagator_new (num:=RN st eps) m w) p' = D)).
Proof.
  split; [|split].
  - intros num h. induction h as [|[m'|w'] h IH]; intros m w p; cbn [last_mass last_width]; [reflexivity|apply IH|apply IH].
  - reflexivity.
  - intros st eps m w p D.
    assert (E : forall q, denominator (num:=RN st eps) (propagator_new (num:=RN st eps) m w) q = (mdot q q - m * m, - (m * w))).
    { intros q. unfold denominator, propagator_new, mdot. cbn. f_equal; try ring. }
    unfold D. rewrite E. split; [|split].
    + unfold RtoC, Ci, Cminus, Cplus, Copp, Cmult. cbn. f_equal; ring.
    + unfold RtoC. split; [intros H; injection H; intros; split; lra|intros [A B]; f_equal; lra].
    + intros p' H. rewrite E, H. reflexivity.
Qed.
Print Assumptions C31_propagator.
Example C31_example :
  denominator (num:=RN true 0) (prrun (num:=RN true 0) [PSetMass (num:=RN true 0) 5; PSetWidth (num:=RN true 0) 2; PSetMass (num:=RN true 0) 3] propagator_default) (V4 5 0 0 4)
  = (0, - (3 * 2)).
Proof.
  unfold propagator_default. rewrite (proj1 C31_propagator). cbn [last_mass last_width].
  unfold denominator, propagator_new. cbn. f_equal; ring.
Qed.

(** ** C32 *)
(** For every sequence of random numbers. *)
Theorem C32_random_on_shell :
  forall st eps (b e : R) (s : stream (RN st eps)), 0 <= eps ->
    (b <= e -> 0 <= e ->
       exists mass p s', choose_random_momentum (num:=RN st eps) b e s = (Ok (mass, p), s') /\
         mdot p p = mass * mass /\ 0 <= v_0 p /\
         forall g, fst (particle_new (num:=RN st eps) g p mass) = Ok tt) /\
    (b <= e ->
       exists p s', choose_random_massless_momentum (num:=RN st eps) b e s = (Ok p, s') /\
         mdot p p = 0 /\ 0 <= v_0 p /\
         forall g, fst (particle_new (num:=RN st eps) g p 0) = Ok tt) /\
    (* outside these ranges the distribution is undefined *)
    (e < b \/ e < 0 -> fst (choose_random_momentum (num:=RN st eps) b e s) = UB BadDistribution).
Proof.
  intros st eps b e s He. split; [|split].
  - intros Hbe H0. unfold choose_random_momentum, choose_random_ldouble, sbind, sret.
    change (@tgeb (RN st eps)) with Rgeb. change (@tZ (RN st eps)) with IZR. rewrite (proj2 (Rgeb_true e b)) by lra.
    rewrite (proj2 (Rgeb_true e (IZR 0))) by lra.
    eexists _, _, _. split; [reflexivity|].
    set (p := V4 _ _ _ _).
    assert (HS : mdot p p = s 3%nat * s 3%nat).
    { unfold mdot, p. cbn [v_0 v_1 v_2 v_3].
      change (@tsqrt (RN st eps)) with sqrt. change (@tadd (RN st eps)) with Rplus. change (@tmul (RN st eps)) with Rmult. change (@tZ (RN st eps)) with IZR.
      generalize (s 0%nat) (s 1%nat) (s 2%nat) (s 3%nat). change (T (RN st eps)) with R. intros a b' c d.
      rewrite sqrt_sqrt by nra. ring. }
    split; [exact HS|]. split; [apply sqrt_pos|]. intros g.
    destruct (new_on_shell st eps g _ p He HS) as (X & N & _). rewrite N. reflexivity.
  - intros Hbe. unfold choose_random_massless_momentum, choose_random_ldouble, sbind, sret.
    change (@tgeb (RN st eps)) with Rgeb. change (@tZ (RN st eps)) with IZR. rewrite (proj2 (Rgeb_true e b)) by lra.
    eexists _, _. split; [reflexivity|].
    set (p := V4 _ _ _ _).
    assert (HS : mdot p p = 0).
    { unfold mdot, p. cbn [v_0 v_1 v_2 v_3].
      change (@tsqrt (RN st eps)) with sqrt. change (@tadd (RN st eps)) with Rplus. change (@tmul (RN st eps)) with Rmult. change (@tZ (RN st eps)) with IZR.
      generalize (s 0%nat) (s 1%nat) (s 2%nat). change (T (RN st eps)) with R. intros a b' c.
      rewrite sqrt_sqrt by nra. ring. }
    split; [exact HS|]. split; [apply sqrt_pos|]. intros g.
    assert (HS' : on_shell 0 p) by (unfold on_shell; rewrite Rmult_0_l; exact HS).
    destruct (new_on_shell st eps g _ p He HS') as (X & N & _). rewrite N. reflexivity.
  - intros H. unfold choose_random_momentum, choose_random_ldouble, sbind, sret.
    change (@tgeb (RN st eps)) with Rgeb. change (@tZ (RN st eps)) with IZR. destruct (Rgeb e b) eqn:E1; [|reflexivity].
    apply Rgeb_true in E1. rewrite (proj2 (Rgeb_false e (IZR 0))) by lra. reflexivity.
Qed.
Print Assumptions C32_random_on_shell.
Example C32_example :
  exists mass p s', choose_random_momentum (num:=RN true 0) (-10) 10 (fun k => IZR (Z.of_nat k)) = (Ok (mass, p), s') /\ mdot p p = mass * mass.
Proof.
  destruct (C32_random_on_shell true 0 (-10) 10 (fun k => IZR (Z.of_nat k)) (Rle_refl 0)) as (A & _).
  destruct A as (m & p & s' & E & S & _); [lra|lra|]. eauto.
Qed.
