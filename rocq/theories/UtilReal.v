(** * Lemmas about utilities.cpp in exact arithmetic *)
From Coq Require Import Reals Lra Nsatz QArith Qreals.
From Coquelicot Require Import Complex.
From Verif Require Import Base Scalar Utilities RealNum ParticleReal ParticleClaims.
Close Scope Q_scope.
Open Scope R_scope.

Definition rmom4 : Type := vec4 R.
Definition rvec3 : Type := vec3 R.
Definition norm3 (u : rvec3) : R := x_0 u * x_0 u + x_1 u * x_1 u + x_2 u * x_2 u.
Definition sp3 (p : rmom4) : rvec3 := V3 (v_1 p) (v_2 p) (v_3 p).
Definition dot3 (u v : rvec3) : R := x_0 u * x_0 v + x_1 u * x_1 v + x_2 u * x_2 v.
Definition padd (p q : rmom4) : rmom4 := V4 (v_0 p + v_0 q) (v_1 p + v_1 q) (v_2 p + v_2 q) (v_3 p + v_3 q).
Definition pscale (a : R) (p : rmom4) : rmom4 := V4 (a * v_0 p) (a * v_1 p) (a * v_2 p) (a * v_3 p).

Lemma Q2R_1' : Q2R (1 # 1) = 1.
Proof. unfold Q2R. simpl. lra. Qed.

(** Rodrigues' formula: the rotation of x about the unit axis u by the angle with cosine c and sine s. *)
Definition rodrigues (u : rvec3) (c s : R) (x : rvec3) : rvec3 :=
  V3 (c * x_0 x + s * (x_1 u * x_2 x - x_2 u * x_1 x) + (1 - c) * dot3 u x * x_0 u)
     (c * x_1 x + s * (x_2 u * x_0 x - x_0 u * x_2 x) + (1 - c) * dot3 u x * x_1 u)
     (c * x_2 x + s * (x_0 u * x_1 x - x_1 u * x_0 x) + (1 - c) * dot3 u x * x_2 u).

Section U.
  Variables (st : bool) (eps : R).
  Notation num := (RN st eps).

  Lemma rotate_unfold (p : rmom4) (u : rvec3) theta :
    rotate_momentum (num:=num) p u theta =
      let x := rodrigues u (cos theta) (sqrt (1 - cos theta * cos theta)) (sp3 p) in
      V4 (v_0 p) (x_0 x) (x_1 x) (x_2 x).
  Proof.
    unfold rotate_momentum, mat_times, row_times, rotation_matrix, rodrigues, sp3, dot3, lit.
    cbn [v_0 v_1 v_2 v_3 x_0 x_1 x_2].
    change (@tD num) with (fun x : R => x). change (@dQ num) with Q2R. cbv beta. rewrite Q2R_1'.
    change (@tadd num) with Rplus. change (@tmul num) with Rmult. change (@tsub num) with Rminus.
    change (@tZ num) with IZR. change (@tcos num) with cos. change (@tsqrt num) with sqrt. change (T num) with R.
    f_equal; ring.
  Qed.
  Lemma rodrigues_dot (u : rvec3) c s (x y : rvec3) : norm3 u = 1 -> c * c + s * s = 1 ->
    dot3 (rodrigues u c s x) (rodrigues u c s y) = dot3 x y.
  Proof.
    unfold norm3, rodrigues, dot3. destruct u as [a b d], x as [x1 x2 x3], y as [y1 y2 y3].
    cbn [x_0 x_1 x_2]. intros. nsatz.
  Qed.
  Lemma sin_part theta : sqrt (1 - cos theta * cos theta) = Rabs (sin theta).
  Proof.
    replace (1 - cos theta * cos theta) with ((sin theta)²).
    - apply sqrt_Rsqr_abs.
    - pose proof (sin2_cos2 theta) as H. unfold Rsqr in *. lra.
  Qed.
  Lemma cs_abs theta : cos theta * cos theta + Rabs (sin theta) * Rabs (sin theta) = 1.
  Proof.
    pose proof (sin2_cos2 theta) as H. unfold Rsqr in *. rewrite <- Rabs_mult, Rabs_pos_eq by nra. lra.
  Qed.
  Lemma rotate_dot (p q : rmom4) (u : rvec3) theta : norm3 u = 1 ->
    minkdot (rotate_momentum (num:=num) p u theta) (rotate_momentum (num:=num) q u theta) = minkdot p q.
  Proof.
    intros Hu. rewrite !rotate_unfold, sin_part. cbv zeta.
    pose proof (rodrigues_dot u (cos theta) (Rabs (sin theta)) (sp3 p) (sp3 q) Hu (cs_abs theta)) as H.
    unfold minkdot. unfold dot3 in H. cbn [v_0 v_1 v_2 v_3] in *.
    destruct (rodrigues u (cos theta) (Rabs (sin theta)) (sp3 p)) as [a b c].
    destruct (rodrigues u (cos theta) (Rabs (sin theta)) (sp3 q)) as [a' b' c']. unfold sp3 in H. cbn [x_0 x_1 x_2] in *. lra.
  Qed.

  (** ** boosts *)
  Definition gam (v : rvec3) : R := / sqrt (1 - norm3 v).
  Definition kap (v : rvec3) : R := (gam v - 1) / norm3 v.
  Lemma boost_unfold (p : rmom4) (v : rvec3) :
    boost_momentum (num:=num) p v =
      let g := gam v in let d := dot3 v (sp3 p) in
      V4 (g * (v_0 p - d))
         (v_1 p + kap v * d * x_0 v - g * v_0 p * x_0 v)
         (v_2 p + kap v * d * x_1 v - g * v_0 p * x_1 v)
         (v_3 p + kap v * d * x_2 v - g * v_0 p * x_2 v).
  Proof.
    unfold boost_momentum, mat_times, row_times, boost_matrix, kap, gam, norm3, sp3, dot3, lit.
    cbn [v_0 v_1 v_2 v_3 x_0 x_1 x_2].
    change (@tD num) with (fun x : R => x). change (@dQ num) with Q2R. cbv beta. rewrite Q2R_1'.
    change (@tadd num) with Rplus. change (@tmul num) with Rmult. change (@tsub num) with Rminus.
    change (@tZ num) with IZR. change (@tdiv num) with Rdiv. change (@tsqrt num) with sqrt. change (@topp num) with Ropp. change (T num) with R.
    unfold Rdiv. cbv zeta. f_equal; ring.
  Qed.
  Lemma gam_facts v : 0 < norm3 v < 1 ->
    gam v * gam v * (1 - norm3 v) = 1 /\ kap v * norm3 v = gam v - 1 /\ 1 < gam v.
  Proof.
    intros H. unfold kap, gam. assert (S : 0 < sqrt (1 - norm3 v)) by (apply sqrt_lt_R0; lra).
    assert (SS : sqrt (1 - norm3 v) * sqrt (1 - norm3 v) = 1 - norm3 v) by (apply sqrt_sqrt; lra).
    repeat split.
    - rewrite <- SS at 3. field. lra.
    - field. lra.
    - apply (Rmult_lt_reg_r (sqrt (1 - norm3 v))); [exact S|]. rewrite Rinv_l, Rmult_1_l by lra.
      destruct (Rlt_dec (sqrt (1 - norm3 v)) 1) as [L|L]; [exact L|]. apply Rnot_lt_le in L.
      pose proof (Rmult_le_compat 1 _ 1 _ ltac:(lra) ltac:(lra) L L). lra.
  Qed.
  Lemma boost_dot (p q : rmom4) (v : rvec3) : 0 < norm3 v < 1 ->
    minkdot (boost_momentum (num:=num) p v) (boost_momentum (num:=num) q v) = minkdot p q.
  Proof.
    intros Hv. rewrite !boost_unfold. cbv zeta. destruct (gam_facts v Hv) as (G & K & _).
    revert G K. generalize (gam v) (kap v). intros g k.
    unfold minkdot. cbn [v_0 v_1 v_2 v_3].
    assert (X : dot3 v (sp3 p) = x_0 v * v_1 p + x_1 v * v_2 p + x_2 v * v_3 p) by reflexivity.
    assert (Y : dot3 v (sp3 q) = x_0 v * v_1 q + x_1 v * v_2 q + x_2 v * v_3 q) by reflexivity.
    assert (N : norm3 v = x_0 v * x_0 v + x_1 v * x_1 v + x_2 v * x_2 v) by reflexivity.
    revert Hv X Y N. generalize (dot3 v (sp3 p)) (dot3 v (sp3 q)) (norm3 v).
    destruct v as [a b c], p as [p0 p1 p2 p3], q as [q0 q1 q2 q3]. cbn [x_0 x_1 x_2 v_0 v_1 v_2 v_3].
    intros d e n Hn X Y N G K.
    assert (K' : k * (g + 1) = g * g).
    { apply (Rmult_eq_reg_r n); [|lra]. replace (k * (g + 1) * n) with (k * n * (g + 1)) by ring. rewrite K. lra. }
    set (A := k * d - g * p0). set (B := k * e - g * q0).
    replace ((p1 + k * d * a - g * p0 * a) * (q1 + k * e * a - g * q0 * a)) with ((p1 + A * a) * (q1 + B * a)) by (unfold A, B; ring).
    replace ((p2 + k * d * b - g * p0 * b) * (q2 + k * e * b - g * q0 * b)) with ((p2 + A * b) * (q2 + B * b)) by (unfold A, B; ring).
    replace ((p3 + k * d * c - g * p0 * c) * (q3 + k * e * c - g * q0 * c)) with ((p3 + A * c) * (q3 + B * c)) by (unfold A, B; ring).
    assert (E : g * (p0 - d) * (g * (q0 - e)) - (p1 + A * a) * (q1 + B * a) - (p2 + A * b) * (q2 + B * b) - (p3 + A * c) * (q3 + B * c)
      = g * g * (p0 - d) * (q0 - e) - (p1 * q1 + p2 * q2 + p3 * q3) - B * d - A * e - A * B * n) by (subst; ring).
    rewrite E. unfold A, B. clear E A B X Y N. clear a b c.
    assert (F : g * g * (p0 - d) * (q0 - e) - (k * e - g * q0) * d - (k * d - g * p0) * e - (k * d - g * p0) * (k * e - g * q0) * n = p0 * q0)
      by (clear Hn; nsatz). lra.
  Qed.
  Lemma kap_eq v : 0 < norm3 v < 1 -> kap v * (gam v + 1) = gam v * gam v.
  Proof.
    intros H. destruct (gam_facts v H) as (G & K & _). apply (Rmult_eq_reg_r (norm3 v)); [|lra].
    replace (kap v * (gam v + 1) * norm3 v) with (kap v * norm3 v * (gam v + 1)) by ring. rewrite K. lra.
  Qed.
  Definition neg3 (v : rvec3) : rvec3 := V3 (- x_0 v) (- x_1 v) (- x_2 v).
  Lemma norm3_neg v : norm3 (neg3 v) = norm3 v.
  Proof. unfold norm3, neg3. cbn [x_0 x_1 x_2]. ring. Qed.
  Lemma boost_inverse (p : rmom4) (v : rvec3) : 0 < norm3 v < 1 ->
    boost_momentum (num:=num) (boost_momentum (num:=num) p v) (neg3 v) = p.
  Proof.
    intros Hv. rewrite !boost_unfold. cbv zeta.
    assert (EG : gam (neg3 v) = gam v) by (unfold gam; rewrite norm3_neg; reflexivity).
    assert (EK : kap (neg3 v) = kap v) by (unfold kap; rewrite EG, norm3_neg; reflexivity).
    rewrite EG, EK. pose proof (kap_eq v Hv) as KE. destruct (gam_facts v Hv) as (G & K & _).
    revert G K KE. generalize (gam v) (kap v). intros g k.
    assert (X : dot3 v (sp3 p) = x_0 v * v_1 p + x_1 v * v_2 p + x_2 v * v_3 p) by reflexivity.
    assert (N : norm3 v = x_0 v * x_0 v + x_1 v * x_1 v + x_2 v * x_2 v) by reflexivity.
    set (d := dot3 v (sp3 p)) in *. set (n := norm3 v) in *.
    assert (D : dot3 (neg3 v) (sp3 (V4 (g * (v_0 p - d)) (v_1 p + k * d * x_0 v - g * v_0 p * x_0 v)
         (v_2 p + k * d * x_1 v - g * v_0 p * x_1 v) (v_3 p + k * d * x_2 v - g * v_0 p * x_2 v)))
         = - (d + (k * d - g * v_0 p) * n)).
    { rewrite X, N. unfold dot3, neg3, sp3. cbn [x_0 x_1 x_2 v_0 v_1 v_2 v_3]. ring. }
    rewrite D. clear D. destruct p as [p0 p1 p2 p3]. cbn [v_0 v_1 v_2 v_3 x_0 x_1 x_2 neg3] in *.
    clearbody d n. clear X N Hv EG EK.
    intros G K KE.
    assert (A : g * (g * (p0 - d) - - (d + (k * d - g * p0) * n)) = p0) by nsatz.
    assert (B : k * (d + (k * d - g * p0) * n) + g * (g * (p0 - d)) + (k * d - g * p0) = 0) by nsatz.
    f_equal.
    - exact A.
    - replace (p1 + k * d * x_0 v - g * p0 * x_0 v + k * - (d + (k * d - g * p0) * n) * - x_0 v - g * (g * (p0 - d)) * - x_0 v)
        with (p1 + (k * (d + (k * d - g * p0) * n) + g * (g * (p0 - d)) + (k * d - g * p0)) * x_0 v) by ring.
      rewrite B. ring.
    - replace (p2 + k * d * x_1 v - g * p0 * x_1 v + k * - (d + (k * d - g * p0) * n) * - x_1 v - g * (g * (p0 - d)) * - x_1 v)
        with (p2 + (k * (d + (k * d - g * p0) * n) + g * (g * (p0 - d)) + (k * d - g * p0)) * x_1 v) by ring.
      rewrite B. ring.
    - replace (p3 + k * d * x_2 v - g * p0 * x_2 v + k * - (d + (k * d - g * p0) * n) * - x_2 v - g * (g * (p0 - d)) * - x_2 v)
        with (p3 + (k * (d + (k * d - g * p0) * n) + g * (g * (p0 - d)) + (k * d - g * p0)) * x_2 v) by ring.
      rewrite B. ring.
  Qed.
  Lemma cauchy3 (a b : rvec3) : dot3 a b * dot3 a b <= norm3 a * norm3 b.
  Proof.
    destruct a as [a1 a2 a3], b as [b1 b2 b3]. unfold dot3, norm3. cbn [x_0 x_1 x_2].
    pose proof (Rle_0_sqr (a1*b2-a2*b1)). pose proof (Rle_0_sqr (a1*b3-a3*b1)). pose proof (Rle_0_sqr (a2*b3-a3*b2)).
    unfold Rsqr in *. lra.
  Qed.
  Lemma boost_energy (p : rmom4) (v : rvec3) : 0 < norm3 v < 1 -> 0 <= minksq p -> 0 < v_0 p ->
    0 < v_0 (boost_momentum (num:=num) p v).
  Proof.
    intros Hv Hp H0. rewrite boost_unfold. cbv zeta. cbn [v_0]. destruct (gam_facts v Hv) as (_ & _ & G).
    apply Rmult_lt_0_compat; [lra|].
    pose proof (cauchy3 v (sp3 p)) as C.
    assert (N : norm3 (sp3 p) <= v_0 p * v_0 p).
    { unfold minksq in Hp. unfold norm3, sp3. cbn [x_0 x_1 x_2]. lra. }
    
    set (d := dot3 v (sp3 p)) in *. set (n := norm3 v) in *. set (m := norm3 (sp3 p)) in *. clearbody d n m.
    destruct (Rlt_dec d (v_0 p)) as [L|L]; [lra|]. apply Rnot_lt_le in L. exfalso.
    assert (v_0 p * v_0 p <= d * d) by nra. assert (n * m <= n * (v_0 p * v_0 p)) by nra.
    assert (0 < v_0 p * v_0 p) by nra. nra.
  Qed.
End U.
