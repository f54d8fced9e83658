(** * particle over the exact reals: closed forms of every accessor *)
From Coq Require Import Reals Lra QArith Qreals.
From Coquelicot Require Import Complex.
From Verif Require Import Base Scalar Linear Particle ParticleProofs RealNum.
Open Scope R_scope.

Section Real.
  Variables (st : bool) (eps : R).
  Notation num := (RN st eps).
  Notation rmom := (vec4 R).
  Notation CVr := (@CV num).

  (** ** Half-angle data of a momentum *)
  Definition Pxy (q : rmom) : R := sqrt (v_1 q * v_1 q + v_2 q * v_2 q).
  Definition Pmag (q : rmom) : R := sqrt (Pxy q * Pxy q + v_3 q * v_3 q).
  Definition theta (q : rmom) : R := Ratan2 (Pxy q) (v_3 q).
  Definition phi (q : rmom) : R := Ratan2 (v_2 q) (v_1 q).
  Definition hc (q : rmom) : R := cos (theta q / 2).
  Definition hs (q : rmom) : R := sin (theta q / 2).
  Definition hsx (q : rmom) : R := hs q * cos (phi q).
  Definition hsy (q : rmom) : R := hs q * sin (phi q).
  Definition rtp (q : rmom) : R := sqrt (v_0 q + Pmag q).
  Definition rtm (q : rmom) : R := sqrt (v_0 q - Pmag q).

  Lemma Pxy_sq q : Pxy q * Pxy q = v_1 q * v_1 q + v_2 q * v_2 q.
  Proof. unfold Pxy. apply sqrt_sqrt. nra. Qed.
  Lemma Pxy_nonneg q : 0 <= Pxy q.
  Proof. apply sqrt_pos. Qed.
  Lemma Pmag_sq q : Pmag q * Pmag q = v_1 q * v_1 q + v_2 q * v_2 q + v_3 q * v_3 q.
  Proof. unfold Pmag. rewrite sqrt_sqrt; rewrite Pxy_sq; nra. Qed.
  Lemma Pmag_nonneg q : 0 <= Pmag q.
  Proof. apply sqrt_pos. Qed.
  Lemma Pxy_phi q : Pxy q * cos (phi q) = v_1 q /\ Pxy q * sin (phi q) = v_2 q.
  Proof. apply atan2_polar. Qed.
  Lemma Pmag_theta q : Pmag q * cos (theta q) = v_3 q /\ Pmag q * sin (theta q) = Pxy q.
  Proof.
    unfold Pmag, theta. rewrite Rplus_comm. apply atan2_polar.
  Qed.
  Lemma theta_range q : 0 <= theta q <= PI.
  Proof. apply atan2_range, Pxy_nonneg. Qed.
  Lemma hs_nonneg q : 0 <= hs q.
  Proof. pose proof (theta_range q). pose proof PI_RGT_0. apply sin_ge_0; lra. Qed.
  Lemma hc_nonneg q : 0 <= hc q.
  Proof. pose proof (theta_range q). pose proof PI_RGT_0. apply cos_ge_0; lra. Qed.
  Lemma hc_hs q : hc q * hc q + hs q * hs q = 1.
  Proof. pose proof (sin2_cos2 (theta q / 2)) as H. unfold hc, hs. unfold Rsqr in H. lra. Qed.
  Lemma phi_unit q : cos (phi q) * cos (phi q) + sin (phi q) * sin (phi q) = 1.
  Proof. pose proof (sin2_cos2 (phi q)) as H. unfold Rsqr in H. lra. Qed.
  Lemma cos_theta_half q : cos (theta q) = hc q * hc q - hs q * hs q.
  Proof. replace (theta q) with (2 * (theta q / 2)) by field. rewrite cos_2a. reflexivity. Qed.
  Lemma sin_theta_half q : sin (theta q) = 2 * hs q * hc q.
  Proof. replace (theta q) with (2 * (theta q / 2)) by field. rewrite sin_2a. reflexivity. Qed.
  Lemma half_unit q : hc q * hc q + hsx q * hsx q + hsy q * hsy q = 1.
  Proof.
    unfold hsx, hsy. pose proof (hc_hs q) as H1. pose proof (phi_unit q) as H2.
    replace (hc q * hc q + hs q * cos (phi q) * (hs q * cos (phi q)) + hs q * sin (phi q) * (hs q * sin (phi q)))
      with (hc q * hc q + hs q * hs q * (cos (phi q) * cos (phi q) + sin (phi q) * sin (phi q))) by ring.
    rewrite H2. lra.
  Qed.
  (** The momentum in terms of the half-angle data. *)
  Lemma mom3_half q : v_3 q = Pmag q * (hc q * hc q - hsx q * hsx q - hsy q * hsy q).
  Proof.
    destruct (Pmag_theta q) as [H _]. rewrite <- H at 1. rewrite cos_theta_half. f_equal.
    unfold hsx, hsy. pose proof (phi_unit q) as H2.
    replace (hc q * hc q - hs q * cos (phi q) * (hs q * cos (phi q)) - hs q * sin (phi q) * (hs q * sin (phi q)))
      with (hc q * hc q - hs q * hs q * (cos (phi q) * cos (phi q) + sin (phi q) * sin (phi q))) by ring.
    rewrite H2. ring.
  Qed.
  Lemma mom1_half q : v_1 q = Pmag q * (2 * hc q * hsx q).
  Proof.
    destruct (Pxy_phi q) as [H _]. destruct (Pmag_theta q) as [_ H2].
    rewrite <- H at 1. rewrite <- H2, sin_theta_half. unfold hsx. ring.
  Qed.
  Lemma mom2_half q : v_2 q = Pmag q * (2 * hc q * hsy q).
  Proof.
    destruct (Pxy_phi q) as [_ H]. destruct (Pmag_theta q) as [_ H2].
    rewrite <- H at 1. rewrite <- H2, sin_theta_half. unfold hsy. ring.
  Qed.

  (** ** The state of a successfully constructed particle *)
  Definition minksq (q : rmom) : R :=
    v_0 q * v_0 q - v_1 q * v_1 q - v_2 q * v_2 q - v_3 q * v_3 q.

  Record described (m : R) (q : rmom) (P : particle num) : Prop := mkDesc {
    de_m : rd (pa_m P) = Ok m;
    de_p0 : rd (f_p0 P) = Ok (v_0 q);
    de_p1 : rd (f_p1 P) = Ok (v_1 q);
    de_p2 : rd (f_p2 P) = Ok (v_2 q);
    de_p3 : rd (f_p3 P) = Ok (v_3 q);
    de_pmag : rd (pa_pmag P) = Ok (Pmag q);
    de_pxymag : rd (pa_pxymag P) = Ok (Pxy q);
    de_theta : rd (pa_theta P) = Ok (theta q);
    de_phi : rd (pa_phi P) = Ok (phi q);
    de_c : pa_c P = (hc q, 0);
    de_s : pa_s P = (hsx q, hsy q);
    de_sc : pa_sc P = (hsx q, - hsy q);
    de_rtp : pa_rtp P = (rtp q, 0);
    de_rtm : pa_rtm P = (rtm q, 0);
    de_mat : forall k, pa_mat P k = None;
    de_vec : forall k, pa_vec P k = None
  }.

  Lemma polar_real r t : 0 <= r -> polar (num:=num) r t = Ok (r * cos t, r * sin t).
  Proof.
    intros H. unfold polar. simpl. destruct st; [|reflexivity].
    destruct (Rgeb r 0) eqn:E; [reflexivity|]. apply Rgeb_false in E. lra.
  Qed.

  Lemma two_real : two_ (num:=num) = 2.
  Proof. unfold two_, lit; simpl. apply Q2R_2. Qed.
  Lemma lit0_real : lit (num:=num) (0 # 1) = 0.
  Proof. unfold lit; simpl. apply Q2R_0. Qed.

  (** set_momentum from any state in which the mass can be read: it throws exactly off
      the mass shell (up to the tolerance) and otherwise gives the described state. *)
  Lemma set_momentum_real q (m : R) (P : particle num) :
    rd (pa_m P) = Ok m ->
    (Rabs (minksq q - m * m) > eps * 1000000000 /\ fst (set_momentum (num:=num) q P) = Exn MassShell)
    \/ (Rabs (minksq q - m * m) <= eps * 1000000000 /\
        exists P', set_momentum (num:=num) q P = (Ok tt, P') /\ described m q P').
  Proof.
    intros Hm.
    unfold set_momentum, update, sbind, modify, get, w_p, w_pxymag, w_pmag, f_p0, f_p1, f_p2, f_p3.
    cbn [rd v_0 v_1 v_2 v_3 pa_p pa_m pa_pmag pa_pxymag cells].
    rewrite Hm.
    change (@tsqrt num) with sqrt. change (@tadd num) with Rplus. change (@tmul num) with Rmult.
    change (@tsub num) with Rminus. change (@tabs num) with Rabs. change (@tgtb num) with Rgtb.
    change (Scalar.T num) with R.
    change (sqrt (v_1 q * v_1 q + v_2 q * v_2 q)) with (Pxy q).
    change (sqrt (Pxy q * Pxy q + v_3 q * v_3 q)) with (Pmag q). rewrite Pmag_sq.
    replace (v_0 q * v_0 q - (v_1 q * v_1 q + v_2 q * v_2 q + v_3 q * v_3 q) - m * m)
      with (minksq q - m * m) by (unfold minksq; ring).
    change (shell_tol (num:=num)) with (eps * 1000000000).
    destruct (Rgtb (Rabs (minksq q - m * m)) (eps * 1000000000)) eqn:E.
    - left. apply Rgtb_true in E. split; [exact E|reflexivity].
    - right. apply Rgtb_false in E. split; [exact E|].
      cbn [rd w_theta w_phi pa_theta pa_phi pa_p pa_m pa_pmag pa_pxymag].
      unfold slift. rewrite two_real, lit0_real.
      change (@tatan2 num) with Ratan2. change (@tdiv num) with Rdiv. change (@tsin num) with sin.
      change (@tcos num) with cos.
      fold (theta q). fold (phi q). fold (hs q). fold (hc q).
      rewrite polar_real by apply hs_nonneg. cbn [fst snd].
      eexists. split; [reflexivity|].
      constructor; try (intros k; first [apply reset_mat | apply reset_vec]); try reflexivity.
      exact Hm.
  Qed.

  Lemma particle_new_real g q (m : R) :
    (Rabs (minksq q - m * m) > eps * 1000000000 /\ fst (particle_new (num:=num) g q m) = Exn MassShell)
    \/ (Rabs (minksq q - m * m) <= eps * 1000000000 /\
        exists P', particle_new (num:=num) g q m = (Ok tt, P') /\ described m q P').
  Proof.
    exact (set_momentum_real q m (w_m (num:=num) (Val (num:=num) m) (particle_default g)) eq_refl).
  Qed.

  (** ** Accessors of a described particle *)
  Lemma umat_real m q P : described m q P -> fst (umat P) = Ok (cmatrix_of_mom (num:=num) q true).
  Proof.
    intros H. unfold umat, memo_mat. rewrite (de_mat _ _ _ H). unfold umat_value.
    rewrite (de_p0 _ _ _ H), (de_p3 _ _ _ H), (de_pxymag _ _ _ H), (de_phi _ _ _ H). cbn [obind].
    rewrite !polar_real by apply Pxy_nonneg. cbn [obind fst].
    destruct (Pxy_phi q) as [H1 H2]. unfold cmatrix_of_mom. f_equal.
    change (@topp num) with Ropp. rewrite cos_neg, sin_neg.
    f_equal; unfold copp, cmk; simpl; unfold Copp; simpl; f_equal; lra.
  Qed.
  Lemma lmat_real m q P : described m q P -> fst (lmat P) = Ok (cmatrix_of_mom (num:=num) q false).
  Proof.
    intros H. unfold lmat, memo_mat. rewrite (de_mat _ _ _ H). unfold lmat_value.
    rewrite (de_p0 _ _ _ H), (de_p3 _ _ _ H), (de_pxymag _ _ _ H), (de_phi _ _ _ H). cbn [obind].
    rewrite !polar_real by apply Pxy_nonneg. cbn [obind fst].
    destruct (Pxy_phi q) as [H1 H2]. unfold cmatrix_of_mom. f_equal.
    change (@topp num) with Ropp. rewrite cos_neg, sin_neg.
    f_equal; unfold cmk; simpl; f_equal; lra.
  Qed.

  (** The spinors as explicit complex pairs. *)
  Definition rspinor (q : rmom) (k : veckey) : cvector num :=
    let c := hc q in let x := hsx q in let y := hsy q in
    let rp := rtp q in let rm := rtm q in
    match k with
    | (RAngle, M0) | (RAngle, UpM1)  => CVr (rp*c, 0) (rp*x, rp*y)
    | (LSquare, M0) | (LSquare, UpP1) | (LSquare, LoM1) => CVr (rp*c, 0) (rp*x, -(rp*y))
    | (LAngle, M0) | (LAngle, UpM1) => CVr (rp*x, rp*y) (-(rp*c), 0)
    | (RSquare, M0) | (RSquare, UpP1) | (RSquare, LoM1) => CVr (rp*x, -(rp*y)) (-(rp*c), 0)
    | (RAngle, UpP1) | (RAngle, LoM1) => CVr (-(rm*x), rm*y) (rm*c, 0)
    | (RAngle, LoP1) => CVr (-(rp*c), 0) (-(rp*x), -(rp*y))
    | (LAngle, UpP1) | (LAngle, LoM1) => CVr (rm*c, 0) (rm*x, -(rm*y))
    | (LAngle, LoP1) => CVr (-(rp*x), -(rp*y)) (rp*c, 0)
    | (LSquare, UpM1) => CVr (rm*x, rm*y) (-(rm*c), 0)
    | (LSquare, LoP1) => CVr (-(rm*x), -(rm*y)) (rm*c, 0)
    | (RSquare, UpM1) => CVr (-(rm*c), 0) (-(rm*x), -(rm*y))
    | (RSquare, LoP1) => CVr (rm*c, 0) (rm*x, rm*y)
    end.

  Lemma spinor_value_real m q P k : described m q P -> spinor_value k P = rspinor q k.
  Proof.
    intros H. unfold spinor_value.
    rewrite (de_c _ _ _ H), (de_s _ _ _ H), (de_sc _ _ _ H), (de_rtp _ _ _ H), (de_rtm _ _ _ H).
    destruct k as [[| | |] [| | | |]]; unfold rspinor; cbn -[Rplus Rmult Ropp Rminus];
      unfold Cmult, Copp; cbn -[Rplus Rmult Ropp Rminus]; f_equal; f_equal; ring.
  Qed.

  Lemma spinor0_real m q P d :
    described m q P ->
    fst (spinor0 d P) = if Reqb m 0 then Ok (rspinor q (d, M0)) else Exn MassNonzero.
  Proof.
    intros H. unfold spinor0, memo_vec. rewrite (de_vec _ _ _ H), (de_m _ _ _ H). cbn [obind].
    change (@teqb num) with Reqb. change (@tZ num 0) with 0.
    destruct (Reqb m 0); cbn [negb fst]; [|reflexivity].
    rewrite (spinor_value_real _ _ _ _ H). reflexivity.
  Qed.
  Lemma spinor2_real m q P d j u :
    described m q P ->
    fst (spinor2 d j u P) =
      if negb (j =? 1)%Z && negb (j =? -1)%Z then Exn BadSpin
      else if Reqb m 0 then Exn MassZero else Ok (rspinor q (d, kind_of j u)).
  Proof.
    intros H. unfold spinor2. destruct (negb (j =? 1)%Z && negb (j =? -1)%Z); [reflexivity|].
    unfold memo_vec. rewrite (de_vec _ _ _ H), (de_m _ _ _ H). cbn [obind].
    change (@teqb num) with Reqb. change (@tZ num 0) with 0.
    destruct (Reqb m 0); cbn [fst]; [reflexivity|].
    rewrite (spinor_value_real _ _ _ _ H). reflexivity.
  Qed.

  (** ** Square roots on the mass shell *)
  Definition on_shell (m : R) (q : rmom) : Prop := minksq q = m * m.

  Lemma energy_ge_pmag m q : on_shell m q -> 0 <= v_0 q -> Pmag q <= v_0 q.
  Proof.
    intros H H0. unfold on_shell, minksq in H. pose proof (Pmag_sq q) as HP.
    pose proof (Pmag_nonneg q) as HP0.
    apply Rsqr_incr_0_var; [|lra]. unfold Rsqr. nra.
  Qed.
  Lemma rtp_sq m q : on_shell m q -> 0 <= v_0 q -> rtp q * rtp q = v_0 q + Pmag q.
  Proof. intros H H0. unfold rtp. apply sqrt_sqrt. pose proof (Pmag_nonneg q). lra. Qed.
  Lemma rtm_sq m q : on_shell m q -> 0 <= v_0 q -> rtm q * rtm q = v_0 q - Pmag q.
  Proof. intros H H0. unfold rtm. apply sqrt_sqrt. pose proof (energy_ge_pmag m q H H0). lra. Qed.
  Lemma rtp_rtm m q : on_shell m q -> 0 <= v_0 q -> rtp q * rtm q = Rabs m.
  Proof.
    intros H H0. unfold rtp, rtm.
    pose proof (energy_ge_pmag m q H H0). pose proof (Pmag_nonneg q).
    rewrite <- sqrt_mult by lra.
    replace ((v_0 q + Pmag q) * (v_0 q - Pmag q)) with (m²).
    - apply sqrt_Rsqr_abs.
    - unfold on_shell, minksq in H. unfold Rsqr. rewrite <- H. pose proof (Pmag_sq q). lra.
  Qed.
  Lemma energy_rt m q : on_shell m q -> 0 <= v_0 q ->
    v_0 q = (rtp q * rtp q + rtm q * rtm q) / 2 /\ Pmag q = (rtp q * rtp q - rtm q * rtm q) / 2.
  Proof.
    intros H H0. rewrite (rtp_sq m q H H0), (rtm_sq m q H H0). split; field.
  Qed.
End Real.
Arguments described {st eps}.
