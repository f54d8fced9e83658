(** * The generators over the exact reals *)
From Coq Require Import Reals Lra Nsatz.
From Coquelicot Require Import Complex.
From Verif Require Import Base Scalar Linear Particle ParticleProofs RealNum SpecSpinor
  ParticleReal SpinorReal Ready ParticleClaims.
Open Scope R_scope.

Section Gen.
  Variables (st : bool) (eps : R).
  Notation num := (RN st eps).
  Notation rmom := (vec4 R).
  Notation CMr := (@CM num).

  Lemma half_real : half_ (num:=num) = / 2.
  Proof. unfold half_, lit; simpl. apply Q2R_half. Qed.

  (** the prefactors *)
  Definition prem (m : R) (q : rmom) : R :=
    if Reqb m 0 then 0 else / 2 * sqrt ((v_0 q - Pmag q) / (v_0 q + Pmag q)).
  Definition prep (m : R) (q : rmom) : R :=
    if Reqb m 0 then 1 else / 2 * sqrt ((v_0 q + Pmag q) / (v_0 q - Pmag q)).

  Definition rgen (m : R) (q : rmom) (g : generator) : cmatrix num :=
    let c := hc q in let s := hs q in let x := cos (phi q) in let y := sin (phi q) in
    let C := c * c - s * s in let S := 2 * s * c in
    let up := 2 * (c * c) in let dn := 2 * (s * s) in   (* 1+cos, 1-cos *)
    let a := prem m q in let b := prep m q in
    match g with
    | LJ3lu => CMr (- (/2 * C), 0) (- (/2 * S * x), /2 * S * y) (- (/2 * S * x), - (/2 * S * y)) (/2 * C, 0)
    | LJPlu => CMr (a * S, 0) (a * dn * x, - (a * dn * y)) (- (a * up * x), - (a * up * y)) (- (a * S), 0)
    | LJMulD => CMr (a * S, 0) (- (a * up * x), a * up * y) (a * dn * x, a * dn * y) (- (a * S), 0)
    | LJMlu => CMr (b * S, 0) (- (b * up * x), b * up * y) (b * dn * x, b * dn * y) (- (b * S), 0)
    | LJPulD => CMr (b * S, 0) (b * dn * x, - (b * dn * y)) (- (b * up * x), - (b * up * y)) (- (b * S), 0)
    | LJ3ul | LJ3luD => CMr (/2 * C, 0) (/2 * S * x, /2 * S * y) (/2 * S * x, - (/2 * S * y)) (- (/2 * C), 0)
    | LJPul => CMr (- (a * S), 0) (a * up * x, a * up * y) (- (a * dn * x), a * dn * y) (a * S, 0)
    | LJMul => CMr (- (b * S), 0) (- (b * dn * x), - (b * dn * y)) (b * up * x, - (b * up * y)) (b * S, 0)
    | LJPluD => CMr (- (b * S), 0) (b * up * x, b * up * y) (- (b * dn * x), b * dn * y) (b * S, 0)
    | LJMluD => CMr (- (a * S), 0) (- (a * dn * x), - (a * dn * y)) (a * up * x, - (a * up * y)) (a * S, 0)
    | LJ3ulD => CMr (- (/2 * C), 0) (- (/2 * S * x), /2 * S * y) (- (/2 * S * x), - (/2 * S * y)) (/2 * C, 0)
    | SJ3lu => CMr (- / 2, 0) (0, 0) (0, 0) (/ 2, 0)
    | SJPlu => CMr (0, 0) (0, 0) (- x, - y) (0, 0)
    | SJMlu => CMr (0, 0) (- x, y) (0, 0) (0, 0)
    | SJ3ul => CMr (/ 2, 0) (0, 0) (0, 0) (- / 2, 0)
    | SJPul => CMr (0, 0) (x, y) (0, 0) (0, 0)
    | SJMul => CMr (0, 0) (0, 0) (x, - y) (0, 0)
    end.

  (** A generator that evaluates std::polar(cos(theta)-1, .). *)
  Definition ladder (g : generator) : bool :=
    match g with
    | LJPlu | LJMlu | LJPul | LJMul | LJPluD | LJMluD | LJPulD | LJMulD => true
    | _ => false
    end.

  Lemma one_plus q : 1 + cos (theta q) = 2 * (hc q * hc q).
  Proof. rewrite cos_theta_half. pose proof (hc_hs q). lra. Qed.
  Lemma minus_one q : - 1 + cos (theta q) = - (2 * (hs q * hs q)).
  Proof. rewrite cos_theta_half. pose proof (hc_hs q). lra. Qed.
  Lemma sin_th_nonneg q : 0 <= sin (theta q).
  Proof. rewrite sin_theta_half. pose proof (hs_nonneg q). pose proof (hc_nonneg q). nra. Qed.

  Lemma pre_minus_real m q P : described m q P -> pre_minus (num:=num) P 0 = Ok (prem m q).
  Proof.
    intros H. unfold pre_minus, prem. rewrite (de_m _ _ _ _ _ H). cbn [obind].
    change (@teqb num) with Reqb. change (@tZ num 0) with 0.
    destruct (Reqb m 0); cbn [negb]; [reflexivity|].
    rewrite (de_p0 _ _ _ _ _ H), (de_pmag _ _ _ _ _ H). cbn [obind]. rewrite half_real. reflexivity.
  Qed.
  Lemma pre_plus_real m q P : described m q P -> pre_plus (num:=num) P 1 = Ok (prep m q).
  Proof.
    intros H. unfold pre_plus, prep. rewrite (de_m _ _ _ _ _ H). cbn [obind].
    change (@teqb num) with Reqb. change (@tZ num 0) with 0.
    destruct (Reqb m 0); cbn [negb]; [reflexivity|].
    rewrite (de_p0 _ _ _ _ _ H), (de_pmag _ _ _ _ _ H). cbn [obind]. rewrite half_real. reflexivity.
  Qed.
  Lemma polar_neg r t : r < 0 -> polar (num:=num) r t = if st then UB NegativePolar else Ok (r * cos t, r * sin t).
  Proof.
    intros H. unfold polar. simpl. destruct st; [|reflexivity].
    destruct (Rgeb r 0) eqn:E; [|reflexivity]. apply Rgeb_true in E. lra.
  Qed.
  (** std::polar(-1+cos theta, t), undefined unless the momentum points along +z. *)
  Lemma polar_minus q t :
    polar (num:=num) (- (2 * (hs q * hs q))) t =
    if (if Req_EM_T (hs q) 0 then false else st) then UB NegativePolar
    else Ok (- (2 * (hs q * hs q)) * cos t, - (2 * (hs q * hs q)) * sin t).
  Proof.
    destruct (Req_EM_T (hs q) 0) as [E|E].
    - apply polar_real. rewrite E. lra.
    - apply polar_neg. nra.
  Qed.

  Lemma generator_real m q P g : described m q P ->
    generator_matrix (num:=num) g P =
    if ladder g && (if Req_EM_T (hs q) 0 then false else st) then UB NegativePolar else Ok (rgen m q g).
  Proof.
    intros H.
    assert (Hup : 0 <= 2 * (hc q * hc q)) by nra.
    pose proof (sin_th_nonneg q) as HS.
    destruct g; unfold generator_matrix; cbn [ladder andb]; unfold one_;
      change (@tZ num 0) with 0; change (@tZ num 1) with 1;
      try rewrite (pre_minus_real _ _ _ H); try rewrite (pre_plus_real _ _ _ H);
      try rewrite (de_theta _ _ _ _ _ H); try rewrite (de_phi _ _ _ _ _ H); cbn [obind];
      change (@tsin num) with sin; change (@tcos num) with cos; change (@tadd num) with Rplus;
      change (@topp num) with Ropp; try rewrite half_real;
      change (Scalar.T num) with R in *;
      try rewrite one_plus; try rewrite minus_one; try rewrite !polar_minus;
      rewrite ?polar_real by first [assumption|lra]; cbn [obind];
      rewrite ?cos_neg, ?sin_neg, ?sin_theta_half, ?cos_theta_half;
      destruct (if Req_EM_T (hs q) 0 then false else st); cbn [obind]; try reflexivity;
      f_equal; unfold rgen; unfold cT, cone, c0;
      apply CM_ext; apply C_ext;
      cbn -[Rplus Rmult Ropp Rminus Rdiv Rinv IZR hc hs prem prep cos sin];
      ring.
  Qed.

  (** ** The spinor matrices *)
  Lemma transparent_spinor_matrix d u : transparent (spinor_matrix (num:=num) d u).
  Proof.
    unfold spinor_matrix. apply transparent_bind; [apply transparent_spinor2|intros a].
    apply transparent_bind; [apply transparent_spinor2|intros b]. apply transparent_lift.
  Qed.
  Definition rmatrix (q : rmom) (d : side) (u : bool) : cmatrix num :=
    let a := rspinor st eps q (d, kind_of (-1) u) in let b := rspinor st eps q (d, kind_of 1 u) in
    CMr (cv0 a) (cv0 b) (cv1 a) (cv1 b).
  Lemma spinor_matrix_real m q (P : particle num) d u : described m q P -> m <> 0 ->
    fst (spinor_matrix d u P) = Ok (rmatrix q d u).
  Proof.
    intros H Hm.
    assert (E : Reqb m 0 = false) by (apply Reqb_false; exact Hm).
    pose proof (spinor2_real st eps m q P d (-1)%Z u H) as A. rewrite E in A. cbn [Z.eqb Pos.eqb negb andb] in A.
    unfold spinor_matrix, sbind.
    pose proof (transparent_spinor2 (num:=num) d (-1)%Z u P
      (empty_coh _ (de_mat _ _ _ _ _ H) (de_vec _ _ _ _ _ H))) as (T1 & T2 & T3).
    destruct (spinor2 d (-1) u P) as [r1 P1]. cbn [fst snd] in *. subst r1.
    destruct (transparent_spinor2 (num:=num) d 1%Z u P1 T2) as (T4 & _ & _).
    destruct (transparent_spinor2 (num:=num) d 1%Z u P
      (empty_coh _ (de_mat _ _ _ _ _ H) (de_vec _ _ _ _ _ H))) as (T5 & _ & _).
    pose proof (spinor2_real st eps m q P d 1%Z u H) as B. rewrite E in B. cbn [Z.eqb Pos.eqb negb andb] in B.
    rewrite T3, <- T5, B in T4.
    destruct (spinor2 d 1 u P1) as [r2 P2]. cbn [fst] in T4. subst r2. reflexivity.
  Qed.
  Lemma ready_spinor_matrix m q (P : particle num) d u : ready (num:=num) m q P -> m <> 0 ->
    fst (spinor_matrix d u P) = Ok (rmatrix q d u).
  Proof.
    intros HR Hm. destruct (ready_described _ _ _ _ _ _ (transparent_spinor_matrix d u) HR) as (_ & P1 & HD & ->).
    exact (spinor_matrix_real _ _ _ _ _ HD Hm).
  Qed.
  Lemma ready_generator m q (P : particle num) g : ready (num:=num) m q P ->
    generator_matrix (num:=num) g P =
    if ladder g && (if Req_EM_T (hs q) 0 then false else st) then UB NegativePolar else Ok (rgen m q g).
  Proof.
    intros HR.
    assert (T : transparent (num:=num) (sconst (generator_matrix g)))
      by (apply transparent_const; intros; destruct g; reflexivity).
    destruct (ready_described _ _ _ _ _ _ T HR) as (_ & P1 & HD & E).
    unfold sconst in E. cbn [fst] in E. rewrite E. exact (generator_real _ _ _ _ HD).
  Qed.

  (** ** Prefactors of a massive particle *)
  Lemma pre_massive m q : on_shell m q -> m <> 0 -> 0 <= v_0 q ->
    exists k l, prem m q = / 2 * k /\ prep m q = / 2 * l /\ k * rtp q = rtm q /\ l * rtm q = rtp q /\ k * l = 1.
  Proof.
    intros H Hm H0.
    pose proof (rtp_rtm m q H H0) as E.
    assert (Ha : 0 < Rabs m) by (apply Rabs_pos_lt; exact Hm).
    assert (P0 : 0 <= rtp q) by apply sqrt_pos. assert (M0 : 0 <= rtm q) by apply sqrt_pos.
    assert (Pn : rtp q <> 0) by (intros F; rewrite F in E; lra).
    assert (Mn : rtm q <> 0) by (intros F; rewrite F in E; lra).
    pose proof (rtp_sq m q H H0) as Ep. pose proof (rtm_sq m q H H0) as Em.
    exists (rtm q / rtp q), (rtp q / rtm q).
    unfold prem, prep. assert (F : Reqb m 0 = false) by (apply Reqb_false; exact Hm). rewrite F.
    rewrite <- Ep, <- Em.
    split; [|split; [|split; [|split]]]; try (field; auto).
    - f_equal. rewrite <- (sqrt_square (rtm q / rtp q)).
      + f_equal. field. exact Pn.
      + apply Rmult_le_pos; [exact M0|]. left. apply Rinv_0_lt_compat. lra.
    - f_equal. rewrite <- (sqrt_square (rtp q / rtm q)).
      + f_equal. field. exact Mn.
      + apply Rmult_le_pos; [exact P0|]. left. apply Rinv_0_lt_compat. lra.
  Qed.
  Lemma pre_massless q : prem 0 q = 0 /\ prep 0 q = 1.
  Proof. unfold prem, prep. rewrite Reqb_refl. auto. Qed.
End Gen.

(** Forget everything about the angles but the two Pythagorean identities. *)
Ltac angledata q :=
  let U := fresh "U" in let V := fresh "V" in
  pose proof (hc_hs q) as U; pose proof (phi_unit q) as V;
  let W := fresh "W" in assert (W : 2 * / 2 = 1) by lra; generalize dependent (/ 2); intros;
  unfold hsx, hsy; generalize dependent (hc q); intros; generalize dependent (hs q); intros;
  generalize dependent (cos (phi q)); intros; generalize dependent (sin (phi q)); intros.
Ltac gen_reals :=
  apply CM_ext; apply C_ext;
  cbn -[Rplus Rmult Ropp Rminus Rdiv Rinv IZR hc hs hsx hsy rtp rtm Pmag prem prep cos sin];
  unfold Cmult, Cplus, Cminus, Copp, Cconj, RtoC;
  cbn -[Rplus Rmult Ropp Rminus Rdiv Rinv IZR hc hs hsx hsy rtp rtm Pmag prem prep cos sin].
Ltac gen_reals_v :=
  apply CV_ext; apply C_ext;
  cbn -[Rplus Rmult Ropp Rminus Rdiv Rinv IZR hc hs hsx hsy rtp rtm Pmag prem prep cos sin];
  unfold Cmult, Cplus, Cminus, Copp, Cconj, RtoC;
  cbn -[Rplus Rmult Ropp Rminus Rdiv Rinv IZR hc hs hsx hsy rtp rtm Pmag prem prep cos sin].

(** ** Which generator acts on which spinor *)
Inductive axis : Type := J3 | JP | JM.
(** Lorentz generators acting from the left on |p>, <p|, [p| and |p]: the comments at
    source/particle.cpp 476-477, 502, 529-530, 555. *)
Definition lorentz_on (d : side) (j : axis) : generator :=
  match d, j with
  | RAngle, J3 => LJ3lu | RAngle, JP => LJPlu | RAngle, JM => LJMlu
  | LAngle, J3 => LJ3ul | LAngle, JP => LJPul | LAngle, JM => LJMul
  | LSquare, J3 => LJ3luD | LSquare, JP => LJPluD | LSquare, JM => LJMluD
  | RSquare, J3 => LJ3ulD | RSquare, JP => LJPulD | RSquare, JM => LJMulD
  end.
(** Spin generators acting from the right on an upper ([true]) or lower index: the
    comments at source/particle.cpp 583-584 and 605. *)
Definition spin_on (upper : bool) (j : axis) : generator :=
  match upper, j with
  | true, J3 => SJ3lu | true, JP => SJPlu | true, JM => SJMlu
  | false, J3 => SJ3ul | false, JP => SJPul | false, JM => SJMul
  end.

Section Ident.
  Variables (st : bool) (eps : R).
  Notation num := (RN st eps).
  Notation rmom := (vec4 R).
  Notation gen := (rgen st eps).

  Lemma lorentz_is_spin m q d u j : on_shell m q -> m <> 0 -> 0 <= v_0 q ->
    cm_mul (gen m q (lorentz_on d j)) (rmatrix st eps q d u) =
    cm_mul (rmatrix st eps q d u) (gen m q (spin_on u j)).
  Proof.
    intros H Hm H0. destruct (pre_massive m q H Hm H0) as (k & l & Ek & El & K & L & KL).
    assert (K' : rtm q = 2 * prem m q * rtp q) by (rewrite Ek; lra).
    assert (KL' : 4 * prem m q * prep m q = 1) by (rewrite Ek, El; lra).
    clear k l Ek El K L KL Hm.
    destruct d, u, j; gen_reals; rewrite ?K'; clear H H0 K'; angledata q;
      generalize dependent (rtp q); generalize dependent (prem m q);
      generalize dependent (prep m q); intros; first [ring_simplify; lra | nsatz].
  Qed.

  Definition comm (a b : cmatrix num) : cmatrix num := cm_sub (cm_mul a b) (cm_mul b a).
  Lemma commutators_lorentz m q d : on_shell m q -> m <> 0 -> 0 <= v_0 q ->
    comm (gen m q (lorentz_on d J3)) (gen m q (lorentz_on d JP)) = gen m q (lorentz_on d JP) /\
    comm (gen m q (lorentz_on d J3)) (gen m q (lorentz_on d JM)) = cm_opp (gen m q (lorentz_on d JM)) /\
    comm (gen m q (lorentz_on d JP)) (gen m q (lorentz_on d JM)) = cm_scalet (num:=num) (gen m q (lorentz_on d J3)) 2.
  Proof.
    intros H Hm H0. destruct (pre_massive m q H Hm H0) as (k & l & Ek & El & K & L & KL).
    assert (KL' : 4 * prem m q * prep m q = 1) by (rewrite Ek, El; lra).
    clear k l Ek El K L KL Hm.
    unfold comm. destruct d; (split; [|split]); gen_reals; clear H H0; angledata q;
      generalize dependent (prem m q); generalize dependent (prep m q); intros; nsatz.
  Qed.
  Lemma commutators_spin m q u :
    comm (gen m q (spin_on u J3)) (gen m q (spin_on u JP)) = gen m q (spin_on u JP) /\
    comm (gen m q (spin_on u J3)) (gen m q (spin_on u JM)) = cm_opp (gen m q (spin_on u JM)) /\
    comm (gen m q (spin_on u JP)) (gen m q (spin_on u JM)) = cm_scalet (num:=num) (gen m q (spin_on u J3)) 2.
  Proof.
    unfold comm. destruct u; (split; [|split]); gen_reals; angledata q; nsatz.
  Qed.
  Lemma commutators_massless q d :
    comm (gen 0 q (lorentz_on d J3)) (gen 0 q (lorentz_on d JP)) = gen 0 q (lorentz_on d JP) /\
    comm (gen 0 q (lorentz_on d J3)) (gen 0 q (lorentz_on d JM)) = cm_opp (gen 0 q (lorentz_on d JM)).
  Proof.
    destruct (pre_massless q) as [E1 E2].
    unfold comm. destruct d; split; gen_reals; rewrite ?E1, ?E2; clear E1 E2; angledata q; nsatz.
  Qed.
  (** helicity of the spinors: -1/2 for |p> and <p|, +1/2 for [p| and |p] *)
  Definition helicity (d : side) : R :=
    match d with RAngle | LAngle => - / 2 | LSquare | RSquare => / 2 end.
  Lemma helicity_massless q d :
    cm_mul_cv (gen 0 q (lorentz_on d J3)) (rspinor st eps q (d, M0)) =
      cv_scale (num:=num) (RtoC (helicity d)) (rspinor st eps q (d, M0)) /\
    cm_mul_cv (gen 0 q (lorentz_on d JP)) (rspinor st eps q (d, M0)) = zero_vec st eps /\
    cm_mul_cv (gen 0 q (lorentz_on d JM)) (rspinor st eps q (d, M0)) = zero_vec st eps.
  Proof.
    destruct (pre_massless q) as [E1 E2].
    destruct d; (split; [|split]); gen_reals_v; rewrite ?E1, ?E2; clear E1 E2; angledata q;
      generalize dependent (rtp q); intros; nsatz.
  Qed.
End Ident.
