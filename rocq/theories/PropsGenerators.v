(** * Properties C36 and C37: the generators *)
From Coq Require Import Reals Lra.
From Coquelicot Require Import Complex.
From Verif Require Import Base Scalar Linear Particle ParticleProofs RealNum SpecSpinor
  ParticleReal SpinorReal Ready ParticleClaims GeneratorReal PropsParticle.
Open Scope R_scope.

(** ** C36

    These are statements about the usual behaviour of std::polar for any magnitude (st =
    false); what the standard says is property C37.  [lorentz_on d j] is the Lorentz
    generator J3, J+ or J- the library offers for spinors of kind d (|p>, <p|, [p|, |p]),
    [spin_on u j] the spin generator for upper or lower spin indices. *)
Theorem C36_massive :
  forall eps (m : R) (q : vec4 R) (P : particle (RN false eps)), ready (num:=RN false eps) m q P ->
    on_shell m q -> m <> 0 -> 0 <= v_0 q ->
    forall (d : side) (u : bool) (j : axis),
    exists L S M,
      generator_matrix (lorentz_on d j) P = Ok L /\ generator_matrix (spin_on u j) P = Ok S /\
      fst (spinor_matrix d u P) = Ok M /\
      cm_mul L M = cm_mul M S.
Proof.
  intros eps m q P HR H Hm H0 d u j.
  rewrite !(ready_generator _ _ _ _ _ _ HR), (ready_spinor_matrix _ _ _ _ _ d u HR Hm).
  replace (if Req_EM_T (hs q) 0 then false else false) with false by (destruct (Req_EM_T (hs q) 0); reflexivity).
  rewrite !andb_false_r.
  do 3 eexists. do 3 (split; [reflexivity|]). exact (lorentz_is_spin false eps m q d u j H Hm H0).
Qed.
Print Assumptions C36_massive.

(** The columns of the spinor matrices are the spinors with spin -1 and +1. *)
Theorem C36_spinor_matrix_columns :
  forall (num : Num) (P : particle num) (d : side) (u : bool) (M : cmatrix num),
    coh P -> fst (spinor_matrix d u P) = Ok M ->
    fst (spinor2 d (-1) u P) = Ok (CV (m00 M) (m10 M)) /\ fst (spinor2 d 1 u P) = Ok (CV (m01 M) (m11 M)).
Proof.
  intros num P d u M HC. unfold spinor_matrix, sbind.
  destruct (transparent_spinor2 (num:=num) d (-1)%Z u P HC) as (_ & C1 & U1).
  destruct (spinor2 d (-1) u P) as [[[a0 a1]|e|x] P1]; cbn [fst snd] in *; try discriminate.
  destruct (transparent_spinor2 (num:=num) d 1%Z u P1 C1) as (K1 & _ & _).
  destruct (transparent_spinor2 (num:=num) d 1%Z u P HC) as (K2 & _ & _).
  rewrite U1, <- K2 in K1.
  destruct (spinor2 d 1 u P1) as [[[b0 b1]|e|x] P2]; cbn [fst snd] in *; try discriminate.
  intros E. cbn in E. injection E as <-. cbn. auto.
Qed.
Print Assumptions C36_spinor_matrix_columns.

Theorem C36_massless :
  forall eps (q : vec4 R) (P : particle (RN false eps)), ready (num:=RN false eps) 0 q P ->
    forall d : side,
    let helicity := match d with RAngle | LAngle => - / 2 | LSquare | RSquare => / 2 end in
    exists L3 LP LM v,
      generator_matrix (lorentz_on d J3) P = Ok L3 /\ generator_matrix (lorentz_on d JP) P = Ok LP /\
      generator_matrix (lorentz_on d JM) P = Ok LM /\ fst (spinor0 d P) = Ok v /\
      cm_mul_cv L3 v = cv_scale (num:=RN false eps) (RtoC helicity) v /\
      cm_mul_cv LP v = zero_vec false eps /\ cm_mul_cv LM v = zero_vec false eps.
Proof.
  intros eps q P HR d helicity.
  rewrite !(ready_generator _ _ _ _ _ _ HR), (ready_spinor0 _ _ _ _ _ d HR), Reqb_refl.
  replace (if Req_EM_T (hs q) 0 then false else false) with false by (destruct (Req_EM_T (hs q) 0); reflexivity).
  rewrite !andb_false_r.
  do 4 eexists. do 4 (split; [reflexivity|]). exact (helicity_massless false eps q d).
Qed.
Print Assumptions C36_massless.

(** [J3,J+] = J+, [J3,J-] = -J-, [J+,J-] = 2 J3 *)
Definition su2 {num : Num} (j3 jp jm : cmatrix num) : Prop :=
  cm_sub (cm_mul j3 jp) (cm_mul jp j3) = jp /\
  cm_sub (cm_mul j3 jm) (cm_mul jm j3) = cm_opp jm /\
  cm_sub (cm_mul jp jm) (cm_mul jm jp) = cm_scalet j3 (tZ 2).

Theorem C36_commutators_partial :
  forall eps (m : R) (q : vec4 R) (P : particle (RN false eps)), ready (num:=RN false eps) m q P ->
    (on_shell m q -> m <> 0 -> 0 <= v_0 q -> forall d : side,
     exists L3 LP LM,
       generator_matrix (lorentz_on d J3) P = Ok L3 /\ generator_matrix (lorentz_on d JP) P = Ok LP /\
       generator_matrix (lorentz_on d JM) P = Ok LM /\ su2 L3 LP LM) /\
    (forall u : bool, exists S3 SP SM,
       generator_matrix (spin_on u J3) P = Ok S3 /\ generator_matrix (spin_on u JP) P = Ok SP /\
       generator_matrix (spin_on u JM) P = Ok SM /\ su2 S3 SP SM) /\
    (* massless: the first two relations only *)
    (m = 0 -> forall d : side,
     exists L3 LP LM,
       generator_matrix (lorentz_on d J3) P = Ok L3 /\ generator_matrix (lorentz_on d JP) P = Ok LP /\
       generator_matrix (lorentz_on d JM) P = Ok LM /\
       cm_sub (cm_mul L3 LP) (cm_mul LP L3) = LP /\ cm_sub (cm_mul L3 LM) (cm_mul LM L3) = cm_opp LM).
Proof.
  intros eps m q P HR.
  assert (G : forall g, generator_matrix g P = Ok (rgen false eps m q g)).
  { intros g. rewrite (ready_generator _ _ _ _ _ _ HR).
    replace (if Req_EM_T (hs q) 0 then false else false) with false by (destruct (Req_EM_T (hs q) 0); reflexivity).
    now rewrite andb_false_r. }
  split; [|split].
  - intros H Hm H0 d. do 3 eexists. do 3 (split; [apply G|]).
    exact (commutators_lorentz false eps m q d H Hm H0).
  - intros u. do 3 eexists. do 3 (split; [apply G|]). exact (commutators_spin false eps m q u).
  - intros -> d. do 3 eexists. do 3 (split; [apply G|]). exact (commutators_massless false eps q d).
Qed.
Print Assumptions C36_commutators_partial.

(** For a massless particle [J+,J-] = 2 J3 is false: one of the two ladder generators is
    the zero matrix. *)
Theorem C36_massless_commutator_refuted :
  forall eps (q : vec4 R) (P : particle (RN false eps)), ready (num:=RN false eps) 0 q P ->
    forall d : side, exists L3 LP LM,
      generator_matrix (lorentz_on d J3) P = Ok L3 /\ generator_matrix (lorentz_on d JP) P = Ok LP /\
      generator_matrix (lorentz_on d JM) P = Ok LM /\
      cm_sub (cm_mul LP LM) (cm_mul LM LP) <> cm_scalet (num:=RN false eps) L3 (tZ 2).
Proof.
  intros eps q P HR d.
  assert (G : forall g, generator_matrix g P = Ok (rgen false eps 0 q g)).
  { intros g. rewrite (ready_generator _ _ _ _ _ _ HR).
    replace (if Req_EM_T (hs q) 0 then false else false) with false by (destruct (Req_EM_T (hs q) 0); reflexivity).
    now rewrite andb_false_r. }
  do 3 eexists. do 3 (split; [apply G|]). intros E.
  destruct (pre_massless q) as [E1 E2].
  assert (A : fst (m00 (cm_scalet (num:=RN false eps) (rgen false eps 0 q (lorentz_on d J3)) (tZ 2))) = 0).
  { rewrite <- E. destruct d;
    cbn -[Rplus Rmult Ropp Rminus Rdiv Rinv IZR hc hs prem prep cos sin]; rewrite ?E1, ?E2; ring. }
  assert (B : fst (m01 (cm_scalet (num:=RN false eps) (rgen false eps 0 q (lorentz_on d J3)) (tZ 2))) = 0).
  { rewrite <- E. destruct d;
    cbn -[Rplus Rmult Ropp Rminus Rdiv Rinv IZR hc hs prem prep cos sin]; rewrite ?E1, ?E2; ring. }
  assert (B' : snd (m01 (cm_scalet (num:=RN false eps) (rgen false eps 0 q (lorentz_on d J3)) (tZ 2))) = 0).
  { rewrite <- E. destruct d;
    cbn -[Rplus Rmult Ropp Rminus Rdiv Rinv IZR hc hs prem prep cos sin]; rewrite ?E1, ?E2; ring. }
  pose proof (hc_hs q) as U. pose proof (phi_unit q) as V.
  assert (K : (hc q * hc q - hs q * hs q) = 0 /\ hs q * hc q * cos (phi q) = 0 /\ hs q * hc q * sin (phi q) = 0).
  { destruct d; cbn -[Rplus Rmult Ropp Rminus Rdiv Rinv IZR hc hs prem prep cos sin] in A, B, B';
      repeat split; lra. }
  destruct K as (K1 & K2 & K3).
  assert (K4 : hs q * hc q = 0).
  { replace (hs q * hc q) with (hs q * hc q * cos (phi q) * cos (phi q) + hs q * hc q * sin (phi q) * sin (phi q))
      by (replace (hs q * hc q) with (hs q * hc q * 1) at 3 by ring; rewrite <- V; ring).
    rewrite K2, K3. ring. }
  nra.
Qed.
Print Assumptions C36_massless_commutator_refuted.
Example C36_example : forall eps, 0 <= eps ->
  (exists P, ready (num:=RN false eps) 12 q13 P /\ on_shell 12 q13 /\ 0 <= v_0 q13) /\
  (exists P, ready (num:=RN false eps) 0 qz P).
Proof.
  intros eps He. destruct (C05_example false eps He) as [(P & H) (P' & H')].
  split; [exists P|exists P'; exact H'].
  split; [exact H|]. split; [apply q13_shell|simpl; lra].
Qed.

(** ** C37 *)
Definition along_z (q : vec4 R) : Prop := v_1 q = 0 /\ v_2 q = 0 /\ 0 <= v_3 q.
Definition is_ladder (g : generator) : Prop :=
  ~ In g [LJ3lu; LJ3ul; LJ3luD; LJ3ulD; SJ3lu; SJPlu; SJMlu; SJ3ul; SJPul; SJMul].

Lemma hs_zero q : hs q = 0 <-> along_z q.
Proof.
  split.
  - intros H. assert (Hx : hsx q = 0) by (unfold hsx; rewrite H; ring).
    assert (Hy : hsy q = 0) by (unfold hsy; rewrite H; ring).
    split; [|split].
    + rewrite mom1_half, Hx. ring.
    + rewrite mom2_half, Hy. ring.
    + rewrite mom3_half, Hx, Hy. pose proof (Pmag_nonneg q). nra.
  - intros (H1 & H2 & H3).
    assert (E : Pxy q = 0) by (unfold Pxy; rewrite H1, H2; replace (0 * 0 + 0 * 0) with 0 by ring; apply sqrt_0).
    unfold hs. replace (theta q) with 0; [replace (0 / 2) with 0 by field; apply sin_0|].
    unfold theta, Ratan2. rewrite E. destruct (Rlt_dec 0 (v_3 q)).
    + replace (0 / v_3 q) with 0 by (field; lra). now rewrite atan_0.
    + destruct (Rlt_dec (v_3 q) 0); [lra|]. destruct (Rlt_dec 0 0); [lra|]. destruct (Rlt_dec 0 0); lra.
Qed.
Lemma ladder_is g : ladder g = true <-> is_ladder g.
Proof.
  unfold is_ladder. destruct g; simpl; split; intros H; try discriminate; try reflexivity;
    try (intuition discriminate); exfalso; apply H; auto 12.
Qed.

(** By the letter of the standard the eight ladder generators have undefined behaviour
    for every momentum that does not point along +z. *)
Theorem C37_polar_domain_refuted :
  forall eps (m : R) (q : vec4 R) (P : particle (RN true eps)) (g : generator),
    ready (num:=RN true eps) m q P -> is_ladder g -> ~ along_z q ->
    generator_matrix g P = UB NegativePolar.
Proof.
  intros eps m q P g HR Hg Hq. rewrite (ready_generator _ _ _ _ _ _ HR).
  apply ladder_is in Hg. rewrite Hg.
  destruct (Req_EM_T (hs q) 0) as [E|E]; [|reflexivity].
  apply hs_zero in E. contradiction.
Qed.
Print Assumptions C37_polar_domain_refuted.
Example C37_example : forall eps, 0 <= eps ->
  exists P, ready (num:=RN true eps) 12 q13 P /\ generator_matrix LJPlu P = UB NegativePolar.
Proof.
  intros eps He. destruct (C05_example true eps He) as [(P & H) _]. exists P. split; [exact H|].
  apply (C37_polar_domain_refuted _ _ _ _ _ H).
  - apply ladder_is. reflexivity.
  - intros (E & _). simpl in E. lra.
Qed.

(** What does hold: the J3 and spin generators, for every particle in use, and the
    ladder generators along +z, stay within the domain. *)
Theorem C37_polar_domain_partial :
  forall eps (m : R) (q : vec4 R) (P : particle (RN true eps)) (g : generator),
    ready (num:=RN true eps) m q P -> ~ is_ladder g \/ along_z q ->
    exists M, generator_matrix g P = Ok M.
Proof.
  intros eps m q P g HR Hg. rewrite (ready_generator _ _ _ _ _ _ HR).
  destruct Hg as [Hg|Hq].
  - rewrite <- ladder_is in Hg. apply not_true_is_false in Hg. rewrite Hg. simpl. eauto.
  - apply hs_zero in Hq. destruct (Req_EM_T (hs q) 0); [|contradiction]. rewrite andb_false_r. eauto.
Qed.
Print Assumptions C37_polar_domain_partial.
